(** * P_Compose: one filter after the other, through the text *)
From Coq Require Import List Ascii String ZArith NArith Bool Reals Lra Lia.
From Verif Require Import PyBase Arith ArithR ArithB64 Gcoder Filters SpecText SpecLoad SpecMachine SpecFilter SpecBinary64.
From Verif Require Import P_Text P_Format P_Load P_FilesText P_Filter P_Machine P_FilterMotion P_FloatText P_FloatMotion.
Import ListNotations.
Local Open Scope list_scope.

(** ** Written lines are read back as they are *)

Definition tight (s : string) : Prop := blank s = false /\ strip s = s.

Lemma tight_text : forall ss, Forall tight ss -> program_text ss = ss.
Proof.
  intros ss H. unfold program_text. induction H as [|s ss [H1 H2] _ IH]; [reflexivity|].
  cbn [filter]. rewrite H1. cbn [negb map]. now rewrite H2, IH.
Qed.

Lemma program_tight : forall data, Forall tight (program_text data).
Proof.
  intros data. unfold program_text. induction data as [|s data IH]; [constructor|].
  cbn [filter]. destruct (blank s) eqn:B; cbn [negb]; [exact IH|]. cbn [map]. constructor; [|exact IH]. split.
  - rewrite <- is_empty_strip, strip_twice, is_empty_strip. exact B.
  - apply strip_twice.
Qed.

Lemma rstrip_end_solid : forall s t, t <> ""%string -> rstrip t = t -> rstrip (s ++ t) = (s ++ t)%string.
Proof.
  intros s t N H. induction s as [|c s IH]; [exact H|]. cbn [String.append rstrip]. rewrite IH.
  destruct (s ++ t)%string eqn:E; [|reflexivity]. destruct s; [now destruct t|discriminate E].
Qed.

Lemma rstrip_solid : forall s, str_all (fun c => negb (is_space c)) s = true -> rstrip s = s.
Proof.
  induction s as [|c s IH]; [reflexivity|]. cbn [str_all rstrip]. intros H.
  apply andb_true_iff in H as [H1 H2]. rewrite (IH H2). destruct s; [|reflexivity].
  destruct (is_space c); [discriminate H1|reflexivity].
Qed.

Lemma digits_solid : forall s, str_all is_digit s = true -> str_all (fun c => negb (is_space c)) s = true.
Proof.
  induction s as [|c s IH]; [reflexivity|]. cbn [str_all]. intros H. apply andb_true_iff in H as [H1 H2].
  rewrite (IH H2), andb_true_r. all_chars c; first [reflexivity|discriminate H1].
Qed.

Section Every.
Context {A : arith}.

Lemma fmt_solid : forall d (x : num A), fmt d x <> ""%string /\ rstrip (fmt d x) = fmt d x.
Proof.
  intros d x. assert (H : str_all (fun c => negb (is_space c)) (fmt d x) = true /\ fmt d x <> ""%string).
  { unfold fmt. destruct (n_dec d x) as [neg m|neg|]; [|destruct neg; (split; [reflexivity|discriminate])|split; [reflexivity|discriminate]].
    assert (D : str_all (fun c => negb (is_space c)) (dec_string d m) = true /\ dec_string d m <> ""%string).
    { unfold dec_string. split.
      - rewrite str_all_app, (digits_solid _ (N_to_string_digits _)). destruct d; [reflexivity|].
        cbn [andb]. apply (digits_solid _ (digits_fixed_all (S d) _)).
      - pose proof (N_to_string_nonempty (m / pow10 d)) as Hn. destruct (N_to_string (m / pow10 d)); [discriminate Hn|discriminate]. }
    destruct neg; [|exact D]. split; [exact (proj1 D)|discriminate]. }
  split; [apply H|apply rstrip_solid, H].
Qed.

Lemma rstrip_words : forall (a : args A) ks c, rstrip c = c -> rstrip (c ++ String.concat "" (map (word_text a) ks)) = (c ++ String.concat "" (map (word_text a) ks))%string.
Proof.
  intros a. assert (Hcat : forall k ks, String.concat "" (map (word_text a) (k :: ks)) = (word_text a k ++ String.concat "" (map (word_text a) ks))%string).
  { intros k ks. cbn [map String.concat]. destruct (map (word_text a) ks) eqn:Em; [|reflexivity]. cbn. now rewrite str_app_nil. }
  induction ks as [|k ks IH]; intros c H; [cbn; now rewrite str_app_nil|]. rewrite Hcat, <- str_app_assoc.
  apply IH. unfold word_text. destruct (get_arg k a) as [v|]; [|now rewrite str_app_nil].
  destruct (fmt_solid (match k with LE => 5 | _ => 3 end) v) as [N S].
  pose proof (rstrip_end_solid (c ++ " " ++ letter_upper k) _ N S) as R. rewrite !str_app_assoc in R. exact R.
Qed.

Lemma unsplit_tight : forall c (a : args A), rstrip c = c ->
  match c with String x _ => is_space x = false | _ => False end -> tight (unsplit_text c a).
Proof.
  intros c a H Hx. pose proof (rstrip_words a all_letters c H) as R. fold (unsplit_text c a) in R.
  destruct c as [|x c]; [destruct Hx|]. unfold unsplit_text in *. cbn [String.append] in *. split.
  - unfold blank. cbn [str_all]. now rewrite Hx.
  - unfold strip. cbn [lstrip]. rewrite Hx. exact R.
Qed.

Lemma motion_tight : forall (l : line A) (a : args A), is_motion l = true ->
  tight (unsplit_text (match command l with Some c => c | None => "" end) a).
Proof.
  intros l a H. unfold is_motion in H. destruct (command l) as [c|]; [|discriminate H].
  apply str_mem_in in H. cbn [In] in H.
  repeat (destruct H as [<-|H]; [apply unsplit_tight; reflexivity|]). destruct H.
Qed.

Lemma command_tight : forall (l : line A) (a : args A), is_command "G92" l = true ->
  tight (unsplit_text (match command l with Some c => c | None => "" end) a).
Proof.
  intros l a H. unfold is_command in H. destruct (command l) as [c|]; [|discriminate H].
  apply String.eqb_eq in H. subst c. apply unsplit_tight; reflexivity.
Qed.

(** both filters write lines that are read back as they are *)
Lemma tr_tight : forall st (l : line A), tight (raw l) -> tight (raw (answer tr_opcode st l)).
Proof.
  intros st l H. unfold answer, tr_opcode. rewrite !cmd_is_command, cmd_in_motion.
  destruct (is_motion l) eqn:Hm.
  - destruct (tr_absolute st) as [[|]|]; cbn [snd]; try exact H.
    destruct (shift_two (tr_x st) (tr_y st) l) as (_ & _ & _ & _ & _ & _ & [S|S]); cbv zeta in S; rewrite S; [exact H|].
    now apply motion_tight.
  - destruct (is_command "G90" l); [exact H|]. destruct (is_command "G91" l); [exact H|].
    destruct (is_command "G92" l) eqn:H92; [|exact H].
    destruct (no_xyz l); [|destruct (l_x l), (l_y l)]; cbn [snd unsplit raw set_raw command set_arg set_args];
      now apply command_tight.
Qed.

Lemma rel_tight : forall st (l : line A), tight (raw l) -> tight (raw (answer rel_opcode st l)).
Proof.
  intros st l H. unfold answer, rel_opcode. rewrite !cmd_is_command, cmd_in_motion.
  destruct (is_command "M83" l); [exact H|]. destruct (is_command "M82" l); [split; reflexivity|].
  destruct (is_command "G92" l); [destruct (l_e l); exact H|].
  destruct (is_motion l) eqn:Hm; cbn [andb]; [|exact H]. destruct (r_relative st); cbn [negb]; [exact H|].
  destruct (l_e l); [|exact H]. cbn [snd unsplit raw set_raw command set_arg set_args mark_relative_e set_notes].
  now apply motion_tight.
Qed.

Lemma answers_tight : forall St (f : St -> line A -> St * fresult (A:=A)),
  (forall st l, tight (raw l) -> tight (raw (answer f st l))) ->
  forall ls st, Forall tight (map raw ls) -> Forall tight (map raw (answers f st ls)).
Proof.
  intros St f Hf. induction ls as [|l ls IH]; intros st H; [constructor|].
  cbn [answers map] in *. inversion H; subst. constructor; [now apply Hf|now apply IH].
Qed.

Lemma write_all : forall g : gcode A, write g = map raw (all_lines g).
Proof. reflexivity. Qed.

Lemma translate_text : forall x y (g g' : gcode A), translate x y g = Ok g' ->
  Forall tight (write g) -> Forall tight (write g').
Proof.
  intros x y g g' H. destruct (translate_pure x y g g' H) as (Ha & _). rewrite !write_all, Ha. apply (answers_tight _ _ tr_tight).
Qed.

Lemma relative_text : forall g g' : gcode A, to_relative_extrusion g = Ok g' ->
  Forall tight (write g) -> Forall tight (write g').
Proof.
  intros g g' H. destruct (relative_pure g g' H) as (Ha & _). rewrite !write_all, Ha. apply (answers_tight _ _ rel_tight).
Qed.

Lemma load_tight : forall light home data (g : gcode A), load_gen light home data = Ok g -> Forall tight (write g).
Proof. intros light home data g H. rewrite (load_write _ _ _ _ H). apply program_tight. Qed.

End Every.

(** ** A translated program can be translated again *)

Local Open Scope R_scope.

Definition kept (s s' : string) : Prop :=
  (forall a p, t_step a p s <> None -> t_step a p s' = t_step a p s) /\
  match op_of s, op_of s' with
  | Absolute, Absolute | Move _ _ _, Move _ _ _ => True
  | (Absolute | Move _ _ _), _ => False
  | _, (Absolute | Move _ _ _) => False
  | _, _ => True
  end.

Lemma kept_same : forall s, kept s s.
Proof. intros s. split; [auto|]. destruct (op_of s); exact I. Qed.

Lemma near_named : forall d w' w a, near d (w' a) (w a) -> named w' a = named w a.
Proof. intros d w' w a H. unfold near in H. unfold named. destruct (w' a), (w a); try contradiction; reflexivity. Qed.

Lemma kept_move : forall s s' w e f w' e' f', op_of s = Move w e f -> op_of s' = Move w' e' f' ->
  (forall a, named w' a = named w a) -> kept s s'.
Proof.
  intros s s' w e f w' e' f' H H' Hn. split; [|now rewrite H, H'].
  intros a p _. unfold t_step. rewrite H, H', Hn. reflexivity.
Qed.

Lemma resets_some : forall w, resets w X || resets w Y || resets w Z = true.
Proof. intros w. unfold resets. destruct (named w X), (named w Y), (named w Z); reflexivity. Qed.

Lemma kept_set : forall s s' w e w' e', op_of s = SetPosition w e -> op_of s' = SetPosition w' e' ->
  (forall a, named w' a = resets w a) -> kept s s'.
Proof.
  intros s s' w e w' e' H H' Hn. split; [|now rewrite H, H'].
  intros a p Hp. unfold t_step in *. rewrite H in *. rewrite H'. destruct (bare w e); [congruence|].
  assert (Hr : resets w' a = resets w a).
  { unfold resets at 1. rewrite !Hn, resets_some. cbn [negb]. rewrite andb_false_r, orb_false_r. reflexivity. }
  assert (Hb : bare w' e' = false).
  { unfold bare. rewrite !Hn, resets_some. reflexivity. }
  now rewrite Hr, Hb.
Qed.

Lemma kept_run : forall a ss ss', Forall2 kept ss ss' -> forall p, t_run a p ss <> None -> t_run a p ss' = t_run a p ss.
Proof.
  intros a ss ss' H. induction H as [|s s' ss ss' [K _] _ IH]; intros p Hp; [reflexivity|]. cbn [t_run] in *.
  specialize (K a p). destruct (t_step a p s) as [q|]; [|congruence]. rewrite K by discriminate. now apply IH.
Qed.

Lemma kept_declared : forall ss ss', Forall2 kept ss ss' -> declared ss' = declared ss.
Proof.
  intros ss ss' H. induction H as [|s s' ss ss' [_ K] _ IH]; [reflexivity|]. cbn [declared].
  destruct (op_of s), (op_of s'); try contradiction; first [reflexivity|exact IH].
Qed.

Lemma kept_firstn : forall ss ss', Forall2 kept ss ss' -> forall i, Forall2 kept (firstn i ss) (firstn i ss').
Proof. intros ss ss' H. induction H; intros [|i]; cbn [firstn]; constructor; auto. Qed.

Lemma near_axes : forall (d : R) (w' w : axis -> option R) (h : axis -> R -> R),
  (forall a, near d (w' a) (option_map (h a) (w a))) -> forall a, named w' a = named w a.
Proof.
  intros d w' w h H a. specialize (H a). unfold named. destruct (w' a), (w a); cbn in H; try contradiction; reflexivity.
Qed.

Lemma near_resets : forall (d : R) (w' w : axis -> option R) (h : axis -> R),
  (forall a, near d (w' a) (if resets w a then Some (h a) else None)) -> forall a, named w' a = resets w a.
Proof.
  intros d w' w h H a. specialize (H a). unfold named. destruct (w' a), (resets w a); cbn in H; try contradiction; reflexivity.
Qed.

Section Exact.
Context {A : arith} (E : exact A).

Lemma tr_kept : forall s (l : line A) st, reads E s l -> 
  (tr_absolute st = Some true \/ (tr_absolute st = None /\ match op_of s with Move _ _ _ => False | _ => True end)) ->
  kept s (raw (answer tr_opcode st l)).
Proof.
  intros s l st Hr Hm. destruct (op_of s) as [w e f|w|w e| | | | | | |n|] eqn:Eop.
  1: { destruct Hm as [Hm|[_ Hm]]; [|destruct Hm].
       destruct (tr_move E s l st w e f Hr Eop Hm) as (_ & w' & e' & f' & Ho & Hw & _).
       apply (kept_move _ _ _ _ _ _ _ _ Eop Ho). apply (near_axes _ _ _ _ Hw). }
  2: { destruct (tr_set E s l st w e Hr Eop) as (_ & _ & w' & e' & Ho & _ & Hw).
       apply (kept_set _ _ _ _ _ _ Eop Ho). apply (near_resets _ _ _ _ Hw). }
  all: destruct (tr_other E s l st Hr) as (-> & _); [rewrite Eop; exact I|apply kept_same].
Qed.

Lemma tr_mode : forall s (l : line A) st, reads E s l -> op_of s <> Relative ->
  (tr_absolute st = Some true \/ (tr_absolute st = None /\ match op_of s with Move _ _ _ => False | _ => True end)) ->
  tr_absolute (tr_next st l) = match op_of s with Absolute => Some true | _ => tr_absolute st end.
Proof.
  intros s l st Hr Hn Hm. destruct (op_of s) as [w e f|w|w e| | | | | | |n|] eqn:Eop; try congruence.
  1: { destruct Hm as [Hm|[_ Hm]]; [|destruct Hm].
       destruct (tr_move E s l st w e f Hr Eop Hm) as (-> & _). reflexivity. }
  2: { destruct (tr_set E s l st w e Hr Eop) as (H & _). exact H. }
  all: destruct (tr_other E s l st Hr) as (_ & _ & H); [rewrite Eop; exact I|]; rewrite H, Eop; reflexivity.
Qed.

Lemma t_run_relative : forall ss p, t_run X p ss <> None -> Forall (fun s => op_of s <> Relative) ss.
Proof.
  induction ss as [|s ss IH]; intros p H; constructor; cbn [t_run] in H;
    destruct (t_step X p s) as [q|] eqn:Eq; try congruence.
  - intros Ho. unfold t_step in Eq. rewrite Ho in Eq. discriminate Eq.
  - apply (IH q H).
Qed.

Lemma tr_run_kept : forall ss (ls : list (line A)), Forall2 (reads E) ss ls -> Forall (fun s => op_of s <> Relative) ss ->
  forall st, (tr_absolute st = Some true \/ (tr_absolute st = None /\ declared ss = true)) ->
  Forall2 kept ss (map raw (answers tr_opcode st ls)).
Proof.
  intros ss ls H. induction H as [|s l ss ls Hr _ IH]; intros Hf st Hm; [constructor|]. inversion Hf as [|? ? Hs Hfs]; subst.
  assert (Hm1 : tr_absolute st = Some true \/
        (tr_absolute st = None /\ match op_of s with Move _ _ _ => False | _ => True end)).
  { destruct Hm as [Hm|[Hm Hd]]; [now left|right]. split; [exact Hm|]. cbn [declared] in Hd.
    destruct (op_of s); try exact I. discriminate Hd. }
  cbn [answers map]. constructor; [now apply tr_kept|]. apply IH; [exact Hfs|]. fold (tr_next st l).
  rewrite (tr_mode s l st Hr Hs Hm1). cbn [declared] in Hm.
  destruct (op_of s); first [exact Hm|now left|idtac]. destruct Hm1 as [Hm1|[_ []]]. now left.
Qed.

Lemma translate_kept : forall home data x y (g g' : gcode A), load_gen false home data = Ok g ->
  translate x y g = Ok g' -> declared (program_text data) = true ->
  (forall a, t_run a Homed (program_text data) <> None) ->
  program_text (write g') = write g' /\ Forall2 kept (program_text data) (write g').
Proof.
  intros home data x y g g' H H' Hd Hq. split.
  - apply tight_text, (translate_text _ _ _ _ H'), (load_tight _ _ _ _ H).
  - destruct (translate_pure x y g g' H') as (Ha & _). rewrite write_all, Ha.
    apply tr_run_kept; [apply (load_reads E _ _ _ H (t_run_inches _ _ (Hq X)))|apply (t_run_relative _ _ (Hq X))|].
    right. rewrite tr_init_of. auto.
Qed.

Lemma translate_twice : forall home data x1 y1 x2 y2 x y (g g1 h h2 g2 : gcode A),
  load_gen false home data = Ok g -> translate x1 y1 g = Ok g1 ->
  load_gen false home (write g1) = Ok h -> translate x2 y2 h = Ok h2 ->
  translate x y g = Ok g2 ->
  (forall a, shift_amount E x y a = shift_amount E x1 y1 a + shift_amount E x2 y2 a) ->
  declared (program_text data) = true -> (forall a, t_run a Homed (program_text data) <> None) ->
  forall i a, Rabs (head (run (firstn i (write h2)) (start (fun _ => 0))) a -
                    head (run (firstn i (write g2)) (start (fun _ => 0))) a) <= 3 / 1000.
Proof.
  intros home data x1 y1 x2 y2 x y g g1 h h2 g2 Hg H1 Hh H2 H3 Hs Hd Hq i a.
  destruct (translate_kept _ _ _ _ _ _ Hg H1 Hd Hq) as [Ht Hk].
  assert (Hd' : declared (program_text (write g1)) = true).
  { rewrite Ht. now rewrite (kept_declared _ _ Hk). }
  assert (Hq' : forall b, t_run b Homed (program_text (write g1)) <> None).
  { intros b. rewrite Ht, (kept_run b _ _ Hk _ (Hq b)). apply Hq. }
  destruct (translate_moves E _ _ _ _ _ _ Hg H1 Hd Hq i a) as (p1 & P1 & B1).
  destruct (translate_moves E _ _ _ _ _ _ Hg H3 Hd Hq i a) as (p3 & P3 & B3).
  destruct (translate_moves E _ _ _ _ _ _ Hh H2 Hd' Hq' i a) as (p2 & P2 & B2).
  rewrite Ht in P2, B2. rewrite (kept_run a _ _ (kept_firstn _ _ Hk i)) in P2 by (rewrite P1; discriminate).
  rewrite P1 in P2, P3. injection P2 as <-. injection P3 as <-. rewrite Hs in B3.
  revert B1 B2 B3.
  generalize (head (run (firstn i (write h2)) (start (fun _ => 0))) a), (head (run (firstn i (write g1)) (start (fun _ => 0))) a),
    (head (run (firstn i (write g2)) (start (fun _ => 0))) a), (head (run (firstn i (program_text data)) (start (fun _ => 0))) a),
    (shift_amount E x1 y1 a), (shift_amount E x2 y2 a).
  intros u v w z s1 s2 B1 B2 B3. destruct (moved p1); unfold Rabs in *; repeat destruct Rcase_abs in *; lra.
Qed.

Lemma translate_back : forall home data x1 y1 x2 y2 (g g1 h h2 : gcode A),
  load_gen false home data = Ok g -> translate x1 y1 g = Ok g1 ->
  load_gen false home (write g1) = Ok h -> translate x2 y2 h = Ok h2 ->
  (forall a, shift_amount E x1 y1 a + shift_amount E x2 y2 a = 0) ->
  declared (program_text data) = true -> (forall a, t_run a Homed (program_text data) <> None) ->
  forall i a, Rabs (head (run (firstn i (write h2)) (start (fun _ => 0))) a -
                    head (run (firstn i (program_text data)) (start (fun _ => 0))) a) <= 2 / 1000.
Proof.
  intros home data x1 y1 x2 y2 g g1 h h2 Hg H1 Hh H2 Hs Hd Hq i a.
  destruct (translate_kept _ _ _ _ _ _ Hg H1 Hd Hq) as [Ht Hk].
  assert (Hd' : declared (program_text (write g1)) = true).
  { rewrite Ht. now rewrite (kept_declared _ _ Hk). }
  assert (Hq' : forall b, t_run b Homed (program_text (write g1)) <> None).
  { intros b. rewrite Ht, (kept_run b _ _ Hk _ (Hq b)). apply Hq. }
  destruct (translate_moves E _ _ _ _ _ _ Hg H1 Hd Hq i a) as (p1 & P1 & B1).
  destruct (translate_moves E _ _ _ _ _ _ Hh H2 Hd' Hq' i a) as (p2 & P2 & B2).
  rewrite Ht in P2, B2. rewrite (kept_run a _ _ (kept_firstn _ _ Hk i)) in P2 by (rewrite P1; discriminate).
  rewrite P1 in P2. injection P2 as <-. specialize (Hs a). revert B1 B2 Hs.
  generalize (head (run (firstn i (write h2)) (start (fun _ => 0))) a), (head (run (firstn i (write g1)) (start (fun _ => 0))) a),
    (head (run (firstn i (program_text data)) (start (fun _ => 0))) a),
    (shift_amount E x1 y1 a), (shift_amount E x2 y2 a).
  intros u v z s1 s2 B1 B2 Hs. destruct (moved p1); unfold Rabs in *; repeat destruct Rcase_abs in *; lra.
Qed.

End Exact.

(** ** The same with doubles *)

Lemma ftr_kept : forall s (l : line B64) st, freads s l -> modest_shift (tr_x st) -> modest_shift (tr_y st) ->
  (tr_absolute st = Some true \/ (tr_absolute st = None /\ match op_of s with Move _ _ _ => False | _ => True end)) ->
  kept s (raw (answer tr_opcode st l)).
Proof.
  intros s l st Hr Mx My Hm. destruct (op_of s) as [w e f|w|w e| | | | | | |n|] eqn:Eop.
  1: { destruct Hm as [Hm|[_ Hm]]; [|destruct Hm].
       destruct (ftr_move s l st w e f Hr Eop Mx My Hm) as (_ & w' & e' & f' & Ho & Hw & _).
       apply (kept_move _ _ _ _ _ _ _ _ Eop Ho). apply (near_axes _ _ _ _ Hw). }
  2: { destruct (ftr_set s l st w e Hr Eop Mx My) as (_ & _ & w' & e' & Ho & _ & Hw).
       apply (kept_set _ _ _ _ _ _ Eop Ho). apply (near_resets _ _ _ _ Hw). }
  all: destruct (ftr_other s l st Hr) as (-> & _); [rewrite Eop; exact I|apply kept_same].
Qed.

Lemma ftr_mode : forall s (l : line B64) st, freads s l -> op_of s <> Relative ->
  modest_shift (tr_x st) -> modest_shift (tr_y st) ->
  (tr_absolute st = Some true \/ (tr_absolute st = None /\ match op_of s with Move _ _ _ => False | _ => True end)) ->
  tr_absolute (tr_next st l) = match op_of s with Absolute => Some true | _ => tr_absolute st end.
Proof.
  intros s l st Hr Hn Mx My Hm. destruct (op_of s) as [w e f|w|w e| | | | | | |n|] eqn:Eop; try congruence.
  1: { destruct Hm as [Hm|[_ Hm]]; [|destruct Hm].
       destruct (ftr_move s l st w e f Hr Eop Mx My Hm) as (-> & _). reflexivity. }
  2: { destruct (ftr_set s l st w e Hr Eop Mx My) as (H & _). exact H. }
  all: destruct (ftr_other s l st Hr) as (_ & _ & H); [rewrite Eop; exact I|]; rewrite H, Eop; reflexivity.
Qed.

Lemma ftr_run_kept : forall ss (ls : list (line B64)), Forall2 freads ss ls -> Forall (fun s => op_of s <> Relative) ss ->
  forall st, modest_shift (tr_x st) -> modest_shift (tr_y st) ->
  (tr_absolute st = Some true \/ (tr_absolute st = None /\ declared ss = true)) ->
  Forall2 kept ss (map raw (answers tr_opcode st ls)).
Proof.
  intros ss ls H. induction H as [|s l ss ls Hr _ IH]; intros Hf st Mx My Hm; [constructor|]. inversion Hf as [|? ? Hs Hfs]; subst.
  assert (Hm1 : tr_absolute st = Some true \/
        (tr_absolute st = None /\ match op_of s with Move _ _ _ => False | _ => True end)).
  { destruct Hm as [Hm|[Hm Hd]]; [now left|right]. split; [exact Hm|]. cbn [declared] in Hd.
    destruct (op_of s); try exact I. discriminate Hd. }
  destruct (tr_next_fields st l) as (_ & F2 & F3).
  cbn [answers map]. constructor; [now apply ftr_kept|]. apply IH; [exact Hfs|..]; fold (tr_next st l).
  - rewrite F2. destruct (rebases LX l); [exact I|exact Mx].
  - rewrite F3. destruct (rebases LY l); [exact I|exact My].
  - rewrite (ftr_mode s l st Hr Hs Mx My Hm1). cbn [declared] in Hm.
    destruct (op_of s); first [exact Hm|now left|idtac]. destruct Hm1 as [Hm1|[_ []]]. now left.
Qed.

Lemma translate_kept_B64 : forall home data x y (g g' : gcode B64), load_gen false home data = Ok g ->
  translate x y g = Ok g' -> declared (program_text data) = true ->
  (forall a, t_run a Homed (program_text data) <> None) ->
  Forall modest (program_text data) -> modest_shift x -> modest_shift y ->
  program_text (write g') = write g' /\ Forall2 kept (program_text data) (write g').
Proof.
  intros home data x y g g' H H' Hd Hq Hmo Mx My. split.
  - apply tight_text, (translate_text _ _ _ _ H'), (load_tight _ _ _ _ H).
  - destruct (translate_pure x y g g' H') as (Ha & _). rewrite write_all, Ha.
    apply ftr_run_kept; [apply (load_freads _ _ _ H (t_run_inches _ _ (Hq X)) Hmo)|apply (t_run_relative _ _ (Hq X))|..];
      rewrite tr_init_of.
    + apply (shift_of_modest x Mx).
    + apply (shift_of_modest y My).
    + right. auto.
Qed.

Lemma translate_twice_B64 : forall home data x1 y1 x2 y2 x y (g g1 h h2 g2 : gcode B64),
  load_gen false home data = Ok g -> translate x1 y1 g = Ok g1 ->
  load_gen false home (write g1) = Ok h -> translate x2 y2 h = Ok h2 ->
  translate x y g = Ok g2 ->
  declared (program_text data) = true -> (forall a, t_run a Homed (program_text data) <> None) ->
  Forall modest (program_text data) -> Forall modest (write g1) ->
  modest_shift x1 -> modest_shift y1 -> modest_shift x2 -> modest_shift y2 -> modest_shift x -> modest_shift y ->
  forall i a, Rabs (head (run (firstn i (write h2)) (start (fun _ => 0))) a -
                    head (run (firstn i (write g2)) (start (fun _ => 0))) a)
    <= 3 / 1000 + 3 / 10 ^ 9 + Rabs (fshift_amount x y a - (fshift_amount x1 y1 a + fshift_amount x2 y2 a)).
Proof.
  intros home data x1 y1 x2 y2 x y g g1 h h2 g2 Hg H1 Hh H2 H3 Hd Hq Hm Hm1 M1 N1 M2 N2 M N i a.
  destruct (translate_kept_B64 _ _ _ _ _ _ Hg H1 Hd Hq Hm M1 N1) as [Ht Hk].
  assert (Hd' : declared (program_text (write g1)) = true).
  { rewrite Ht. now rewrite (kept_declared _ _ Hk). }
  assert (Hq' : forall b, t_run b Homed (program_text (write g1)) <> None).
  { intros b. rewrite Ht, (kept_run b _ _ Hk _ (Hq b)). apply Hq. }
  rewrite <- Ht in Hm1.
  destruct (translate_moves_B64 _ _ _ _ _ _ Hg H1 Hd Hq Hm M1 N1 i a) as (p1 & P1 & B1).
  destruct (translate_moves_B64 _ _ _ _ _ _ Hg H3 Hd Hq Hm M N i a) as (p3 & P3 & B3).
  destruct (translate_moves_B64 _ _ _ _ _ _ Hh H2 Hd' Hq' Hm1 M2 N2 i a) as (p2 & P2 & B2).
  rewrite Ht in P2, B2. rewrite (kept_run a _ _ (kept_firstn _ _ Hk i)) in P2 by (rewrite P1; discriminate).
  rewrite P1 in P2, P3. injection P2 as <-. injection P3 as <-.
  revert B1 B2 B3.
  generalize (head (run (firstn i (write h2)) (start (fun _ => 0))) a), (head (run (firstn i (write g1)) (start (fun _ => 0))) a),
    (head (run (firstn i (write g2)) (start (fun _ => 0))) a), (head (run (firstn i (program_text data)) (start (fun _ => 0))) a),
    (fshift_amount x1 y1 a), (fshift_amount x2 y2 a), (fshift_amount x y a).
  replace (3 / 10 ^ 9) with (3 * / 10 ^ 9) by (unfold Rdiv; ring).
  assert (T : 0 < / 10 ^ 9) by (apply Rinv_0_lt_compat; cbn [pow]; lra).
  generalize dependent (/ 10 ^ 9). intros t T u v w z s1 s2 s B1 B2 B3.
  destruct (moved p1); unfold Rabs in *; repeat destruct Rcase_abs in *; lra.
Qed.

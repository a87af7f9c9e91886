(** * P_Reload: what the filters write can be read *)
From Coq Require Import List Ascii String ZArith NArith Bool Reals Lia Lra.
From Flocq Require Import Core BinarySingleNaN.
From Verif Require Import PyBase Arith ArithR ArithB64 Gcoder Filters SpecText SpecLoad SpecMachine SpecMod SpecEqual SpecFilter SpecBinary64.
From Verif Require Import P_Text P_Format P_Load P_Wf P_Machine P_Filter P_FilterMotion P_Compose P_LayersKept P_LayersKeptNum.
From Verif Require Import P_Float P_FloatText P_FloatMotion P_FloatMod P_FloatWf.
Import ListNotations.
Local Open Scope list_scope.

Section Every.
Context {A : arith}.
Notation line := (line A).

(** a feed rate that is written without a sign *)
Definition plain_feed (o : option (num A)) : Prop := forall f, o = Some f -> exists m, n_dec 3 f = DFin false m.

(** what a filter does to a line *)
Definition form (l l' : line) : Prop :=
  raw l' = raw l \/ raw l' = "M83"%string \/
  exists c, command l = Some c /\ rewritten l /\ raw l' = unsplit_text c (largs l') /\ l_f l' = l_f l.

Lemma fmt_plain : forall (x : num A) m, n_dec 3 x = DFin false m -> startswith "-" (fmt 3 x) = false.
Proof.
  intros x m H. unfold fmt. rewrite H. cbn [String.append]. unfold dec_string.
  pose proof (N_to_string_nonempty (m / pow10 3)) as Hn. pose proof (N_to_string_digits (m / pow10 3)) as Hd.
  destruct (N_to_string (m / pow10 3)) as [|c t]; [discriminate Hn|]. cbn in Hd. apply andb_prop in Hd as [Hd _].
  cbn [String.append]. unfold startswith. cbn [String.prefix]. destruct (Ascii.ascii_dec "-" c) as [<-|]; [discriminate Hd|reflexivity].
Qed.

Lemma written_ok : forall c (a : args A), In c ["G0"; "G1"; "G2"; "G3"; "G92"]%string -> finite_args a -> plain_feed (a_f a) ->
  line_ok (unsplit_text c a) = true /\ feed_ok (unsplit_text c a) = true.
Proof.
  intros c a Hc Hf Hp.
  assert (Hg : exists v ip, c = String "G" v /\ num_shape v "" ip "" "" /\ has_digit v = true /\ String.eqb v "4" = false).
  { assert (Hs : forall t : string, (t = "0" \/ t = "1" \/ t = "2" \/ t = "3" \/ t = "92")%string ->
      num_shape t "" t "" "" /\ has_digit t = true /\ String.eqb t "4" = false).
    { intros t Ht. repeat (destruct Ht as [Ht|Ht]); subst t; (split; [constructor; cbn; auto|split; reflexivity]). }
    cbn [In] in Hc. repeat (destruct Hc as [<-|Hc]); try destruct Hc;
      (eexists _, _; split; [reflexivity|]; apply Hs; auto 10). }
  destruct Hg as (v & ip & -> & Hv & Hd & H4).
  assert (Hw : words (unsplit_text (String "G" v) a) = ("g"%string, v) :: flat_map (word_of a) all_letters) by apply (words_unsplit _ _ _ _ _ _ Hv Hf).
  assert (K : forall w, In w (flat_map (word_of a) all_letters) -> word_ok w = true /\
    negb (String.eqb (fst w) "f" && startswith "-" (snd w)) = true).
  { intros w Hin. apply in_flat_map in Hin as (k & _ & Hin). unfold word_of in Hin.
    destruct (get_arg k a) as [x|] eqn:Ek; [|destruct Hin]. destruct Hin as [<-|[]]. cbn [fst snd].
    destruct (Hf k x Ek) as (neg & m & Hx). split.
    - unfold word_ok. cbn [snd]. apply orb_true_iff. right.
      assert (Hk : exists d, decimals k = S d) by (destruct k; eexists; reflexivity). destruct Hk as [d Hk]. rewrite Hk in *.
      rewrite (has_digit_shape _ _ _ _ _ (fmt_shape d x neg m Hx)), N_to_string_nonempty. reflexivity.
    - destruct k; try reflexivity. destruct (Hp x Ek) as (m' & Hm). change (decimals LF) with 3%nat.
      rewrite (fmt_plain x m' Hm). reflexivity. }
  unfold line_ok, feed_ok. rewrite Hw. cbn [forallb fst snd]. change (String.eqb "g" "g") with true. change (String.eqb "g" "f") with false.
  rewrite H4. cbn [negb orb andb]. rewrite andb_true_r. unfold word_ok at 1. cbn [snd]. rewrite Hd, orb_true_r. cbn [orb andb].
  split; apply forallb_forall; intros w Hin; destruct (K w Hin) as [K1 K2]; [rewrite K1; reflexivity|exact K2].
Qed.

Lemma form_ok : forall l l' : line, form l l' -> line_ok (raw l) = true -> feed_ok (raw l) = true ->
  (rewritten l -> finite_args (largs l') /\ plain_feed (l_f l)) -> line_ok (raw l') = true /\ feed_ok (raw l') = true.
Proof.
  intros l l' H Hl Hf Hr. destruct H as [->|[->|(c & Hc & Hw & -> & Ef)]]; [auto|split; reflexivity|].
  destruct (Hr Hw) as [R1 R2]. apply written_ok.
  - unfold rewritten, is_motion, is_command in Hw. rewrite Hc in Hw. destruct Hw as [Hw|Hw].
    + apply str_mem_in in Hw. cbn [In] in *. tauto.
    + apply String.eqb_eq in Hw. subst c. cbn. auto 10.
  - exact R1.
  - change (a_f (largs l')) with (l_f l'). rewrite Ef. exact R2.
Qed.

Lemma tr_form : forall st (l : line), form l (answer tr_opcode st l).
Proof.
  intros st l. unfold form, rewritten, answer, tr_opcode. rewrite !cmd_is_command, cmd_in_motion.
  destruct (is_motion l) eqn:Hm.
  - destruct (tr_absolute st) as [[|]|]; cbn [snd]; try now left.
    destruct (shift_two (tr_x st) (tr_y st) l) as (S1 & _ & _ & _ & _ & S6 & [S|S]); cbv zeta in *; [rewrite S; now left|].
    right. right. pose proof Hm as Hm2. unfold is_motion in Hm2. destruct (command l) as [c|] eqn:Ec; [|discriminate Hm2].
    exists c. split; [reflexivity|]. split; [now left|]. split; [exact S|]. apply (S6 LF); discriminate.
  - destruct (is_command "G90" l); [now left|]. destruct (is_command "G91" l); [now left|].
    destruct (is_command "G92" l) eqn:H92; [|now left].
    pose proof H92 as H93. unfold is_command in H93. destruct (command l) as [c|] eqn:Ec; [|discriminate H93].
    right. right. exists c. split; [reflexivity|]. split; [now right|].
    destruct (no_xyz l); [|destruct (l_x l), (l_y l)];
      (split; [cbn [snd unsplit raw set_raw command set_arg set_args largs]; rewrite ?Ec; reflexivity|reflexivity]).
Qed.

Lemma rel_form : forall st (l : line), form l (answer rel_opcode st l).
Proof.
  intros st l. unfold form, rewritten, answer, rel_opcode. rewrite !cmd_is_command, cmd_in_motion.
  destruct (is_command "M83" l); [now left|].
  destruct (is_command "M82" l) eqn:H82; [right; now left|].
  destruct (is_command "G92" l); [destruct (l_e l); now left|].
  destruct (is_motion l) eqn:Hm; cbn [andb]; [|now left]. destruct (r_relative st); cbn [negb]; [now left|].
  destruct (l_e l); [|now left]. right. right.
  pose proof Hm as Hm2. unfold is_motion in Hm2. destruct (command l) as [c|] eqn:Ec; [|discriminate Hm2].
  exists c. split; [reflexivity|]. split; [now left|].
  split; [cbn [snd unsplit raw set_raw command set_arg set_args mark_relative_e set_notes largs]; rewrite ?Ec; reflexivity|reflexivity].
Qed.

Lemma answers_form : forall St (f : St -> line -> St * fresult (A:=A)), (forall st l, form l (answer f st l)) ->
  forall ls st, Forall (fun l => line_ok (raw l) = true /\ feed_ok (raw l) = true) ls ->
  Forall2 (fun l l' => rewritten l -> finite_args (largs l') /\ plain_feed (l_f l)) ls (answers f st ls) ->
  Forall (fun s => line_ok s = true /\ feed_ok s = true) (map raw (answers f st ls)).
Proof.
  intros St f Hf. induction ls as [|l ls IH]; intros st Hl Hr; [constructor|]. cbn [answers map] in *.
  inversion Hr; subst. inversion Hl as [|? ? [L1 L2] L3]; subst. constructor; [apply (form_ok l); auto|now apply IH].
Qed.

Lemma loaded_texts : forall home data (g : gcode A), load_gen false home data = Ok g -> Forall (fun s => feed_ok s = true) (program_text data) ->
  Forall (fun l => line_ok (raw l) = true /\ feed_ok (raw l) = true) (g_lines g).
Proof.
  intros home data g Hg Hf. pose proof (load_total (A:=A) false home data) as Ht. rewrite Hg in Ht.
  apply load_trace in Hg as (ls & T & L). rewrite (L eq_refl). clear L. induction T as [|m s l m1 ts ls m' Hs T IH]; [constructor|].
  inversion Hf; subst. inversion Ht; subst. constructor; [|now apply IH].
  rewrite (motion_step_raw _ _ _ _ Hs). auto.
Qed.

Lemma loaded_feeds : forall (P : option (num A) -> Prop) home data (g : gcode A),
  (forall (m m' : mstate A) s l, feed_ok s = true -> motion_step m (new_line s) = Ok (m', l) -> P (l_f l)) ->
  load_gen false home data = Ok g -> Forall (fun s => feed_ok s = true) (program_text data) -> Forall (fun l => P (l_f l)) (g_lines g).
Proof.
  intros P home data g HP Hg Hf. apply load_trace in Hg as (ls & T & L). rewrite (L eq_refl). clear L.
  induction T as [|m s l m1 ts ls m' Hs T IH]; [constructor|]. inversion Hf; subst. constructor; [|now apply IH].
  apply (HP _ _ _ _ ltac:(eassumption) Hs).
Qed.

End Every.

Lemma pair_all : forall (X Y : Type) (P : X -> Prop) (Q R : X -> Y -> Prop) xs ys, Forall P xs -> Forall2 Q xs ys ->
  (forall x y, P x -> Q x y -> R x y) -> Forall2 R xs ys.
Proof. intros X Y P Q R xs ys HP H HR. induction H; constructor; inversion HP; subst; auto. Qed.

Lemma pair_length : forall (X Y : Type) (xs : list X) (ys : list Y), List.length xs = List.length ys -> Forall2 (fun _ _ => True) xs ys.
Proof. intros X Y. induction xs as [|x xs IH]; intros [|y ys] H; try discriminate H; constructor; auto. Qed.

(** ** Exact arithmetic *)

Section Exact.
Context {A : arith} (E : exact A).

Lemma exact_plain : forall o : option (num A), feed_nonneg E o -> plain_feed o.
Proof.
  intros o H f ->. cbn in H. destruct (val_dec A E 3 f) as (neg & m & Hd & Hn & _). exists m. rewrite Hd. f_equal.
  destruct neg; [|reflexivity]. exfalso. pose proof (proj1 Hn eq_refl). lra.
Qed.

Lemma exact_pairs : forall home data (g : gcode A) ls, load_gen false home data = Ok g -> Forall (fun s => feed_ok s = true) (program_text data) ->
  List.length (g_lines g) = List.length ls ->
  Forall2 (fun l (l' : line A) => rewritten l -> finite_args (largs l') /\ plain_feed (l_f l)) (g_lines g) ls.
Proof.
  intros home data g ls Hg Hf Hl. eapply pair_all; [|apply pair_length; exact Hl|].
  - apply (loaded_feeds (feed_nonneg E) home data g (motion_feed E) Hg Hf).
  - intros l l' Hn _ _. split; [apply (exact_finite E)|apply exact_plain, Hn].
Qed.

Lemma translate_reload : forall light home home' data x y (g g1 : gcode A), load_gen false home data = Ok g ->
  Forall (fun s => feed_ok s = true) (program_text data) -> translate x y g = Ok g1 ->
  exists h, load_gen (A:=A) light home' (write g1) = Ok h.
Proof.
  intros light home home' data x y g g1 Hg Hf H1. destruct (translated_text _ _ _ _ _ _ Hg H1) as [Ha Ht].
  apply (load_well_formed E). rewrite Ht, Ha. apply (answers_form _ _ tr_form).
  - apply (loaded_texts _ _ _ Hg Hf).
  - apply (exact_pairs _ _ _ _ Hg Hf). symmetry. apply answers_length.
Qed.

Lemma relative_reload : forall light home home' data (g g1 : gcode A), load_gen false home data = Ok g ->
  Forall (fun s => feed_ok s = true) (program_text data) -> to_relative_extrusion g = Ok g1 ->
  exists h, load_gen (A:=A) light home' (write g1) = Ok h.
Proof.
  intros light home home' data g g1 Hg Hf H1. destruct (converted_text _ _ _ _ Hg H1) as [Ha Ht].
  apply (load_well_formed E). rewrite Ht, Ha. apply (answers_form _ _ rel_form).
  - apply (loaded_texts _ _ _ Hg Hf).
  - apply (exact_pairs _ _ _ _ Hg Hf). symmetry. apply answers_length.
Qed.

End Exact.

(** ** Doubles *)

Lemma float_plain : forall (l : line B64), feed_up (l_f l) -> all_fin (largs l) -> plain_feed (l_f l).
Proof.
  intros l Hu Hf f Ef. pose proof (Hf LF f Ef) as Ff. rewrite Ef in Hu. destruct Hu as (b & -> & _ & Hs).
  destruct (f_dec_val 3 _ Ff) as (neg & m & Hd & Hn & _). exists m. change (n_dec (a:=B64) 3 (B2SF b)) with (f_dec 3 (B2SF b)).
  rewrite Hd. f_equal. destruct neg; [|reflexivity]. exfalso.
  destruct b as [s|s| |s p e B]; cbn in Hs; try subst s.
  - cbn in Hd. discriminate Hd.
  - destruct Ff as [_ Ff]. discriminate Ff.
  - destruct Ff as [_ Ff]. discriminate Ff.
  - unfold f_dec in Hd. cbn in Hd. discriminate Hd.
Qed.

Lemma float_reload_pairs : forall home data (g : gcode B64) ls, load_gen false home data = Ok g -> Forall (fun s => feed_ok s = true) (program_text data) ->
  metric (program_text data) -> Forall modest (program_text data) ->
  Forall2 (fun l (l' : line B64) => rewritten l -> all_fin (largs l')) (g_lines g) ls ->
  Forall2 (fun l (l' : line B64) => rewritten l -> finite_args (largs l') /\ plain_feed (l_f l)) (g_lines g) ls.
Proof.
  intros home data g ls Hg Hf Hm Hmo Hl.
  pose proof (load_freads _ _ _ Hg Hm Hmo) as Hr. rewrite (load_all_lines _ _ _ _ Hg) in Hr.
  pose proof (loaded_feeds feed_up home data g motion_up Hg Hf) as Hu.
  refine (pair_all _ _ (fun l => feed_up (l_f l) /\ (rewritten l -> all_fin (largs l))) _ _ _ _ _ Hl _).
  - clear -Hr Hu. induction Hr as [|s l ss ls Hs _ IH]; [constructor|]. inversion Hu; subst. constructor; [|now apply IH].
    split; [assumption|]. intros Hw. apply (freads_rewritten s l Hs Hw).
  - intros l l' [U1 U2] F Hw. split; [apply all_fin_finite, F, Hw|]. apply float_plain; auto.
Qed.

Lemma translate_reload_B64 : forall light home home' data x y (g g1 : gcode B64), load_gen false home data = Ok g ->
  Forall (fun s => feed_ok s = true) (program_text data) -> metric (program_text data) -> Forall modest (program_text data) ->
  modest_shift x -> modest_shift y -> translate x y g = Ok g1 -> exists h, load_gen (A:=B64) light home' (write g1) = Ok h.
Proof.
  intros light home home' data x y g g1 Hg Hf Hm Hmo Mx My H1. destruct (translated_text _ _ _ _ _ _ Hg H1) as [Ha Ht].
  destruct (tr_init_modest x y Mx My) as [Nx Ny].
  pose proof (load_freads _ _ _ Hg Hm Hmo) as Hr. rewrite (load_all_lines _ _ _ _ Hg) in Hr.
  apply load_well_formed_B64. rewrite Ht, Ha. apply (answers_form _ _ tr_form).
  - apply (loaded_texts _ _ _ Hg Hf).
  - apply (float_reload_pairs _ _ _ _ Hg Hf Hm Hmo), (ftr_fins _ _ Hr _ Nx Ny).
Qed.

Lemma relative_reload_B64 : forall light home home' data (g g1 : gcode B64), load_gen false home data = Ok g ->
  Forall (fun s => feed_ok s = true) (program_text data) -> metric (program_text data) -> Forall modest (program_text data) ->
  to_relative_extrusion g = Ok g1 -> exists h, load_gen (A:=B64) light home' (write g1) = Ok h.
Proof.
  intros light home home' data g g1 Hg Hf Hm Hmo H1. destruct (converted_text _ _ _ _ Hg H1) as [Ha Ht].
  pose proof (load_freads _ _ _ Hg Hm Hmo) as Hr. rewrite (load_all_lines _ _ _ _ Hg) in Hr.
  apply load_well_formed_B64. rewrite Ht, Ha. apply (answers_form _ _ rel_form).
  - apply (loaded_texts _ _ _ Hg Hf).
  - apply (float_reload_pairs _ _ _ _ Hg Hf Hm Hmo), (frel_fins _ _ Hr _ _ rel_init_holds).
Qed.

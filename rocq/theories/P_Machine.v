(** * P_Machine: the tracked state follows the reference machine *)
From Coq Require Import List Ascii String ZArith NArith Bool Lia Reals Lra.
From Verif Require Import PyBase Arith ArithR Gcoder SpecText SpecLoad SpecMachine.
From Verif Require Import P_Load P_Append P_Text P_Report P_Wf.
Import ListNotations.
Local Open Scope list_scope.

Section Generic.
Context {A : arith}.

(** The parsed line before the notes are written. *)
Definition parsed (s c : string) (imp : bool) (l : line A) : Prop :=
  raw l = s /\ command l = Some c /\ is_move l = str_mem c move_gcodes /\ lnotes l = no_notes /\
  (if first_is "G" c
   then foldM (parse_word imp) (words s)
          (set_command (Some c) (str_mem c move_gcodes) (new_line s)) = Ok l
   else largs l = no_args).

Definition position_notes (l : line A) (s1 s3 : mstate A) (ext : option bool) : notes A :=
  Notes (if is_move l then Some (m_relative s1) else None)
        (if is_move l then Some (m_relative_e s1) else None)
        (if is_move l then Some (m_tool s1) else None)
        ext
        (Some (m_x s3)) (Some (m_y s3)) (Some (m_z s3)) (Some (m_f s3)) (Some (m_e s3)).

Lemma parse_words_fixed : forall imp ws (a b : line A), foldM (parse_word imp) ws a = Ok b ->
  raw b = raw a /\ command b = command a /\ is_move b = is_move a /\ lnotes b = lnotes a.
Proof.
  intros imp. induction ws as [|w ws IH]; intros a b Hb; cbn [foldM] in Hb.
  { injection Hb as <-. repeat split. }
  destruct (parse_word imp a w) as [a1|e1] eqn:E1; cbn [bind] in Hb; [|discriminate Hb].
  destruct (IH _ _ Hb) as (H1 & H2 & H3 & H4). unfold parse_word in E1. destruct w as [c' v'].
  assert (Ha : raw a1 = raw a /\ command a1 = command a /\ is_move a1 = is_move a /\ lnotes a1 = lnotes a).
  { destruct (letter_of_code c'); [|injection E1 as <-; repeat split].
    destruct (is_empty v'); [injection E1 as <-; repeat split|].
    destruct (py_float v'); [|discriminate E1]. injection E1 as <-. repeat split. }
  destruct Ha as (G1 & G2 & G3 & G4). repeat split; congruence.
Qed.

Lemma command_name_none : forall s, command_name s = None ->
  words s = [] \/ exists t, words s = (""%string, ""%string) :: t.
Proof.
  intros s H. unfold command_name in H. pose proof (words_shape s) as Hs.
  destruct (words s) as [|[c v] t]; [now left|]. right.
  inversion Hs as [|? ? Hw _]; subst. destruct Hw as [Hw|(d & x & H1 & _)].
  - exists t. rewrite Hw; reflexivity.
  - cbn in H1. subst c. discriminate H.
Qed.

Lemma command_name_some : forall s c, command_name s = Some c ->
  exists d v t, words s = (String d "", v) :: t /\ is_word_letter d = true /\
    c = String (upper_char d) v.
Proof.
  intros s c H. unfold command_name in H. pose proof (words_shape s) as Hs.
  destruct (words s) as [|[d v] t]; [discriminate H|].
  inversion Hs as [|? ? Hw _]; subst. destruct Hw as [Hw|(e & x & H1 & H2 & H3)].
  - injection Hw as -> ->. discriminate H.
  - cbn in H1, H3. subst d. cbn in H. injection H as <-. exists e, v, t. auto.
Qed.

Lemma motion_none : forall (m m' : mstate A) s l, command_name s = None ->
  motion_step m (new_line s) = Ok (m', l) ->
  m' = m /\ largs l = no_args /\ is_move l = false /\ t_extruding (lnotes l) = None.
Proof.
  intros m m' s l Hc H. destruct (command_name_none s Hc) as [Hw|[t Hw]].
  - assert (Hr : recognised s = false) by (unfold recognised; rewrite Hw; reflexivity).
    rewrite motion_step_rest, split_new, Hw in H. cbn [read_words] in H.
    pose proof (unrecognised_step m s Hr) as (l' & E & Ha & Hm & _).
    rewrite motion_step_rest, split_new, Hw in E. cbn [read_words] in E. rewrite E in H.
    injection H as <- <-. repeat split; try assumption.
    unfold motion_rest in E. cbn [command set_command is_move] in E.
    destruct (update_modes s false m) as [s1|e]; cbn [bind] in E; [|discriminate E].
    destruct (parse_coordinates _ _ _) as [l1|e] eqn:El; cbn [bind] in E; [|discriminate E].
    assert (Hl1 : l_e l1 = None).
    { destruct (update_extrusion l1 (update_position l1 s1)) as [ext s3].
      injection E as _ <-. cbn in Ha. unfold l_e. rewrite Ha. reflexivity. }
    unfold update_extrusion in E. rewrite Hl1 in E. injection E as _ <-. reflexivity.
  - rewrite (no_command_step m s t Hw) in H. injection H as <- <-. repeat split.
Qed.

Lemma motion_some : forall (m m' : mstate A) s l c, command_name s = Some c ->
  motion_step m (new_line s) = Ok (m', l) ->
  exists s1 l1 ext, update_modes c (str_mem c move_gcodes) m = Ok s1 /\
    parsed s c (m_imperial s1) l1 /\
    update_extrusion l1 (update_position l1 s1) = (ext, m') /\
    l = set_notes (position_notes l1 s1 m' ext) l1.
Proof.
  intros m m' s l c Hc H.
  destruct (command_name_some s c Hc) as (d & v & t & Hw & Hd & Ec).
  rewrite motion_step_rest, split_new, Hw in H. cbn [read_words] in H.
  change (String.eqb (String d "") "" && String.eqb v "") with false in H.
  cbn [fst] in H. change (upper (String d "") ++ v)%string with (String (upper_char d) v) in H.
  rewrite <- Ec in H. unfold motion_rest in H. cbn [command set_command is_move cmd_in] in H.
  destruct (update_modes c (str_mem c move_gcodes) m) as [s1|e]; cbn [bind] in H; [|discriminate H].
  rewrite <- Hw in H.
  destruct (parse_coordinates (m_imperial s1) (words s)
              (set_command (Some c) (str_mem c move_gcodes) (new_line s))) as [l1|e] eqn:El;
    cbn [bind] in H; [|discriminate H].
  destruct (update_extrusion l1 (update_position l1 s1)) as [ext s3] eqn:Ex.
  injection H as <- <-. exists s1, l1, ext. split; [reflexivity|]. split; [|split; [exact Ex|reflexivity]].
  unfold parse_coordinates in El. cbn [command set_command] in El. unfold parsed.
  destruct (first_is "G" c).
  - destruct (parse_words_fixed _ _ _ _ El) as (H1 & H2 & H3 & H4). cbn in H1, H2, H3, H4. auto.
  - injection El as <-. repeat split.
Qed.

(** notes of a line with a command *)
Lemma motion_notes : forall (m m' : mstate A) s l, motion_step m (new_line s) = Ok (m', l) ->
  command l <> None ->
  t_x (lnotes l) = Some (m_x m') /\ t_y (lnotes l) = Some (m_y m') /\ t_z (lnotes l) = Some (m_z m') /\
  t_f (lnotes l) = Some (m_f m') /\ t_e (lnotes l) = Some (m_e m').
Proof.
  intros m m' s l H Hc. rewrite motion_step_rest in H. destruct (split (new_line s)) as [l0 toks].
  unfold motion_rest in H. destruct (command l0) as [c|] eqn:Ec; [|congruence].
  destruct (update_modes c (is_move l0) m) as [s1|e]; cbn [bind] in H; [|discriminate H].
  destruct (parse_coordinates (m_imperial s1) toks l0) as [l1|e]; cbn [bind] in H; [|discriminate H].
  destruct (update_extrusion l1 (update_position l1 s1)) as [ext s3].
  injection H as <- <-. repeat split.
Qed.

Lemma update_extrusion_fixed : forall (l : line A) m ext m', update_extrusion l m = (ext, m') ->
  m_imperial m' = m_imperial m /\ m_relative m' = m_relative m /\ m_relative_e m' = m_relative_e m /\
  m_tool m' = m_tool m /\ m_f m' = m_f m /\
  m_x m' = m_x m /\ m_y m' = m_y m /\ m_z m' = m_z m /\
  m_ox m' = m_ox m /\ m_oy m' = m_oy m /\ m_oz m' = m_oz m /\
  m_hx m' = m_hx m /\ m_hy m' = m_hy m /\ m_hz m' = m_hz m.
Proof.
  intros l m ext m' H. unfold update_extrusion in H.
  destruct (l_e l); [|injection H as _ <-; repeat split].
  destruct (is_move l); [destruct (m_relative_e m) eqn:Er|destruct (cmd_is (command l) "G92")];
    injection H as _ <-; repeat split; exact Er.
Qed.

Lemma update_position_fixed : forall (l : line A) m,
  m_imperial (update_position l m) = m_imperial m /\
  m_relative (update_position l m) = m_relative m /\
  m_relative_e (update_position l m) = m_relative_e m /\
  m_tool (update_position l m) = m_tool m /\
  m_e (update_position l m) = m_e m /\ m_oe (update_position l m) = m_oe m /\
  m_total (update_position l m) = m_total m /\ m_max (update_position l m) = m_max m /\
  m_hx (update_position l m) = m_hx m /\ m_hy (update_position l m) = m_hy m /\
  m_hz (update_position l m) = m_hz m.
Proof.
  intros l m. unfold update_position.
  destruct (is_move l); [destruct (l_f l); repeat split|].
  destruct (cmd_is (command l) "G28").
  { unfold axis_home.
    destruct (_ || is_some (l_x l)), (_ || is_some (l_y l)), (_ || is_some (l_z l)); repeat split. }
  destruct (cmd_is (command l) "G92"); repeat split.
Qed.

(** ** Modes *)

Definition mode_rel (r : bool) (s : string) : bool :=
  match op_of s with Absolute => false | Relative => true | _ => r end.
Definition mode_rel_e (r : bool) (s : string) : bool :=
  match op_of s with Absolute | AbsoluteE => false | Relative | RelativeE => true | _ => r end.
Definition mode_inch (r : bool) (s : string) : bool :=
  match op_of s with Inches => true | Millimetres => false | _ => r end.

Lemma update_modes_modes : forall c (m m1 : mstate A) s, command_name s = Some c ->
  update_modes c (str_mem c move_gcodes) m = Ok m1 ->
  m_relative m1 = mode_rel (m_relative m) s /\ m_relative_e m1 = mode_rel_e (m_relative_e m) s /\
  m_imperial m1 = mode_inch (m_imperial m) s /\
  m_f m1 = m_f m /\ m_x m1 = m_x m /\ m_y m1 = m_y m /\ m_z m1 = m_z m /\
  m_ox m1 = m_ox m /\ m_oy m1 = m_oy m /\ m_oz m1 = m_oz m /\
  m_hx m1 = m_hx m /\ m_hy m1 = m_hy m /\ m_hz m1 = m_hz m /\
  m_e m1 = m_e m /\ m_oe m1 = m_oe m /\ m_total m1 = m_total m /\ m_max m1 = m_max m.
Proof.
  intros c m m1 s Hc H. unfold mode_rel, mode_rel_e, mode_inch, op_of. rewrite Hc.
  change (str_mem c ["G0"; "G1"; "G2"; "G3"]%string) with (str_mem c move_gcodes).
  unfold update_modes in H. destruct (str_mem c move_gcodes); [injection H as <-; repeat split|].
  destruct (String.eqb c "G28") eqn:E28.
  { apply String.eqb_eq in E28. subst c. injection H as <-. repeat split. }
  destruct (String.eqb c "G92") eqn:E92.
  { apply String.eqb_eq in E92. subst c. injection H as <-. repeat split. }
  repeat match type of H with context [if String.eqb c ?x then _ else _] =>
    destruct (String.eqb c x); [injection H as <-; repeat split|] end.
  destruct c as [|d t]; [injection H as <-; repeat split|].
  destruct (Ascii.eqb d "T") eqn:Ed.
  - apply Ascii.eqb_eq in Ed. subst d. destruct (py_int t); [|discriminate H].
    injection H as <-. repeat split.
  - assert (Hm : m1 = m) by (all_chars d; try congruence; discriminate Ed). subst m1.
    all_chars d; repeat split.
Qed.

Lemma motion_modes : forall (m m' : mstate A) s l, motion_step m (new_line s) = Ok (m', l) ->
  m_relative m' = mode_rel (m_relative m) s /\ m_relative_e m' = mode_rel_e (m_relative_e m) s /\
  m_imperial m' = mode_inch (m_imperial m) s /\
  is_move l = match op_of s with Move _ _ _ => true | _ => false end /\
  t_relative (lnotes l) = (if is_move l then Some (m_relative m) else None) /\
  t_relative_e (lnotes l) = (if is_move l then Some (m_relative_e m) else None).
Proof.
  intros m m' s l H. destruct (command_name s) as [c|] eqn:Hc.
  - destruct (motion_some _ _ _ _ _ Hc H) as (s1 & l1 & ext & H1 & H2 & H3 & ->).
    pose proof (update_modes_modes _ _ _ _ Hc H1) as (M1 & M2 & M3 & _).
    destruct (update_extrusion_fixed _ _ _ _ H3) as (X1 & X2 & X3 & _).
    destruct (update_position_fixed l1 s1) as (Y1 & Y2 & Y3 & _).
    destruct H2 as (_ & _ & Hmv & _).
    cbn [is_move set_notes lnotes position_notes t_relative t_relative_e].
    split; [congruence|]. split; [congruence|]. split; [congruence|].
    assert (Hop : is_move l1 = match op_of s with Move _ _ _ => true | _ => false end).
    { rewrite Hmv. unfold op_of. rewrite Hc.
      change (str_mem c ["G0"; "G1"; "G2"; "G3"]%string) with (str_mem c move_gcodes).
      destruct (str_mem c move_gcodes); [reflexivity|].
      repeat match goal with |- context [if String.eqb c ?x then _ else _] =>
        destruct (String.eqb c x); [reflexivity|] end.
      destruct c as [|d t]; [reflexivity|]. all_chars d; reflexivity. }
    split; [exact Hop|].
    destruct (is_move l1) eqn:El; [|split; reflexivity].
    rewrite <- Hmv in H1. cbn [update_modes] in H1. injection H1 as <-.
    split; reflexivity.
  - destruct (motion_none _ _ _ _ Hc H) as (-> & _ & Hmv & _).
    unfold mode_rel, mode_rel_e, mode_inch, op_of. rewrite Hc, Hmv.
    repeat split; destruct (command_name_none s Hc) as [Hw|[t Hw]].
    + rewrite motion_step_rest, split_new, Hw in H. cbn [read_words] in H.
      unfold motion_rest in H. cbn [command set_command is_move] in H.
      destruct (update_modes s false m) as [s1|e]; cbn [bind] in H; [|discriminate H].
      destruct (parse_coordinates _ _ _) as [l1|e]; cbn [bind] in H; [|discriminate H].
      destruct (update_extrusion _ _) as [ext s3]. injection H as _ <-. cbn in *. rewrite Hmv. reflexivity.
    + rewrite (no_command_step m s t Hw) in H. injection H as <-. reflexivity.
    + rewrite motion_step_rest, split_new, Hw in H. cbn [read_words] in H.
      unfold motion_rest in H. cbn [command set_command is_move] in H.
      destruct (update_modes s false m) as [s1|e]; cbn [bind] in H; [|discriminate H].
      destruct (parse_coordinates _ _ _) as [l1|e]; cbn [bind] in H; [|discriminate H].
      destruct (update_extrusion _ _) as [ext s3]. injection H as _ <-. cbn in *. rewrite Hmv. reflexivity.
    + rewrite (no_command_step m s t Hw) in H. injection H as <-. reflexivity.
Qed.

(** ** Runs *)

Inductive trace : mstate A -> list string -> list (line A) -> mstate A -> Prop :=
| tr_nil m : trace m [] [] m
| tr_cons m s l m1 ts ls m' :
    motion_step m (new_line s) = Ok (m1, l) -> trace m1 ts ls m' ->
    trace m (s :: ts) (l :: ls) m'.

Lemma mstep_trace : forall light ts (m m' : mstate A) out out',
  foldM (mstep light) (map new_line ts) (m, out) = Ok (m', out') ->
  exists ls, trace m ts ls m' /\ (light = false -> out' = out ++ ls).
Proof.
  intros light. induction ts as [|t ts IH]; intros m m' out out' H; cbn [map foldM] in H.
  - injection H as <- <-. exists []. split; [constructor|]. intros _. now rewrite app_nil_r.
  - unfold mstep at 1 in H. cbn [fst snd] in H.
    destruct (motion_step m (new_line t)) as [[m1 l]|e] eqn:E; cbn [bind fst snd] in H; [|discriminate H].
    destruct (IH _ _ _ _ H) as (ls & Ht & Ho). exists (l :: ls). split.
    + econstructor; eassumption.
    + intros Hl. rewrite (Ho Hl), <- app_assoc. subst light. reflexivity.
Qed.

Lemma load_trace : forall light home data (g : gcode A), load_gen light home data = Ok g ->
  exists ls, trace (init_mstate home) (program_text data) ls (g_m g) /\
    (light = false -> g_lines g = ls).
Proof.
  intros light home data g H. apply load_gen_fold in H as [H _].
  apply mstep_trace in H as (ls & H1 & H2). exists ls. split; [exact H1|]. intros Hl. apply (H2 Hl).
Qed.

Lemma trace_modes : forall ts ls (m m' : mstate A), trace m ts ls m' ->
  forall i l, nth_error ls i = Some l -> is_move l = true ->
  t_relative (lnotes l) = Some (fold_left mode_rel (firstn i ts) (m_relative m)) /\
  t_relative_e (lnotes l) = Some (fold_left mode_rel_e (firstn i ts) (m_relative_e m)).
Proof.
  intros ts ls m m' H. induction H as [m|m s l m1 ts ls m' Hs Ht IH]; intros i l0 Hi Hm.
  - destruct i; discriminate Hi.
  - destruct (motion_modes _ _ _ _ Hs) as (H1 & H2 & _ & _ & H3 & H4).
    destruct i as [|i]; cbn in Hi.
    + injection Hi as <-. rewrite Hm in H3, H4. cbn. split; assumption.
    + destruct (IH i l0 Hi Hm) as [G1 G2]. cbn [firstn fold_left]. rewrite <- H1, <- H2. split; assumption.
Qed.

Lemma load_modes : forall home data (g : gcode A), load_gen false home data = Ok g ->
  forall i l, nth_error (g_lines g) i = Some l -> is_move l = true ->
  t_relative (lnotes l) = Some (mode_relative (firstn i (program_text data))) /\
  t_relative_e (lnotes l) = Some (mode_relative_e (firstn i (program_text data))).
Proof.
  intros home data g H i l Hi Hm. apply load_trace in H as (ls & Ht & Hl). rewrite (Hl eq_refl) in Hi.
  destruct home as [[hx hy] hz]. apply (trace_modes _ _ _ _ Ht i l Hi Hm).
Qed.

(** which lines are moves *)
Lemma trace_moves : forall ts ls (m m' : mstate A), trace m ts ls m' ->
  Forall2 (fun s l => raw l = s /\
    is_move l = match op_of s with Move _ _ _ => true | _ => false end) ts ls.
Proof.
  intros ts ls m m' H. induction H as [m|m s l m1 ts ls m' Hs Ht IH]; constructor; [|exact IH].
  split; [apply (motion_step_keeps_raw _ _ _ _ Hs)|apply (motion_modes _ _ _ _ Hs)].
Qed.

Lemma load_moves : forall home data (g : gcode A), load_gen false home data = Ok g ->
  Forall2 (fun s l => raw l = s /\
    is_move l = match op_of s with Move _ _ _ => true | _ => false end) (program_text data) (g_lines g).
Proof.
  intros home data g H. apply load_trace in H as (ls & Ht & Hl). rewrite (Hl eq_refl).
  eapply trace_moves, Ht.
Qed.

(** ** G92 leaves the head alone, whatever the arithmetic *)

Lemma g92_head : forall (m m' : mstate A) s l w e, op_of s = SetPosition w e ->
  motion_step m (new_line s) = Ok (m', l) ->
  m_x m' = m_x m /\ m_y m' = m_y m /\ m_z m' = m_z m /\ m_e m' = m_e m /\
  m_total m' = m_total m /\ m_max m' = m_max m.
Proof.
  intros m m' s l w e Ho H. destruct (command_name s) as [c|] eqn:Hc.
  2:{ unfold op_of in Ho. rewrite Hc in Ho. discriminate Ho. }
  assert (Ec : c = "G92"%string).
  { unfold op_of in Ho. rewrite Hc in Ho.
    destruct (str_mem c _); [discriminate Ho|].
    destruct (String.eqb c "G28"); [discriminate Ho|].
    destruct (String.eqb c "G92") eqn:E; [apply String.eqb_eq, E|].
    repeat match type of Ho with context [if String.eqb c ?x then _ else _] =>
      destruct (String.eqb c x); [discriminate Ho|] end.
    destruct c as [|d t]; [discriminate Ho|]. all_chars d; discriminate Ho. }
  subst c. destruct (motion_some _ _ _ _ _ Hc H) as (s1 & l1 & ext & H1 & H2 & H3 & _).
  cbn in H1. injection H1 as <-. destruct H2 as (_ & Hcmd & Hmv & _).
  change (str_mem "G92" move_gcodes) with false in Hmv.
  unfold update_position in H3. rewrite Hmv, Hcmd in H3. cbn [cmd_is] in H3.
  change (String.eqb "G92" "G28") with false in H3. change (String.eqb "G92" "G92") with true in H3.
  cbv iota in H3. unfold update_extrusion in H3. rewrite Hmv, Hcmd in H3. cbn [cmd_is] in H3.
  change (String.eqb "G92" "G92") with true in H3. cbv iota in H3.
  destruct (l_e l1); injection H3 as _ <-; repeat split.
Qed.

(** commands that are none of the tracked ones *)
Lemma padded_ignored : forall (m m' : mstate A) s l c, command_name s = Some c ->
  In c ["G00"; "G01"; "G02"; "G03"]%string ->
  motion_step m (new_line s) = Ok (m', l) ->
  m' = m /\ is_move l = false.
Proof.
  intros m m' s l c Hc Hin H.
  assert (Hcases : str_mem c move_gcodes = false /\ String.eqb c "G28" = false /\
    String.eqb c "G92" = false /\ forall mv (m0 : mstate A), update_modes c mv m0 = Ok m0).
  { repeat (destruct Hin as [<-|Hin];
      [repeat split; intros mv m0; destruct mv; reflexivity|]). destruct Hin. }
  destruct Hcases as (K1 & K2 & K3 & K4).
  destruct (motion_some _ _ _ _ _ Hc H) as (s1 & l1 & ext & H1 & (_ & Hcmd & Hmv & _) & H3 & ->).
  rewrite K4 in H1. injection H1 as <-. rewrite K1 in Hmv. split; [|exact Hmv].
  unfold update_position in H3. rewrite Hmv, Hcmd in H3. cbn [cmd_is] in H3. rewrite K2, K3 in H3.
  unfold update_extrusion in H3. rewrite Hmv, Hcmd in H3. cbn [cmd_is] in H3. rewrite K3 in H3.
  destruct (l_e l1); injection H3 as _ <-; reflexivity.
Qed.

End Generic.

Section Exact.
Context {A : arith}.
Variable E : exact A.
Notation val := (val E).
Local Open Scope R_scope.

Lemma py_float_val : forall v, option_map val (py_float v) = py_float (A:=RA) v.
Proof.
  intros v. unfold py_float.
  destruct (match v with String "-" t => (true, t) | String "+" t => (false, t)
            | _ => (false, v) end) as [neg s1].
  destruct (span is_digit s1) as [ip s2].
  destruct (match s2 with String "." t => span is_digit t | _ => (""%string, s2) end) as [fp s3].
  destruct (is_empty s3 && negb (is_empty ip && is_empty fp)); [|reflexivity].
  cbn [option_map]. rewrite (val_of_dec A E). symmetry.
  exact (f_equal (@Some R) (val_of_dec RA exactR neg (digits_val (ip ++ fp)) (String.length fp))).
Qed.

Definition scaled (imp : bool) (v : R) : R := if imp then 254 / 10 * v else v.

Lemma val_254 : val (lit 254 1) = 254 / 10.
Proof. rewrite val_lit. cbn. lra. Qed.

Lemma get_put_same : forall k v (a : args A), get_arg k (put_arg k v a) = v.
Proof. intros [] v a; reflexivity. Qed.
Lemma get_put_other : forall k j v (a : args A), k <> j -> get_arg k (put_arg j v a) = get_arg k a.
Proof. intros [] [] v a H; try reflexivity; congruence. Qed.

Lemma letter_of_code_spec : forall c k, letter_of_code c = Some k <-> c = letter_code k.
Proof.
  intros c k. split.
  - intros H. unfold letter_of_code in H. apply find_some in H as [_ H].
    apply String.eqb_eq in H. congruence.
  - intros ->. destruct k; reflexivity.
Qed.

Lemma letter_eq_dec : forall a b : letter, {a = b} + {a <> b}.
Proof. decide equality. Qed.

Lemma letter_code_inj : forall a b, letter_code a = letter_code b -> a = b.
Proof. intros [] []; cbn; congruence. Qed.

Lemma parsed_args : forall imp ws (a b : line A) k, foldM (parse_word imp) ws a = Ok b ->
  option_map val (get_arg k (largs b)) =
  match number_of (letter_code k) ws with
  | Some v => Some (scaled imp v)
  | None => option_map val (get_arg k (largs a))
  end.
Proof.
  intros imp. induction ws as [|[c v] ws IH]; intros a b k H; cbn [foldM] in H.
  { injection H as <-. reflexivity. }
  destruct (parse_word imp a (c, v)) as [a1|e] eqn:E1; cbn [bind] in H; [|discriminate H].
  rewrite (IH _ _ k H). cbn [number_of].
  destruct (number_of (letter_code k) ws) as [w|]; [reflexivity|].
  unfold parse_word in E1.
  destruct (String.eqb c (letter_code k)) eqn:Ec.
  - apply String.eqb_eq in Ec. assert (Hk : letter_of_code c = Some k) by (apply letter_of_code_spec, Ec).
    rewrite Hk in E1. destruct (is_empty v); cbn [andb negb].
    + injection E1 as <-. reflexivity.
    + pose proof (py_float_val v) as Hv. destruct (py_float v) as [y|]; [|discriminate E1].
      injection E1 as <-. rewrite <- Hv. cbn [option_map largs set_arg set_args].
      rewrite get_put_same. cbn. f_equal. unfold scaled. destruct imp; [|reflexivity].
      rewrite (val_mul A E), val_254. reflexivity.
  - cbn [andb]. destruct (letter_of_code c) as [j|] eqn:Hj.
    + assert (Hne : k <> j).
      { intros ->. apply letter_of_code_spec in Hj. subst c. rewrite String.eqb_refl in Ec. discriminate Ec. }
      destruct (is_empty v); [injection E1 as <-; reflexivity|].
      destruct (py_float v); [|discriminate E1]. injection E1 as <-.
      cbn [largs set_arg set_args]. rewrite get_put_other by exact Hne. reflexivity.
    + injection E1 as <-. reflexivity.
Qed.

(** the arguments of a parsed G line *)
Lemma parsed_arg : forall s c imp l k, parsed (A:=A) s c imp l -> first_is "G" c = true ->
  option_map val (get_arg k (largs l)) = option_map (scaled imp) (number_of (letter_code k) (words s)).
Proof.
  intros s c imp l k (_ & _ & _ & _ & H) Hg. rewrite Hg in H. rewrite (parsed_args _ _ _ _ k H).
  destruct (number_of (letter_code k) (words s)); [reflexivity|]. destruct k; reflexivity.
Qed.

Lemma or_zero_val : forall o : option (num A),
  val (or_zero o) = match o with Some x => val x | None => 0 end.
Proof.
  intros [x|]; cbn; [|apply val_n0]. unfold truthy. destruct (n_eqb x n0) eqn:Ex; [|reflexivity].
  cbn. apply (val_eqb A E) in Ex. congruence.
Qed.

Lemma axis_move_val : forall rel off cur o (w : option R) imp,
  option_map val o = option_map (scaled imp) w ->
  val (axis_move rel off cur o) =
  match w with
  | None => val cur
  | Some v => (if rel then val cur else val off) + scaled imp v
  end.
Proof.
  intros rel off cur o w imp H. unfold axis_move.
  destruct rel.
  - rewrite (val_add A E), or_zero_val. destruct o as [x|], w as [v|]; cbn in H; try discriminate H.
    + injection H as ->. reflexivity.
    + lra.
  - destruct o as [x|], w as [v|]; cbn in H; try discriminate H; [|reflexivity].
    injection H as H. rewrite (val_add A E), H. lra.
Qed.

Lemma axis_rebase_val : forall off cur o (w : option R) imp,
  option_map val o = option_map (scaled imp) w ->
  val (axis_rebase o off cur) =
  match w with Some v => val cur - scaled imp v | None => val off end.
Proof.
  intros off cur o w imp H. unfold axis_rebase.
  destruct o as [x|], w as [v|]; cbn in H; try discriminate H; [|reflexivity].
  injection H as H. rewrite (val_sub A E), H. reflexivity.
Qed.

Lemma opt_truthy_val : forall (o : option (num A)) w imp,
  option_map val o = option_map (scaled imp) w ->
  (opt_truthy o = true <-> exists v, w = Some v /\ v <> 0).
Proof.
  intros o w imp H. destruct o as [x|], w as [v|]; cbn in H; try discriminate H.
  - injection H as H. cbn. unfold truthy. rewrite negb_true_iff. split.
    + intros Hx. exists v. split; [reflexivity|]. intros ->. apply eqb_false with (X := E) in Hx.
      apply Hx. rewrite H, val_n0. unfold scaled. destruct imp; lra.
    + intros (v' & Ev & Hv). injection Ev as <-. destruct (n_eqb x n0) eqn:Ex; [|reflexivity].
      apply (val_eqb A E) in Ex. rewrite H, val_n0 in Ex. exfalso. apply Hv.
      unfold scaled in Ex. destruct imp; lra.
  - cbn. split; [discriminate|]. intros (v & Ev & _). discriminate Ev.
Qed.

Lemma is_some_map : forall X Y Z (f : X -> Z) (g : Y -> Z) (o : option X) (w : option Y),
  option_map f o = option_map g w -> is_some o = match w with Some _ => true | None => false end.
Proof. intros X Y Z f g [x|] [y|] H; cbn in H; try discriminate H; reflexivity. Qed.

(** ** One step *)

Lemma update_position_tracks : forall s c (l : line A) m k,
  tracks E m k -> parsed s c (m_imperial m) l -> command_name s = Some c ->
  clear_words s -> update_modes c (str_mem c move_gcodes) m = Ok m ->
  (str_mem c move_gcodes = true \/ c = "G28"%string \/ c = "G92"%string) ->
  tracks E (update_position l m) (exec_line s k).
Proof.
  intros s c l m k Ht Hp Hc Hh Hm Hkind.
  assert (Hg : first_is "G" c = true).
  { destruct Hkind as [Hk|[-> | ->]]; [|reflexivity|reflexivity].
    unfold str_mem in Hk. cbn in Hk.
    repeat (apply orb_prop in Hk as [Hk|Hk]; [apply String.eqb_eq in Hk; subst c; reflexivity|]).
    discriminate Hk. }
  pose proof (parsed_arg s c _ l LX Hp Hg) as Hx.
  pose proof (parsed_arg s c _ l LY Hp Hg) as Hy.
  pose proof (parsed_arg s c _ l LZ Hp Hg) as Hz.
  cbn [get_arg letter_code] in Hx, Hy, Hz.
  destruct Hp as (_ & Hcmd & Hmv & _ & _).
  destruct Ht as (T1 & T2 & T3 & T4 & T5 & T6 & T7 & T8 & T9 & T10 & T11 & T12).
  unfold update_position, exec_line, op_of. rewrite Hc. unfold clear_words, op_of in Hh. rewrite Hc in Hh.
  rewrite Hmv, Hcmd. unfold l_x, l_y, l_z, l_f.
  change (str_mem c ["G0"; "G1"; "G2"; "G3"]%string) with (str_mem c move_gcodes) in *.
  destruct (str_mem c move_gcodes) eqn:Emv.
  - set (m1 := match a_f (largs l) with Some f => set_feed f m | None => m end).
    assert (M : m_relative m1 = m_relative m /\ m_imperial m1 = m_imperial m /\
      m_relative_e m1 = m_relative_e m /\ m_x m1 = m_x m /\ m_y m1 = m_y m /\ m_z m1 = m_z m /\
      m_ox m1 = m_ox m /\ m_oy m1 = m_oy m /\ m_oz m1 = m_oz m /\
      m_hx m1 = m_hx m /\ m_hy m1 = m_hy m /\ m_hz m1 = m_hz m).
    { unfold m1. destruct (a_f (largs l)); repeat split. }
    destruct M as (M1 & M2 & M3 & M4 & M5 & M6 & M7 & M8 & M9 & M10 & M11 & M12).
    unfold tracks, exec, set_pos. cbn [m_imperial m_relative m_relative_e m_x m_y m_z m_ox m_oy m_oz m_hx m_hy m_hz
      inches relative relative_e head origin home].
    rewrite M1, M2, M3, M4, M5, M6, M7, M8, M9, M10, M11, M12.
    rewrite (axis_move_val _ _ _ _ _ _ Hx), (axis_move_val _ _ _ _ _ _ Hy), (axis_move_val _ _ _ _ _ _ Hz).
    unfold mm. change (if inches k then 254 / 10 * ?v else ?v) with (scaled (inches k) v).
    rewrite T1, T2, T4, T5, T6, T7, T8, T9.
    repeat split; try assumption.
  - destruct Hkind as [Hk|[-> | ->]]; [discriminate Hk| |].
    + cbn [cmd_is String.eqb] in *. change (String.eqb "G28" "G28") with true in *. cbv iota in *.
      set (w := fun a => number_of (axis_letter a) (words s)) in *.
      assert (Hall : negb (opt_truthy (a_x (largs l)) || opt_truthy (a_y (largs l)) || opt_truthy (a_z (largs l)))
                     = negb (named w X || named w Y || named w Z)).
      { destruct (opt_truthy_val _ _ _ Hx) as [Ax Bx]. destruct (opt_truthy_val _ _ _ Hy) as [Ay By].
        destruct (opt_truthy_val _ _ _ Hz) as [Az Bz].
        destruct Hh as [Hnone|(a & v & Hv & Hv0)].
        - pose proof (Hnone X) as Nx. pose proof (Hnone Y) as Ny. pose proof (Hnone Z) as Nz.
          unfold w in Nx, Ny, Nz. cbn [axis_letter] in Nx, Ny, Nz.
          rewrite Nx in Hx. rewrite Ny in Hy. rewrite Nz in Hz. unfold named, w. cbn [axis_letter].
          rewrite Nx, Ny, Nz. cbn in Hx, Hy, Hz.
          destruct (a_x (largs l)); [discriminate Hx|]. destruct (a_y (largs l)); [discriminate Hy|].
          destruct (a_z (largs l)); [discriminate Hz|]. reflexivity.
        - assert (Hn : named w X || named w Y || named w Z = true).
          { unfold named. destruct a; rewrite Hv; repeat rewrite orb_true_r; reflexivity. }
          assert (Ho : opt_truthy (a_x (largs l)) || opt_truthy (a_y (largs l)) || opt_truthy (a_z (largs l)) = true).
          { destruct a; [rewrite Bx|rewrite By|rewrite Bz]; repeat rewrite orb_true_r; try reflexivity;
              exists v; split; assumption. }
          rewrite Hn, Ho. reflexivity. }
      rewrite Hall. set (all := negb (named w X || named w Y || named w Z)).
      unfold axis_home.
      rewrite (is_some_map _ _ _ _ _ _ _ Hx), (is_some_map _ _ _ _ _ _ _ Hy), (is_some_map _ _ _ _ _ _ _ Hz).
      change (match number_of "x" (words s) with Some _ => true | None => false end) with (named w X).
      change (match number_of "y" (words s) with Some _ => true | None => false end) with (named w Y).
      change (match number_of "z" (words s) with Some _ => true | None => false end) with (named w Z).
      unfold tracks, exec. fold all. cbn [inches relative relative_e head origin home].
      destruct (all || named w X) eqn:D1, (all || named w Y) eqn:D2, (all || named w Z) eqn:D3; cbn;
        fold all; rewrite ?D1, ?D2, ?D3, ?val_n0; repeat split; first [assumption|reflexivity].
    + change (str_mem "G92" ["G0"; "G1"; "G2"; "G3"]%string) with false.
      cbn [cmd_is]. change (String.eqb "G92" "G28") with false. change (String.eqb "G92" "G92") with true.
      cbv iota in *. unfold tracks, exec. rewrite Hh. cbn.
      rewrite (axis_rebase_val _ _ _ _ _ Hx), (axis_rebase_val _ _ _ _ _ Hy), (axis_rebase_val _ _ _ _ _ Hz).
      unfold mm. rewrite T1, T4, T5, T6, T7, T8, T9.
      repeat split; assumption.
Qed.

Lemma motion_tracks : forall s (l : line A) m m' k,
  tracks E m k -> clear_words s -> motion_step m (new_line s) = Ok (m', l) ->
  tracks E m' (exec_line s k) /\ (command l <> None -> notes_head E l (exec_line s k)).
Proof.
  intros s l m m' k Ht Hh H.
  assert (Hmain : tracks E m' (exec_line s k)).
  { destruct (command_name s) as [c|] eqn:Hc.
    - destruct (motion_some _ _ _ _ _ Hc H) as (s1 & l1 & ext & H1 & H2 & H3 & _).
      destruct (update_extrusion_fixed _ _ _ _ H3) as
        (X1 & X2 & X3 & X4 & X5 & X6 & X7 & X8 & X9 & X10 & X11 & X12 & X13 & X14).
      assert (Hpos : tracks E (update_position l1 s1) (exec_line s k)).
      { pose proof (update_modes_modes _ _ _ _ Hc H1) as
          (M1 & M2 & M3 & M4 & M5 & M6 & M7 & M8 & M9 & M10 & M11 & M12 & M13 & _).
        assert (Hk : {str_mem c move_gcodes = true \/ c = "G28"%string \/ c = "G92"%string} +
                     {str_mem c move_gcodes = false /\ String.eqb c "G28" = false /\ String.eqb c "G92" = false}).
        { destruct (str_mem c move_gcodes); [left; auto|].
          destruct (String.eqb c "G28") eqn:E1; [left; right; left; apply String.eqb_eq, E1|].
          destruct (String.eqb c "G92") eqn:E2; [left; right; right; apply String.eqb_eq, E2|].
          right. auto. }
        destruct Hk as [Hk|(K1 & K2 & K3)].
        - assert (Hs1 : s1 = m).
          { destruct Hk as [Hk|[-> | ->]].
            - rewrite Hk in H1. cbn in H1. congruence.
            - cbn in H1. congruence.
            - cbn in H1. congruence. }
          subst s1. eapply update_position_tracks; eassumption.
        - destruct H2 as (_ & Hcmd & Hmv & _).
          unfold update_position. rewrite Hmv, Hcmd. cbn [cmd_is]. rewrite K1, K2, K3.
          destruct Ht as (T1 & T2 & T3 & T4 & T5 & T6 & T7 & T8 & T9 & T10 & T11 & T12).
          unfold tracks. rewrite M1, M2, M3, M5, M6, M7, M8, M9, M10, M11, M12, M13.
          unfold mode_rel, mode_rel_e, mode_inch, exec_line.
          assert (Hop : match op_of s with Move _ _ _ | Home _ | SetPosition _ _ => False | _ => True end).
          { unfold op_of. rewrite Hc. change (str_mem c ["G0"; "G1"; "G2"; "G3"]%string) with (str_mem c move_gcodes).
            rewrite K1, K2, K3.
            repeat match goal with |- context [if String.eqb c ?x then _ else _] =>
              destruct (String.eqb c x); [exact I|] end.
            destruct c as [|d t]; [exact I|]. all_chars d; exact I. }
          destruct (op_of s); try contradiction; cbn; repeat split; first [assumption|reflexivity]. }
      unfold tracks. rewrite X1, X2, X3, X6, X7, X8, X9, X10, X11, X12, X13, X14. exact Hpos.
    - destruct (motion_none _ _ _ _ Hc H) as (-> & _). unfold exec_line, op_of. rewrite Hc. exact Ht. }
  split; [exact Hmain|]. intros Hc. destruct (motion_notes _ _ _ _ H Hc) as (N1 & N2 & N3 & _).
  destruct Hmain as (_ & _ & _ & T4 & T5 & T6 & _).
  exists (m_x m'), (m_y m'), (m_z m'). repeat split; assumption.
Qed.

Lemma trace_tracks : forall ts ls (m m' : mstate A), trace m ts ls m' -> Forall clear_words ts ->
  forall k, tracks E m k ->
  tracks E m' (run ts k) /\
  forall i l, nth_error ls i = Some l -> command l <> None -> notes_head E l (run (firstn (S i) ts) k).
Proof.
  intros ts ls m m' H. induction H as [m|m s l m1 ts ls m' Hs Ht IH]; intros Hh k Hk.
  - split; [exact Hk|]. intros i l Hi. destruct i; discriminate Hi.
  - inversion Hh as [|? ? Hh1 Hh2]; subst.
    destruct (motion_tracks _ _ _ _ _ Hk Hh1 Hs) as (T & N).
    destruct (IH Hh2 _ T) as (IH1 & IH2). split; [exact IH1|].
    intros i l0 Hi Hc. destruct i as [|i]; cbn in Hi.
    + injection Hi as <-. apply N, Hc.
    + apply (IH2 i l0 Hi Hc).
Qed.

Lemma init_tracks : forall h, tracks E (init_mstate h) (start (home_of E h)).
Proof. intros [[hx hy] hz]. repeat split; cbn; try reflexivity; apply val_n0. Qed.

Lemma load_tracks : forall light home data (g : gcode A), load_gen light home data = Ok g ->
  Forall clear_words (program_text data) ->
  tracks E (g_m g) (run (program_text data) (start (home_of E home))) /\
  (light = false -> forall i l, nth_error (g_lines g) i = Some l -> command l <> None ->
   notes_head E l (run (firstn (S i) (program_text data)) (start (home_of E home)))).
Proof.
  intros light home data g H Hh. apply load_trace in H as (ls & Ht & Hl).
  destruct (trace_tracks _ _ _ _ Ht Hh _ (init_tracks home)) as (T1 & T2).
  split; [exact T1|]. intros Hf. rewrite (Hl Hf). exact T2.
Qed.

(** ** Reading a machine off a state *)

Notation machine_of := (machine_of E).

Lemma machine_of_tracks : forall m, tracks E m (machine_of m).
Proof. intros m. repeat split. Qed.

Lemma g28_exact : forall (m m' : mstate A) s l w, op_of s = Home w -> clear_words s ->
  motion_step m (new_line s) = Ok (m', l) ->
  forall a, let homed := negb (named w X || named w Y || named w Z) || named w a in
    head (machine_of m') a = (if homed then home (machine_of m) a else head (machine_of m) a) /\
    origin (machine_of m') a = (if homed then 0 else origin (machine_of m) a).
Proof.
  intros m m' s l w Ho Hh H a. destruct (motion_tracks _ _ _ _ _ (machine_of_tracks m) Hh H) as (T & _).
  unfold exec_line in T. rewrite Ho in T.
  destruct T as (_ & _ & _ & T4 & T5 & T6 & T7 & T8 & T9 & _).
  destruct a; split; assumption.
Qed.

Lemma g92_exact : forall (m m' : mstate A) s l w e, op_of s = SetPosition w e ->
  motion_step m (new_line s) = Ok (m', l) ->
  val (abs_x m') = match w X with Some v => mm (machine_of m) v | None => val (abs_x m) end /\
  val (abs_y m') = match w Y with Some v => mm (machine_of m) v | None => val (abs_y m) end /\
  val (abs_z m') = match w Z with Some v => mm (machine_of m) v | None => val (abs_z m) end.
Proof.
  intros m m' s l w e Ho H.
  destruct (command_name s) as [c|] eqn:Hc.
  2:{ unfold op_of in Ho. rewrite Hc in Ho. discriminate Ho. }
  assert (Ec : c = "G92"%string /\ w = fun a => number_of (axis_letter a) (words s)).
  { unfold op_of in Ho. rewrite Hc in Ho.
    destruct (str_mem c _); [discriminate Ho|].
    destruct (String.eqb c "G28"); [discriminate Ho|].
    destruct (String.eqb c "G92") eqn:E92; [split; [apply String.eqb_eq, E92|congruence]|].
    repeat match type of Ho with context [if String.eqb c ?x then _ else _] =>
      destruct (String.eqb c x); [discriminate Ho|] end.
    destruct c as [|d t]; [discriminate Ho|]. all_chars d; discriminate Ho. }
  destruct Ec as [-> ->].
  destruct (motion_some _ _ _ _ _ Hc H) as (s1 & l1 & ext & H1 & H2 & H3 & _).
  cbn in H1. injection H1 as <-.
  pose proof (parsed_arg s _ _ l1 LX H2 eq_refl) as Hx.
  pose proof (parsed_arg s _ _ l1 LY H2 eq_refl) as Hy.
  pose proof (parsed_arg s _ _ l1 LZ H2 eq_refl) as Hz.
  cbn [get_arg letter_code] in Hx, Hy, Hz. destruct H2 as (_ & Hcmd & Hmv & _).
  change (str_mem "G92" move_gcodes) with false in Hmv.
  destruct (update_extrusion_fixed _ _ _ _ H3) as (_ & _ & _ & _ & _ & X1 & X2 & X3 & X4 & X5 & X6 & _).
  unfold abs_x, abs_y, abs_z. rewrite X1, X2, X3, X4, X5, X6.
  unfold update_position. rewrite Hmv, Hcmd. cbn [cmd_is]. change (String.eqb "G92" "G28") with false.
  change (String.eqb "G92" "G92") with true. cbv iota. unfold l_x, l_y, l_z.
  cbn [set_off m_x m_y m_z m_ox m_oy m_oz axis_letter].
  rewrite !(val_sub A E), (axis_rebase_val _ _ _ _ _ Hx), (axis_rebase_val _ _ _ _ _ Hy), (axis_rebase_val _ _ _ _ _ Hz).
  unfold mm, machine_of, scaled. cbn [inches]. repeat split.
  - destruct (number_of "x" (words s)); lra.
  - destruct (number_of "y" (words s)); lra.
  - destruct (number_of "z" (words s)); lra.
Qed.

(** ** Extrusion *)

(** extruder of the machine, for states without re-basing *)
Definition etracks (m : mstate A) (k : machine) : Prop :=
  m_imperial m = inches k /\ m_relative_e m = relative_e k /\
  val (m_e m) = extruder k /\ val (m_total m) = extruder k /\ val (m_oe m) = 0 /\
  extruder_origin k = 0.

Lemma n_max_val : forall a b : num A, val (n_max a b) = Rmax (val a) (val b).
Proof.
  intros a b. unfold n_max. destruct (n_ltb a b) eqn:El.
  - apply (val_ltb A E) in El. rewrite Rmax_right; lra.
  - assert (Hn : ~ val a < val b) by (intros Hlt; apply (val_ltb A E) in Hlt; congruence).
    rewrite Rmax_left; lra.
Qed.

Lemma n_min_val : forall a b : num A, val (n_min a b) = Rmin (val a) (val b).
Proof.
  intros a b. unfold n_min. destruct (n_ltb b a) eqn:El.
  - apply (val_ltb A E) in El. rewrite Rmin_right; lra.
  - assert (Hn : ~ val b < val a) by (intros Hlt; apply (val_ltb A E) in Hlt; congruence).
    rewrite Rmin_left; lra.
Qed.

Lemma motion_etracks : forall s (l : line A) m m' k,
  etracks m k -> no_rebase_e s -> motion_step m (new_line s) = Ok (m', l) ->
  etracks m' (exec_line s k) /\
  (val (m_max m') = Rmax (val (m_max m)) (extruder (exec_line s k)) \/
   (val (m_max m') = val (m_max m) /\ extruder (exec_line s k) = extruder k)) /\
  (t_extruding (lnotes l) = Some true <-> extruder k < extruder (exec_line s k)).
Proof.
  intros s l m m' k (T1 & T2 & T3 & T4 & T5 & T6) Hn H.
  destruct (command_name s) as [c|] eqn:Hc.
  2:{ destruct (motion_none _ _ _ _ Hc H) as (-> & _ & _ & Hx). unfold exec_line, op_of. rewrite Hc, Hx. cbn.
      split; [repeat split; assumption|]. split; [right; split; reflexivity|]. split; [discriminate|lra]. }
  pose proof (motion_modes _ _ _ _ H) as (_ & Me & Mi & _).
  destruct (motion_some _ _ _ _ _ Hc H) as (s1 & l1 & ext & H1 & H2 & H3 & ->).
  pose proof (update_modes_modes _ _ _ _ Hc H1) as
    (_ & M2 & M3 & _ & _ & _ & _ & _ & _ & _ & _ & _ & _ & M14 & M15 & M16 & M17).
  destruct (update_position_fixed l1 s1) as (Y1 & _ & Y3 & _ & Y5 & Y6 & Y7 & Y8 & _).
  cbn [lnotes set_notes position_notes t_extruding].
  assert (Hmodes : m_imperial m' = inches (exec_line s k) /\ m_relative_e m' = relative_e (exec_line s k)).
  { rewrite Me, Mi, T1, T2. unfold mode_rel_e, mode_inch, exec_line.
    destruct (op_of s); split; reflexivity. }
  destruct Hmodes as [Hm1 Hm2].
  pose proof (parsed_arg s c _ l1 LE H2) as He. cbn [get_arg letter_code] in He.
  pose proof H2 as (_ & Hcmd & Hmv & _ & Hargs).
  unfold update_extrusion in H3. rewrite Hmv, Hcmd in H3. unfold l_e in H3.
  unfold no_rebase_e, op_of in Hn. rewrite Hc in Hn.
  assert (Hex : extruder (exec_line s k) =
    if str_mem c move_gcodes then
      match number_of "e" (words s) with
      | None => extruder k
      | Some v => (if relative_e k then extruder k else extruder_origin k) + mm k v
      end else extruder k).
  { unfold exec_line, op_of. rewrite Hc.
    change (str_mem c ["G0"; "G1"; "G2"; "G3"]%string) with (str_mem c move_gcodes).
    destruct (str_mem c move_gcodes); [reflexivity|].
    repeat match goal with |- context [if String.eqb c ?x then _ else _] =>
      destruct (String.eqb c x); [reflexivity|] end.
    destruct c as [|d t]; [reflexivity|]. all_chars d; reflexivity. }
  assert (Hor : extruder_origin (exec_line s k) = 0).
  { unfold exec_line, op_of. rewrite Hc.
    change (str_mem c ["G0"; "G1"; "G2"; "G3"]%string) with (str_mem c move_gcodes) in *.
    destruct (str_mem c move_gcodes); [exact T6|].
    destruct (String.eqb c "G28"); [exact T6|].
    destruct (String.eqb c "G92").
    { cbn [exec]. destruct Hn as [Hn1 Hn2]. rewrite Hn2. cbn [extruder_origin]. rewrite Hn1. exact T6. }
    repeat match goal with |- context [if String.eqb c ?x then _ else _] =>
      destruct (String.eqb c x); [exact T6|] end.
    destruct c as [|d t]; [exact T6|]. all_chars d; exact T6. }
  rewrite Hex. change (str_mem c ["G0"; "G1"; "G2"; "G3"]%string) with (str_mem c move_gcodes) in Hn.
  destruct (str_mem c move_gcodes) eqn:Emv.
  - assert (Hg : first_is "G" c = true).
    { unfold str_mem in Emv. cbn in Emv.
      repeat (apply orb_prop in Emv as [Emv|Emv]; [apply String.eqb_eq in Emv; subst c; reflexivity|]).
      discriminate Emv. }
    specialize (He Hg). rewrite M3 in He.
    assert (Hi : mode_inch (m_imperial m) s = inches k).
    { unfold mode_inch, op_of. rewrite Hc.
      change (str_mem c ["G0"; "G1"; "G2"; "G3"]%string) with (str_mem c move_gcodes). rewrite Emv. exact T1. }
    rewrite Hi in He.
    assert (Hre : mode_rel_e (m_relative_e m) s = relative_e k).
    { unfold mode_rel_e, op_of. rewrite Hc.
      change (str_mem c ["G0"; "G1"; "G2"; "G3"]%string) with (str_mem c move_gcodes). rewrite Emv. exact T2. }
    destruct (a_e (largs l1)) as [e|], (number_of "e" (words s)) as [v|]; cbn in He; try discriminate He.
    + injection He as He. change (scaled (inches k) v) with (mm k v) in He.
      rewrite Y3, M2, Hre in H3. destruct (relative_e k); injection H3 as Hext <-; rewrite <- Hext.
      * split; [|split].
        -- unfold etracks. rewrite Hor, Hex, <- Hm1, <- Hm2.
           cbn [set_ext m_imperial m_relative_e m_e m_total m_oe]. rewrite Y5, Y6, Y7, M14, M15, M16.
           rewrite !(val_add A E), He, T3, T4. repeat split; assumption.
        -- left. cbn [set_ext m_max]. rewrite n_max_val, Y8, Y7, M16, M17.
           rewrite (val_add A E), He, T4. reflexivity.
        -- split.
           ++ intros Hx. injection Hx as Hx. apply (val_ltb A E) in Hx. rewrite val_n0, He in Hx. lra.
           ++ intros Hx. f_equal. apply (val_ltb A E). rewrite val_n0, He. lra.
      * split; [|split].
        -- unfold etracks. rewrite Hor, Hex, <- Hm1, <- Hm2.
           cbn [set_ext m_imperial m_relative_e m_e m_total m_oe]. rewrite Y5, Y6, Y7, M14, M15, M16.
           rewrite !(val_add A E), (val_sub A E), !(val_add A E), He, T3, T4, T5, T6.
           repeat split; lra.
        -- left. cbn [set_ext m_max]. rewrite n_max_val, Y8, Y7, Y6, Y5, M14, M15, M16, M17.
           rewrite (val_add A E), (val_sub A E), (val_add A E), He, T3, T4, T5, T6. f_equal. lra.
        -- split.
           ++ intros Hx. injection Hx as Hx. apply (val_ltb A E) in Hx.
              rewrite Y5, Y6, M14, M15, (val_add A E), He, T3, T5 in Hx. lra.
           ++ intros Hx. f_equal. apply (val_ltb A E).
              rewrite Y5, Y6, M14, M15, (val_add A E), He, T3, T5. lra.
    + injection H3 as <- <-. split; [|split].
      * unfold etracks. rewrite Hor, Hex, Hm1, Hm2, Y5, Y6, Y7, M14, M15, M16. repeat split; assumption.
      * right. rewrite Y8, M17. split; reflexivity.
      * split; [discriminate|lra].
  - assert (Hm' : ext = None /\ m_e m' = m_e m /\ m_total m' = m_total m /\ val (m_oe m') = 0 /\ m_max m' = m_max m).
    { destruct (a_e (largs l1)) as [e|] eqn:Ee.
      - cbn [cmd_is] in H3. destruct (String.eqb c "G92") eqn:E92.
        + exfalso. apply String.eqb_eq in E92. subst c. change (String.eqb "G92" "G28") with false in Hn.
          change (String.eqb "G92" "G92") with true in Hn. cbv iota in Hn.
          specialize (He eq_refl). destruct Hn as [Hn _]. rewrite Hn in He. discriminate He.
        + injection H3 as <- <-. rewrite Y5, Y6, Y7, Y8, M14, M15, M16, M17. repeat split; assumption.
      - injection H3 as <- <-. rewrite Y5, Y6, Y7, Y8, M14, M15, M16, M17. repeat split; assumption. }
    destruct Hm' as (-> & E1 & E2 & E3 & E4). split; [|split].
    + unfold etracks. rewrite Hor, Hex, Hm1, Hm2, E1, E2. repeat split; assumption.
    + right. rewrite E4. split; reflexivity.
    + split; [discriminate|lra].
Qed.

(** the extruder positions after 0, 1, 2 ... lines *)
Definition positions_e (ts : list string) (k : machine) : list R :=
  map (fun i => extruder (run (firstn i ts) k)) (seq 0 (S (List.length ts))).

Lemma trace_etracks : forall ts ls (m m' : mstate A), trace m ts ls m' -> Forall no_rebase_e ts ->
  forall k, etracks m k ->
  etracks m' (run ts k) /\
  (val (m_max m) <= val (m_max m')) /\
  (forall i, (1 <= i)%nat -> extruder (run (firstn i ts) k) <= val (m_max m') \/
             extruder (run (firstn i ts) k) = extruder k) /\
  (val (m_max m') = val (m_max m) \/ exists i, val (m_max m') = extruder (run (firstn i ts) k)) /\
  (forall i l, nth_error ls i = Some l ->
     (t_extruding (lnotes l) = Some true <->
      extruder (run (firstn i ts) k) < extruder (run (firstn (S i) ts) k))).
Proof.
  intros ts ls m m' H. induction H as [m|m s l m1 ts ls m' Hs Ht IH]; intros Hn k Hk.
  - split; [exact Hk|]. split; [lra|]. split; [|split].
    + intros i Hi. right. rewrite firstn_nil. reflexivity.
    + left. reflexivity.
    + intros i l Hi. destruct i; discriminate Hi.
  - inversion Hn as [|? ? Hn1 Hn2]; subst.
    destruct (motion_etracks _ _ _ _ _ Hk Hn1 Hs) as (T & Hmax & Hext).
    destruct (IH Hn2 _ T) as (I1 & I2 & I3 & I4 & I5).
    assert (Hm1 : val (m_max m) <= val (m_max m1) /\
      (extruder (exec_line s k) <= val (m_max m1) \/ extruder (exec_line s k) = extruder k)).
    { destruct Hmax as [Hmax|[Hmax1 Hmax2]].
      - rewrite Hmax. split; [apply Rmax_l|left; apply Rmax_r].
      - rewrite Hmax1. split; [lra|right; exact Hmax2]. }
    destruct Hm1 as [Hm1 Hm2].
    split; [exact I1|]. split; [lra|]. split; [|split].
    + intros i Hi. destruct i as [|i]; [lia|]. cbn [firstn run fold_left].
      change (fold_left (fun k0 s0 => exec_line s0 k0) (firstn i ts) (exec_line s k))
        with (run (firstn i ts) (exec_line s k)).
      destruct i as [|i].
      * cbn. destruct Hm2 as [Hm2|Hm2]; [left; lra|right; exact Hm2].
      * destruct (I3 (S i)) as [I3'|I3']; [lia|left; exact I3'|]. rewrite I3'.
        destruct Hm2 as [Hm2|Hm2]; [left; lra|right; exact Hm2].
    + destruct I4 as [I4|[i I4]].
      * destruct Hmax as [Hmax|[Hmax1 Hmax2]].
        -- rewrite I4, Hmax. unfold Rmax. destruct (Rle_dec (val (m_max m)) (extruder (exec_line s k))).
           ++ right. exists 1%nat. reflexivity.
           ++ left. reflexivity.
        -- left. congruence.
      * right. exists (S i). exact I4.
    + intros i l0 Hi. destruct i as [|i]; cbn in Hi.
      * injection Hi as <-. exact Hext.
      * apply (I5 i l0 Hi).
Qed.

Lemma init_etracks : forall h k0, etracks (init_mstate h) (start k0).
Proof. intros [[hx hy] hz] k0. repeat split; cbn; try reflexivity; apply val_n0. Qed.

Lemma load_extrusion : forall light home data (g : gcode A), load_gen light home data = Ok g ->
  Forall no_rebase_e (program_text data) ->
  let e i := extruder (run (firstn i (program_text data)) (start (home_of E home))) in
  let n := List.length (program_text data) in
  val (m_e (g_m g)) = e n /\ val (m_total (g_m g)) = e n /\
  (forall i, e i <= val (g_filament g)) /\
  (exists i, (i <= n)%nat /\ val (g_filament g) = e i) /\
  (light = false -> forall i l, nth_error (g_lines g) i = Some l ->
     (t_extruding (lnotes l) = Some true <-> e i < e (S i))).
Proof.
  intros light home data g H Hn. cbv zeta.
  assert (Hfil : g_filament g = m_max (g_m g)).
  { clear Hn. unfold load_gen in H. destruct data as [|s data].
    - injection H as <-. destruct home as [[hx hy] hz]. reflexivity.
    - destruct (foldM _ _ _) as [[[m ls] out]|e]; cbn [bind] in H; [|discriminate H].
      injection H as <-. unfold finalize. destruct (ls_cur ls); reflexivity. }
  apply load_trace in H as (ls & Ht & Hl).
  destruct (trace_etracks _ _ _ _ Ht Hn _ (init_etracks home (home_of E home))) as (T1 & T2 & T3 & T4 & T5).
  destruct T1 as (_ & _ & T6 & T7 & _).
  assert (H0 : val (m_max (init_mstate (A:=A) home)) = 0) by (destruct home as [[hx hy] hz]; apply val_n0).
  assert (Hs : extruder (start (home_of E home)) = 0) by reflexivity.
  rewrite firstn_all, Hfil. split; [exact T6|]. split; [exact T7|]. split; [|split].
  - intros i. destruct i as [|i]; [cbn; lra|].
    destruct (T3 (S i)) as [T|T]; [lia|exact T|]. rewrite T, Hs. lra.
  - destruct T4 as [T4|[i T4]].
    + exists 0%nat. split; [lia|]. cbn. lra.
    + destruct (Nat.le_gt_cases i (List.length (program_text data))) as [Hi|Hi].
      * exists i. split; [exact Hi|exact T4].
      * exists (List.length (program_text data)). split; [lia|].
        rewrite firstn_all2 in T4 by lia. rewrite firstn_all. exact T4.
  - intros Hf. rewrite (Hl Hf). exact T5.
Qed.

(** what G92 E really does *)
Lemma g92_e_exact : forall (m m' : mstate A) s l w v, op_of s = SetPosition w (Some v) ->
  motion_step m (new_line s) = Ok (m', l) ->
  val (m_oe m') = mm (machine_of m) v /\ val (abs_e m') = val (m_e m) - mm (machine_of m) v.
Proof.
  intros m m' s l w v Ho H.
  destruct (command_name s) as [c|] eqn:Hc.
  2:{ unfold op_of in Ho. rewrite Hc in Ho. discriminate Ho. }
  assert (Ec : c = "G92"%string /\ number_of "e" (words s) = Some v).
  { unfold op_of in Ho. rewrite Hc in Ho.
    destruct (str_mem c _); [discriminate Ho|].
    destruct (String.eqb c "G28"); [discriminate Ho|].
    destruct (String.eqb c "G92") eqn:E92; [split; [apply String.eqb_eq, E92|congruence]|].
    repeat match type of Ho with context [if String.eqb c ?x then _ else _] =>
      destruct (String.eqb c x); [discriminate Ho|] end.
    destruct c as [|d t]; [discriminate Ho|]. all_chars d; discriminate Ho. }
  destruct Ec as [-> Hv].
  destruct (motion_some _ _ _ _ _ Hc H) as (s1 & l1 & ext & H1 & H2 & H3 & _).
  cbn in H1. injection H1 as <-.
  pose proof (parsed_arg s _ _ l1 LE H2 eq_refl) as He. cbn [get_arg letter_code] in He.
  rewrite Hv in He. destruct H2 as (_ & Hcmd & Hmv & _).
  change (str_mem "G92" move_gcodes) with false in Hmv.
  destruct (update_position_fixed l1 m) as (_ & _ & _ & _ & Y5 & _).
  unfold update_extrusion, l_e in H3. rewrite Hmv, Hcmd in H3. cbn [cmd_is] in H3.
  change (String.eqb "G92" "G92") with true in H3. cbv iota in H3.
  destruct (a_e (largs l1)) as [e|]; [|discriminate He]. cbn in He. injection He as He.
  injection H3 as _ <-. unfold abs_e. cbn [set_ext m_oe m_e]. rewrite (val_sub A E), Y5, He.
  split; reflexivity.
Qed.


(** G92 without words does nothing at all *)
Lemma g92_bare : forall (m m' : mstate A) s l w, op_of s = SetPosition w None ->
  (forall a, w a = None) -> motion_step m (new_line s) = Ok (m', l) ->
  val (abs_x m') = val (abs_x m) /\ val (abs_y m') = val (abs_y m) /\ val (abs_z m') = val (abs_z m).
Proof.
  intros m m' s l w Ho Hw H. destruct (g92_exact _ _ _ _ _ _ Ho H) as (H1 & H2 & H3).
  rewrite (Hw X) in H1. rewrite (Hw Y) in H2. rewrite (Hw Z) in H3. auto.
Qed.

End Exact.

(** * P_FilterMotion: what the printer does with filtered programs (C28, C30, C33) *)
From Coq Require Import List Ascii String ZArith NArith Bool Lia Reals Lra.
From Verif Require Import PyBase Arith ArithR Gcoder Filters SpecText SpecLoad SpecMachine SpecEqual SpecFilter.
From Verif Require Import P_Load P_Text P_Report P_Wf P_Machine P_Format P_Filter.
Import ListNotations.
Local Open Scope list_scope.
Local Open Scope R_scope.

Lemma str_mem_in : forall s l, str_mem s l = true -> In s l.
Proof.
  intros s l H. unfold str_mem in H. apply existsb_exists in H as (x & Hx & He).
  apply String.eqb_eq in He. now subst.
Qed.

Section Motion.
Context {A : arith}.
Variable E : exact A.
Notation val := (val E).

(** ** Reading rewritten lines *)

Lemma number_app : forall l ws1 ws2, number_of l (ws1 ++ ws2) =
  match number_of l ws2 with Some x => Some x | None => number_of l ws1 end.
Proof.
  intros l. induction ws1 as [|[c v] ws1 IH]; intros ws2; cbn [app number_of].
  - destruct (number_of l ws2); reflexivity.
  - rewrite IH. destruct (number_of l ws2); reflexivity.
Qed.

Lemma float_val_round : forall k (x : num A),
  py_float (A:=RA) (fmt (decimals k) x) = Some (val (py_round (decimals k) x)).
Proof.
  intros k x. destruct (val_dec A E (decimals k) x) as (neg & m & H & _).
  destruct (word_float k x neg m H) as (H1 & _). rewrite <- (py_float_val E), H1. reflexivity.
Qed.

Lemma number_word : forall k j (a : args A), number_of (letter_code k) (word_of a j) =
  if letter_eq_dec j k then option_map (fun x => val (py_round (decimals k) x)) (get_arg k a) else None.
Proof.
  intros k j a. unfold word_of. destruct (letter_eq_dec j k) as [->|Hne].
  - destruct (get_arg k a) as [x|] eqn:Ek; [|reflexivity]. cbn [number_of option_map].
    rewrite String.eqb_refl. destruct (exact_finite E a k x Ek) as (neg & m & Hd).
    destruct (word_float k x neg m Hd) as (_ & H2 & _). rewrite H2. apply float_val_round.
  - destruct (get_arg j a) as [x|]; [|reflexivity]. cbn [number_of].
    destruct (String.eqb (letter_code j) (letter_code k)) eqn:Ee; [|reflexivity].
    apply String.eqb_eq, letter_code_inj in Ee. congruence.
Qed.

Lemma number_unsplit : forall c k (a : args A), g_command c ->
  number_of (letter_code k) (words (unsplit_text c a)) =
  option_map (fun x => val (py_round (decimals k) x)) (get_arg k a).
Proof.
  intros c k a (v & sg & ip & pt & fp & -> & Hv).
  rewrite (words_unsplit _ _ _ _ _ _ Hv (exact_finite E a)).
  cbn [number_of]. unfold all_letters. cbn [flat_map].
  rewrite !number_app, !number_word. cbn [number_of].
  assert (Hg : String.eqb "g" (letter_code k) = false) by (destruct k; reflexivity). rewrite Hg. cbn [andb].
  destruct k;
  repeat match goal with |- context [letter_eq_dec ?x ?y] =>
      let H := fresh in destruct (letter_eq_dec x y) as [H|H]; [try discriminate H|try congruence]; clear H end;
  match goal with |- context [option_map ?f (get_arg ?k a)] => destruct (get_arg k a); reflexivity end.
Qed.

Lemma name_unsplit : forall c (a : args A), g_command c -> command_name (unsplit_text c a) = Some c.
Proof.
  intros c a (v & sg & ip & pt & fp & -> & Hv). unfold command_name.
  rewrite (words_unsplit _ _ _ _ _ _ Hv (exact_finite E a)). reflexivity.
Qed.

(** [l] is the line read from [s], in millimetres. *)
Definition reads (s : string) (l : line A) : Prop :=
  raw l = s /\
  (command l = command_name s \/ (command_name s = None /\ words s = [] /\ command l = Some s)) /\
  (forall c, command_name s = Some c -> first_is "G" c = true ->
     g_command c /\
     forall k, option_map val (get_arg k (largs l)) = number_of (letter_code k) (words s)).

Lemma motion_reads : forall (m m' : mstate A) s l, motion_step m (new_line s) = Ok (m', l) ->
  m_imperial m = false -> op_of s <> Inches -> reads s l /\ m_imperial m' = false.
Proof.
  intros m m' s l H Hi Ho.
  assert (Hi' : m_imperial m' = false).
  { destruct (motion_modes _ _ _ _ H) as (_ & _ & Hm & _). rewrite Hm. unfold mode_inch.
    destruct (op_of s); try assumption; try reflexivity. congruence. }
  split; [|exact Hi']. unfold reads.
  split; [apply (motion_step_keeps_raw _ _ _ _ H)|].
  destruct (command_name s) as [c|] eqn:Hc.
  - destruct (motion_some _ _ _ _ _ Hc H) as (s1 & l1 & ext & H1 & H2 & H3 & ->).
    assert (Hs1 : m_imperial s1 = false).
    { destruct (update_modes_modes _ _ _ _ Hc H1) as (_ & _ & M3 & _). rewrite M3.
      unfold mode_inch. destruct (op_of s); try assumption; try reflexivity. congruence. }
    split.
    + left. destruct H2 as (_ & H2 & _). exact H2.
    + intros c0 Hc0 Hg. injection Hc0 as <-. split; [apply (read_g_command s c Hc Hg)|].
      intros k. cbn [largs set_notes]. rewrite (parsed_arg E _ _ _ _ k H2 Hg), Hs1.
      destruct (number_of (letter_code k) (words s)); reflexivity.
  - split; [|discriminate]. destruct (command_name_none s Hc) as [Hw|[t Hw]].
    + right. rewrite motion_step_rest, split_new, Hw in H. cbn [read_words] in H.
      unfold motion_rest in H. cbn [command set_command is_move] in H.
      destruct (update_modes s false m) as [s1|e]; cbn [bind] in H; [|discriminate H].
      destruct (parse_coordinates _ _ _) as [l1|e] eqn:El; cbn [bind] in H; [|discriminate H].
      destruct (update_extrusion _ _) as [ext s3]. injection H as _ <-.
      repeat split; try assumption. cbn [command set_notes].
      unfold parse_coordinates in El. cbn [command set_command] in El.
      destruct (first_is "G" s).
      * destruct (parse_words_fixed _ _ _ _ El) as (_ & E2 & _). exact E2.
      * injection El as <-. reflexivity.
    + left. rewrite (no_command_step m s t Hw) in H. injection H as _ <-. reflexivity.
Qed.

Lemma trace_reads : forall ts ls (m m' : mstate A), trace m ts ls m' -> m_imperial m = false ->
  Forall (fun s => op_of s <> Inches) ts -> Forall2 reads ts ls.
Proof.
  intros ts ls m m' H. induction H as [m|m s l m1 ts ls m' Hs Ht IH]; intros Hi Hf; constructor.
  - inversion Hf; subst. apply (motion_reads _ _ _ _ Hs Hi H1).
  - inversion Hf; subst. apply IH; [|assumption]. apply (motion_reads _ _ _ _ Hs Hi H1).
Qed.

Lemma load_all_lines : forall light home data (g : gcode A), load_gen light home data = Ok g ->
  all_lines g = g_lines g.
Proof. intros light home data g H. apply load_consistent in H. destruct H as (H & _). symmetry. exact H. Qed.

Lemma load_reads : forall home data (g : gcode A), load_gen false home data = Ok g ->
  Forall (fun s => op_of s <> Inches) (program_text data) -> Forall2 reads (program_text data) (all_lines g).
Proof.
  intros home data g H Hf. rewrite (load_all_lines _ _ _ _ H).
  apply load_trace in H as (ls & Ht & Hl). rewrite (Hl eq_refl). apply (trace_reads _ _ _ _ Ht); [|exact Hf].
  destruct home as [[hx hy] hz]. reflexivity.
Qed.

Lemma reads_command : forall s l c, reads s l -> words c <> [] ->
  is_command c l = match command_name s with Some d => String.eqb d c | None => false end.
Proof.
  intros s l c (_ & [H|(H1 & H2 & H3)] & _) Hw; unfold is_command.
  - rewrite H. reflexivity.
  - rewrite H1, H3. apply String.eqb_neq. congruence.
Qed.

Lemma reads_motion : forall s l, reads s l ->
  is_motion l = match command_name s with
                | Some d => str_mem d ["G0"; "G1"; "G2"; "G3"]%string | None => false end.
Proof.
  intros s l (_ & [H|(H1 & H2 & H3)] & _); unfold is_motion.
  - rewrite H. reflexivity.
  - rewrite H1, H3. destruct (str_mem s ["G0"; "G1"; "G2"; "G3"]%string) eqn:Em; [|reflexivity].
    apply str_mem_in in Em. cbn [In] in Em.
    repeat (destruct Em as [<-|Em]; [discriminate H2|]). destruct Em.
Qed.

(** the kinds of line, as the filters see them *)
Lemma reads_op : forall s l, reads s l ->
  match op_of s with
  | Move w e f => is_motion l = true /\
      option_map val (l_x l) = w X /\ option_map val (l_y l) = w Y /\ option_map val (l_z l) = w Z /\
      option_map val (l_e l) = e /\ option_map val (l_f l) = f /\
      exists c, command l = Some c /\ g_command c /\ str_mem c ["G0"; "G1"; "G2"; "G3"]%string = true
  | SetPosition w e => is_motion l = false /\ is_command "G92" l = true /\
      option_map val (l_x l) = w X /\ option_map val (l_y l) = w Y /\ option_map val (l_z l) = w Z /\
      option_map val (l_e l) = e
  | AbsoluteE => is_command "M82" l = true
  | RelativeE => is_command "M83" l = true
  | Absolute => is_command "G90" l = true
  | Relative => is_command "G91" l = true
  | _ => is_motion l = false /\ is_command "G92" l = false /\ is_command "M82" l = false /\
      is_command "M83" l = false /\ is_command "G90" l = false /\ is_command "G91" l = false
  end.
Proof.
  intros s l Hr. pose proof (reads_motion s l Hr) as Hm.
  pose proof (reads_command s l "M82" Hr ltac:(discriminate)) as H82.
  pose proof (reads_command s l "M83" Hr ltac:(discriminate)) as H83.
  pose proof (reads_command s l "G90" Hr ltac:(discriminate)) as H90.
  pose proof (reads_command s l "G91" Hr ltac:(discriminate)) as H91.
  pose proof (reads_command s l "G92" Hr ltac:(discriminate)) as H92.
  destruct Hr as (_ & Hc & Hargs). unfold op_of.
  destruct (command_name s) as [c|] eqn:Hn; [|auto 10].
  destruct (str_mem c ["G0"; "G1"; "G2"; "G3"]%string) eqn:Em.
  { assert (Hg : first_is "G" c = true).
    { apply str_mem_in in Em. cbn [In] in Em.
      repeat (destruct Em as [<-|Em]; [reflexivity|]). destruct Em. }
    destruct (Hargs c eq_refl Hg) as [Hgc Hk].
    split; [exact Hm|]. split; [apply (Hk LX)|]. split; [apply (Hk LY)|]. split; [apply (Hk LZ)|].
    split; [apply (Hk LE)|]. split; [apply (Hk LF)|].
    exists c. destruct Hc as [Hc|(Hc & _)]; [|discriminate Hc]. auto. }
  destruct (String.eqb c "G28") eqn:E28.
  { apply String.eqb_eq in E28. subst c. auto 10. }
  destruct (String.eqb c "G92") eqn:E92.
  { apply String.eqb_eq in E92. subst c. destruct (Hargs "G92"%string eq_refl eq_refl) as [Hgc Hk].
    split; [exact Hm|]. split; [exact H92|].
    split; [apply (Hk LX)|]. split; [apply (Hk LY)|]. split; [apply (Hk LZ)|]. apply (Hk LE). }
  destruct (String.eqb c "G20") eqn:E20.
  { apply String.eqb_eq in E20. subst c. auto 10. }
  destruct (String.eqb c "G21") eqn:E21.
  { apply String.eqb_eq in E21. subst c. auto 10. }
  destruct (String.eqb c "G90") eqn:E90; [exact H90|].
  destruct (String.eqb c "G91") eqn:E91; [exact H91|].
  destruct (String.eqb c "M82") eqn:E82; [exact H82|].
  destruct (String.eqb c "M83") eqn:E83; [exact H83|].
  destruct c as [|d t]; [auto 10|]. clear - Hm H82 H83 H90 H91 H92. all_chars d; auto 10.
Qed.

(** a rewritten move *)
Lemma op_unsplit_move : forall c (a : args A), g_command c ->
  str_mem c ["G0"; "G1"; "G2"; "G3"]%string = true ->
  exists w e f, op_of (unsplit_text c a) = Move w e f /\
    (forall x, w x = option_map (fun v => val (py_round 3 v))
                       (match x with X => a_x a | Y => a_y a | Z => a_z a end)) /\
    e = option_map (fun v => val (py_round 5 v)) (a_e a) /\
    f = option_map (fun v => val (py_round 3 v)) (a_f a).
Proof.
  intros c a Hg Hm. eexists _, _, _. split.
  - unfold op_of. rewrite (name_unsplit c a Hg), Hm. reflexivity.
  - split; [|split].
    + intros []; cbv beta; [apply (number_unsplit c LX a Hg)|apply (number_unsplit c LY a Hg)|
        apply (number_unsplit c LZ a Hg)].
    + apply (number_unsplit c LE a Hg).
    + apply (number_unsplit c LF a Hg).
Qed.

Lemma g_command_92 : g_command "G92".
Proof. exists "92"%string, ""%string, "92"%string, ""%string, ""%string. split; [reflexivity|]. constructor; auto. Qed.

Lemma op_unsplit_92 : forall a : args A,
  exists w e, op_of (unsplit_text "G92" a) = SetPosition w e /\
    (forall x, w x = option_map (fun v => val (py_round 3 v))
                       (match x with X => a_x a | Y => a_y a | Z => a_z a end)) /\
    e = option_map (fun v => val (py_round 5 v)) (a_e a).
Proof.
  intros a. eexists _, _. split.
  - unfold op_of. rewrite (name_unsplit _ a g_command_92). reflexivity.
  - split.
    + intros []; cbv beta; [apply (number_unsplit _ LX a g_command_92)|apply (number_unsplit _ LY a g_command_92)|
        apply (number_unsplit _ LZ a g_command_92)].
    + apply (number_unsplit _ LE a g_command_92).
Qed.

(** ** Relative extrusion *)

Definition e_inv (p : e_phase) (s : rstate (A:=A)) (k k' : machine) : Prop :=
  inches k = false /\ inches k' = false /\
  match p with
  | Begin => r_relative s = false /\ relative_e k' = relative_e k /\ extruder k' = extruder k /\
      extruder_origin k' = extruder_origin k /\ extruder k - extruder_origin k = val (r_current s)
  | Native => r_relative s = true /\ relative_e k' = relative_e k /\ extruder k' = extruder k /\
      extruder_origin k' = extruder_origin k
  | Abs => r_relative s = false /\ relative_e k = false /\ relative_e k' = true /\
      extruder k - extruder_origin k = val (r_current s)
  | Rel => r_relative s = true /\ relative_e k = true /\ relative_e k' = true
  | Stale => r_relative s = false /\ relative_e k = false /\ relative_e k' = true
  end.

Lemma no_xyz_bare : forall (l : line A) w e, option_map val (l_x l) = w X -> option_map val (l_y l) = w Y ->
  option_map val (l_z l) = w Z -> option_map val (l_e l) = e ->
  (match l_e l with Some _ => false | None => no_xyz l end) = bare w e.
Proof.
  intros l w e H1 H2 H3 H4. unfold bare, named, no_xyz. rewrite <- H1, <- H2, <- H3, <- H4.
  destruct (l_x l), (l_y l), (l_z l), (l_e l); reflexivity.
Qed.

Lemma move_not_command : forall c (l : line A), is_motion l = true ->
  str_mem c ["G0"; "G1"; "G2"; "G3"]%string = false -> is_command c l = false.
Proof.
  intros c l Hm Hc. destruct (is_command c l) eqn:E0; [|reflexivity].
  rewrite (is_command_motion _ _ E0) in Hm. congruence.
Qed.

Lemma zero_abs : Rabs 0 <= 0. Proof. rewrite Rabs_R0. lra. Qed.

Lemma rel_step_sim : forall s (l : line A) p q st k k', reads s l -> e_inv p st k k' ->
  e_step p s = Some q ->
  let s' := raw (answer rel_opcode st l) in
  Rabs (advance s' k' - advance s k) <= (if feeds s then / 2 / 10 ^ 5 else 0) /\
  e_inv q (rel_next st l) (exec_line s k) (exec_line s' k').
Proof.
  intros s l p q st k k' Hr Hi Hq s'. subst s'. unfold feeds, advance, exec_line.
  pose proof (reads_op s l Hr) as Ho. pose proof Hr as (Hraw & _).
  unfold e_step in Hq. unfold rel_next, answer, rel_opcode. rewrite !cmd_is_command, cmd_in_motion.
  destruct Hi as (I1 & I2 & I3).
  destruct (op_of s) as [w e f|w|w e| | | | | | |n|] eqn:Eop.
  - (* move *)
    destruct Ho as (Hm & Hx & Hy & Hz & He & Hf & c & Hc & Hgc & Hmc).
    rewrite (move_not_command "M83" l Hm eq_refl), (move_not_command "M82" l Hm eq_refl),
      (move_not_command "G92" l Hm eq_refl), Hm. cbn [andb].
    destruct e as [ev|].
    + destruct (l_e l) as [x|] eqn:Ele; [|discriminate He]. cbn in He. injection He as He.
      destruct p; try discriminate Hq; injection Hq as <-.
      * (* Native *)
        destruct I3 as (R1 & R2 & R3 & R4). rewrite R1. cbn [negb snd fst]. rewrite Hraw, Eop.
        split.
        { cbn [exec extruder]. unfold mm. rewrite I1, I2, R2, R3, R4. destruct (relative_e k); match goal with |- Rabs ?t <= _ => replace t with 0 by lra end;
          rewrite Rabs_R0; lra. }
        split; [exact I1|]. split; [exact I2|]. split; [exact R1|]. split; [exact R2|].
        split; [|exact R4]. cbn [extruder exec relative_e]. unfold mm. rewrite I1, I2, R2, R3, R4. reflexivity.
      * (* Abs *)
        destruct I3 as (R1 & R2 & R3 & R4). rewrite R1. cbn [negb snd fst].
        cbn [unsplit mark_relative_e set_notes raw set_raw largs command set_arg set_args]. rewrite Hc.
        set (a' := put_arg LE (Some (n_sub x (r_current st))) (largs l)).
        destruct (op_unsplit_move c a' Hgc Hmc) as (w' & e' & f' & Ho' & _ & He' & _).
        rewrite Ho'. cbn in He'. subst e'.
        split.
        { cbn [exec extruder]. unfold mm. rewrite I1, I2, R2, R3. pose proof (py_round_err E 5 (n_sub x (r_current st))) as Hb. rewrite (val_sub A E) in Hb.
          rewrite He in Hb. rewrite <- R4 in Hb.
          replace (extruder k' + val (py_round 5 (n_sub x (r_current st))) - extruder k' -
                   (extruder_origin k + ev - extruder k))
            with (val (py_round 5 (n_sub x (r_current st))) - (ev - (extruder k - extruder_origin k))) by lra.
          exact Hb. }
        split; [exact I1|]. split; [exact I2|]. split; [reflexivity|]. split; [exact R2|].
        split; [exact R3|]. cbn [extruder exec extruder_origin r_current]. unfold mm. rewrite I1, R2, He. lra.
      * (* Rel *)
        destruct I3 as (R1 & R2 & R3). rewrite R1. cbn [negb snd fst]. rewrite Hraw, Eop.
        split.
        { cbn [exec extruder]. unfold mm. rewrite I1, I2, R2, R3. match goal with |- Rabs ?t <= _ => replace t with 0 by lra end. rewrite Rabs_R0. lra. }
        split; [exact I1|]. split; [exact I2|]. split; [exact R1|]. split; [exact R2|exact R3].
    + assert (Hle : l_e l = None) by (destruct (l_e l); [discriminate He|reflexivity]). rewrite Hle.
      assert (Hsame : (if negb (r_relative st) then (st, FNone (A:=A)) else (st, FNone)) = (st, FNone))
        by (destruct (negb (r_relative st)); reflexivity).
      rewrite Hsame. cbn [fst snd]. rewrite Hraw, Eop. cbn [exec extruder].
      injection Hq as <-. split.
      { match goal with |- Rabs ?t <= _ => replace t with 0 by lra end. apply zero_abs. }
      split; [exact I1|]. split; [exact I2|]. destruct p; exact I3.
  - (* home *)
    destruct Ho as (H1 & H2 & H3 & H4 & _). rewrite H4, H3, H2, H1. cbn [andb fst snd]. rewrite Hraw, Eop.
    cbn [exec extruder]. injection Hq as <-. split.
    { match goal with |- Rabs ?t <= _ => replace t with 0 by lra end. apply zero_abs. }
    split; [exact I1|]. split; [exact I2|]. destruct p; exact I3.
  - (* set position *)
    destruct Ho as (Hm & H92 & Hx & Hy & Hz & He).
    rewrite (is_command_eq _ "M83" _ H92), (is_command_eq _ "M82" _ H92), H92.
    change (String.eqb "G92" "M83") with false. change (String.eqb "G92" "M82") with false. cbv iota.
    cbn [fst snd]. rewrite Hraw, Eop. cbn [exec extruder]. split.
    { match goal with |- Rabs ?t <= _ => replace t with 0 by lra end. apply zero_abs. }
    pose proof (no_xyz_bare l w e Hx Hy Hz He) as Hb.
    destruct (l_e l) as [x|] eqn:Ele; cbn in He; subst e.
    + destruct p; injection Hq as <-.
      * destruct I3 as (R1 & R2 & R3 & R4 & R5). split; [exact I1|]. split; [exact I2|].
        cbn [exec relative_e extruder extruder_origin r_relative r_current]. unfold mm. rewrite I1, I2, R3.
        repeat split; try assumption. lra.
      * destruct I3 as (R1 & R2 & R3 & R4). split; [exact I1|]. split; [exact I2|].
        cbn [exec relative_e extruder extruder_origin r_relative r_current]. unfold mm. rewrite I1, I2, R3.
        repeat split; assumption.
      * destruct I3 as (R1 & R2 & R3 & R4). split; [exact I1|]. split; [exact I2|].
        cbn [exec relative_e extruder extruder_origin r_relative r_current]. unfold mm. rewrite I1.
        repeat split; try assumption. lra.
      * destruct I3 as (R1 & R2 & R3). split; [exact I1|]. split; [exact I2|]. repeat split; assumption.
      * destruct I3 as (R1 & R2 & R3). split; [exact I1|]. split; [exact I2|].
        cbn [exec relative_e extruder extruder_origin r_relative r_current]. unfold mm. rewrite I1.
        repeat split; try assumption. lra.
    + rewrite Hb. destruct (bare w None) eqn:Eb.
      * destruct p; injection Hq as <-.
        -- destruct I3 as (R1 & R2 & R3 & R4 & R5). split; [exact I1|]. split; [exact I2|].
           cbn [exec relative_e extruder extruder_origin r_relative r_current]. rewrite ?Eb, (val_n0 E), R3.
           repeat split; try assumption. lra.
        -- destruct I3 as (R1 & R2 & R3 & R4). split; [exact I1|]. split; [exact I2|].
           cbn [exec relative_e extruder extruder_origin r_relative r_current]. rewrite ?Eb.
           repeat split; assumption.
        -- destruct I3 as (R1 & R2 & R3 & R4). split; [exact I1|]. split; [exact I2|].
           cbn [exec relative_e extruder extruder_origin r_relative r_current]. rewrite ?Eb, (val_n0 E).
           repeat split; try assumption. lra.
        -- destruct I3 as (R1 & R2 & R3). split; [exact I1|]. split; [exact I2|]. repeat split; assumption.
        -- destruct I3 as (R1 & R2 & R3). split; [exact I1|]. split; [exact I2|].
           cbn [exec relative_e extruder extruder_origin r_relative r_current]. rewrite ?Eb, (val_n0 E).
           repeat split; try assumption. lra.
      * destruct p; injection Hq as <-; (split; [exact I1|]); (split; [exact I2|]);
          cbn [exec relative_e extruder extruder_origin]; rewrite ?Eb; exact I3.
  - discriminate Hq.
  - (* millimetres *)
    destruct Ho as (H1 & H2 & H3 & H4 & _). rewrite H4, H3, H2, H1. cbn [andb fst snd]. rewrite Hraw, Eop.
    cbn [exec extruder]. injection Hq as <-. split.
    { match goal with |- Rabs ?t <= _ => replace t with 0 by lra end. apply zero_abs. }
    split; [reflexivity|]. split; [reflexivity|]. destruct p; exact I3.
  - (* G90 *)
    rewrite (is_command_eq _ "M83" _ Ho), (is_command_eq _ "M82" _ Ho), (is_command_eq _ "G92" _ Ho),
      (is_command_motion _ _ Ho). 
    change (String.eqb "G90" "M83") with false. change (String.eqb "G90" "M82") with false.
    change (String.eqb "G90" "G92") with false. cbn [str_mem existsb String.eqb Ascii.eqb Bool.eqb andb orb].
    change (str_mem "G90" ["G0"; "G1"; "G2"; "G3"]%string) with false. cbn [andb fst snd].
    rewrite Hraw, Eop. cbn [exec extruder]. split.
    { match goal with |- Rabs ?t <= _ => replace t with 0 by lra end. apply zero_abs. }
    destruct p; try discriminate Hq; injection Hq as <-; (split; [exact I1|]); (split; [exact I2|]).
    + destruct I3 as (R1 & R2 & R3 & R4 & R5). repeat split; assumption.
    + destruct I3 as (R1 & R2 & R3 & R4). repeat split; assumption.
  - (* G91 *)
    rewrite (is_command_eq _ "M83" _ Ho), (is_command_eq _ "M82" _ Ho), (is_command_eq _ "G92" _ Ho),
      (is_command_motion _ _ Ho).
    change (String.eqb "G91" "M83") with false. change (String.eqb "G91" "M82") with false.
    change (String.eqb "G91" "G92") with false.
    change (str_mem "G91" ["G0"; "G1"; "G2"; "G3"]%string) with false. cbn [andb fst snd].
    rewrite Hraw, Eop. cbn [exec extruder]. split.
    { match goal with |- Rabs ?t <= _ => replace t with 0 by lra end. apply zero_abs. }
    destruct p; try discriminate Hq; injection Hq as <-; (split; [exact I1|]); (split; [exact I2|]).
    + destruct I3 as (R1 & R2 & R3 & R4 & R5). repeat split; assumption.
    + destruct I3 as (R1 & R2 & R3 & R4). repeat split; assumption.
    + destruct I3 as (R1 & R2 & R3). repeat split; assumption.
  - (* M82 *)
    rewrite (is_command_eq _ "M83" _ Ho), Ho. change (String.eqb "M82" "M83") with false. cbn [fst snd].
    change (raw (raw_to_line (A:=A) "M83")) with "M83"%string.
    change (op_of "M83") with RelativeE. cbn [exec extruder]. split.
    { match goal with |- Rabs ?t <= _ => replace t with 0 by lra end. apply zero_abs. }
    destruct p; injection Hq as <-; (split; [exact I1|]); (split; [exact I2|]);
      cbn [exec relative_e extruder extruder_origin r_relative r_current].
    + destruct I3 as (R1 & R2 & R3 & R4 & R5). repeat split; assumption.
    + repeat split.
    + destruct I3 as (R1 & R2 & R3 & R4). repeat split; assumption.
    + repeat split.
    + repeat split.
  - (* M83 *)
    rewrite Ho. cbn [fst snd]. rewrite Hraw, Eop. cbn [exec extruder]. split.
    { match goal with |- Rabs ?t <= _ => replace t with 0 by lra end. apply zero_abs. }
    destruct p; injection Hq as <-; (split; [exact I1|]); (split; [exact I2|]);
      cbn [exec relative_e extruder extruder_origin r_relative r_current].
    + destruct I3 as (R1 & R2 & R3 & R4 & R5). repeat split; assumption.
    + destruct I3 as (R1 & R2 & R3 & R4). repeat split; assumption.
    + repeat split.
    + repeat split.
    + repeat split.
  - (* tool *)
    destruct Ho as (H1 & H2 & H3 & H4 & _). rewrite H4, H3, H2, H1. cbn [andb fst snd]. rewrite Hraw, Eop.
    cbn [exec extruder]. injection Hq as <-. split.
    { match goal with |- Rabs ?t <= _ => replace t with 0 by lra end. apply zero_abs. }
    split; [exact I1|]. split; [exact I2|]. exact I3.
  - destruct Ho as (H1 & H2 & H3 & H4 & _). rewrite H4, H3, H2, H1. cbn [andb fst snd]. rewrite Hraw, Eop.
    cbn [exec extruder]. injection Hq as <-. split.
    { match goal with |- Rabs ?t <= _ => replace t with 0 by lra end. apply zero_abs. }
    split; [exact I1|]. split; [exact I2|]. exact I3.
Qed.

Lemma rel_run_sim : forall ss (ls : list (line A)), Forall2 reads ss ls -> forall p st k k',
  e_inv p st k k' -> e_ready_from p ss = true ->
  same_feed ss (map raw (answers rel_opcode st ls)) k k'.
Proof.
  intros ss ls H. induction H as [|s l ss ls Hr _ IH]; intros p st k k' Hi Hq; cbn [answers map same_feed]; [exact I|].
  cbn [e_ready_from] in Hq. destruct (e_step p s) as [q|] eqn:Eq; [|discriminate Hq].
  destruct (rel_step_sim s l p q st k k' Hr Hi Eq) as [H1 H2]. split; [exact H1|].
  apply (IH q _ _ _ H2 Hq).
Qed.

Lemma e_step_inches : forall p s q, e_step p s = Some q -> op_of s <> Inches.
Proof. intros p s q H Ho. unfold e_step in H. rewrite Ho in H. discriminate H. Qed.

Lemma e_ready_inches : forall ss p, e_ready_from p ss = true -> Forall (fun s => op_of s <> Inches) ss.
Proof.
  induction ss as [|s ss IH]; intros p H; constructor; cbn [e_ready_from] in H;
    destruct (e_step p s) as [q|] eqn:Eq; try discriminate H.
  - apply (e_step_inches _ _ _ Eq).
  - apply (IH q H).
Qed.

Lemma relative_same_feed : forall home data (g g' : gcode A) h, load_gen false home data = Ok g ->
  to_relative_extrusion g = Ok g' -> e_ready (program_text data) = true ->
  same_feed (program_text data) (write g') (start h) (start h).
Proof.
  intros home data g g' h H H' Hq. destruct (relative_pure g g' H') as (Ha & _).
  unfold write. change (List.concat (map ly_lines (g_layers g'))) with (all_lines g'). rewrite Ha.
  apply (rel_run_sim _ _ (load_reads _ _ _ H (e_ready_inches _ _ Hq)) Begin).
  - repeat split. cbn. rewrite (val_n0 E). lra.
  - exact Hq.
Qed.

Lemma same_feed_total : forall ss ss' k k', same_feed ss ss' k k' ->
  Rabs ((extruder (run ss' k') - extruder k') - (extruder (run ss k) - extruder k))
    <= INR (feed_count ss) * (/ 2 / 10 ^ 5).
Proof.
  induction ss as [|s ss IH]; intros [|s' ss'] k k' H; cbn [same_feed] in H; try contradiction.
  - cbn. replace (extruder k' - extruder k' - (extruder k - extruder k)) with 0 by lra. rewrite Rabs_R0. lra.
  - destruct H as [H1 H2]. apply IH in H2. unfold run in *. cbn [fold_left].
    unfold advance in H1. unfold feed_count in *. cbn [filter].
    set (a := extruder (fold_left (fun k s => exec_line s k) ss' (exec_line s' k'))) in *.
    set (b := extruder (fold_left (fun k s => exec_line s k) ss (exec_line s k))) in *.
    replace (a - extruder k' - (b - extruder k)) with
      ((a - extruder (exec_line s' k') - (b - extruder (exec_line s k))) +
       (extruder (exec_line s' k') - extruder k' - (extruder (exec_line s k) - extruder k))) by lra.
    eapply Rle_trans; [apply Rabs_triang|].
    destruct (feeds s).
    + cbn [List.length]. rewrite S_INR. lra.
    + lra.
Qed.

Lemma relative_drift : forall home data (g g' : gcode A) h, load_gen false home data = Ok g ->
  to_relative_extrusion g = Ok g' -> e_ready (program_text data) = true ->
  Rabs (extruder (run (write g') (start h)) - extruder (run (program_text data) (start h)))
    <= INR (feed_count (program_text data)) * (/ 2 / 10 ^ 5).
Proof.
  intros home data g g' h H H' Hq.
  pose proof (same_feed_total _ _ _ _ (relative_same_feed _ _ _ _ h H H' Hq)) as Hb.
  cbn [start extruder] in Hb. rewrite !Rminus_0_r in Hb. exact Hb.
Qed.

(** ** Translation *)

Definition axis_arg (a : axis) : letter := match a with X => LX | Y => LY | Z => LZ end.

(** how far axis [a] is still to be shifted *)
Definition still (st : tstate (A:=A)) (a : axis) : option (num A) :=
  match a with X => tr_x st | Y => tr_y st | Z => None end.
Notation amount := (amount E).
Notation shift_amount := (shift_amount E).

Lemma shifted_val : forall t (v : num A), val (shifted t v) = val v + amount t.
Proof.
  intros [x|] v; cbn [shifted amount]; [|lra].
  destruct (n_eqb x n0) eqn:Ex.
  - apply (val_eqb A E) in Ex. rewrite Ex, (val_n0 E). lra.
  - apply (val_add A E).
Qed.

Definition near (d : R) (o : option R) (p : option R) : Prop :=
  match o, p with
  | None, None => True
  | Some x, Some y => Rabs (x - y) <= d
  | _, _ => False
  end.

Lemma round3 : forall x : num A, Rabs (val (py_round 3 x) - val x) <= / 2000.
Proof. intros x. pose proof (py_round_err E 3 x) as H. cbn [pow] in H. lra. Qed.
Lemma round5 : forall x : num A, Rabs (val (py_round 5 x) - val x) <= / 200000.
Proof. intros x. pose proof (py_round_err E 5 x) as H. cbn [pow] in H. lra. Qed.

(** what becomes of an absolute move *)
Lemma tr_move : forall s (l : line A) st w e f, reads s l -> op_of s = Move w e f ->
  tr_absolute st = Some true ->
  tr_next st l = st /\
  exists w' e' f', op_of (raw (answer tr_opcode st l)) = Move w' e' f' /\
    (forall a, near (/ 2000) (w' a) (option_map (fun v => v + amount (still st a)) (w a))) /\
    near (/ 200000) e' e.
Proof.
  intros s l st w e f Hr Ho Ht. pose proof (reads_op s l Hr) as Hk. rewrite Ho in Hk.
  destruct Hk as (Hm & Hx & Hy & Hz & He & Hf & c & Hc & Hgc & Hmc).
  unfold tr_next, answer, tr_opcode. rewrite cmd_in_motion, Hm, Ht. cbn [fst snd].
  split; [reflexivity|].
  destruct (shift_two (tr_x st) (tr_y st) l) as (S1 & S2 & S3 & S4 & S5 & S6 & S7). cbv zeta in *.
  set (l' := shift_word LY (tr_y st) (shift_word LX (tr_x st) l)) in *.
  assert (Hz' : l_z l' = l_z l) by (apply (S6 LZ); discriminate).
  assert (He' : l_e l' = l_e l) by (apply (S6 LE); discriminate).
  destruct S7 as [S7|S7].
  - rewrite S7. destruct Hr as (Hraw & _). rewrite Hraw, Ho. eexists _, _, _. split; [reflexivity|].
    assert (Hself : forall d (o : option R), 0 <= d -> near d o o).
    { intros d [x|] Hd; cbn; [|exact I]. replace (x - x) with 0 by lra. rewrite Rabs_R0. exact Hd. }
    split; [|apply Hself; lra].
    intros a. rewrite S7 in S4, S5.
    assert (Ha : option_map (fun v => v + amount (still st a)) (w a) = w a).
    { destruct a; cbn [still].
      - rewrite <- Hx. destruct (l_x l) as [v|]; [|reflexivity]. cbn in *. f_equal.
        injection S4 as S4. rewrite <- shifted_val. congruence.
      - rewrite <- Hy. destruct (l_y l) as [v|]; [|reflexivity]. cbn in *. f_equal.
        injection S5 as S5. rewrite <- shifted_val. congruence.
      - destruct (w Z); [|reflexivity]. cbn. f_equal. lra. }
    rewrite Ha. apply Hself. lra.
  - rewrite S7, Hc. destruct (op_unsplit_move c (largs l') Hgc Hmc) as (w' & e' & f' & Ho' & Hw' & Hee & _).
    exists w', e', f'. split; [exact Ho'|]. split.
    + intros a. rewrite Hw'. destruct a; cbn [still].
      * change (a_x (largs l')) with (l_x l'). rewrite S4, <- Hx.
        destruct (l_x l) as [v|]; cbn; [|exact I]. rewrite <- shifted_val. apply round3.
      * change (a_y (largs l')) with (l_y l'). rewrite S5, <- Hy.
        destruct (l_y l) as [v|]; cbn; [|exact I]. rewrite <- shifted_val. apply round3.
      * change (a_z (largs l')) with (l_z l'). rewrite Hz', <- Hz.
        destruct (l_z l) as [v|]; cbn; [|exact I]. rewrite Rplus_0_r. apply round3.
    + rewrite Hee. change (a_e (largs l')) with (l_e l'). rewrite He', <- He.
      destruct (l_e l) as [v|]; cbn; [|exact I]. apply round5.
Qed.

(** what becomes of a G92 *)
Lemma tr_set : forall s (l : line A) st w e, reads s l -> op_of s = SetPosition w e ->
  tr_absolute (tr_next st l) = tr_absolute st /\
  (forall a, still (tr_next st l) a = if resets w a then None else still st a) /\
  exists w' e', op_of (raw (answer tr_opcode st l)) = SetPosition w' e' /\ near (/ 200000) e' e /\
    forall a, near (/ 2000) (w' a)
      (if resets w a then Some ((match w a with Some v => v | None => 0 end) - amount (still st a)) else None).
Proof.
  intros s l st w e Hr Ho. pose proof (reads_op s l Hr) as Hk. rewrite Ho in Hk.
  destruct Hk as (Hm & H92 & Hx & Hy & Hz & He).
  destruct (tr_next_fields st l) as (F1 & F2 & F3).
  rewrite (is_command_eq _ "G90" _ H92), (is_command_eq _ "G91" _ H92) in F1. split; [exact F1|].
  assert (Hres : forall a, a <> Z -> rebases (axis_arg a) l = resets w a).
  { intros a Ha. unfold rebases, resets. rewrite H92. unfold named. rewrite <- Hx, <- Hy, <- Hz.
    destruct a; [| |congruence]; cbn [axis_arg get_arg]; 
      change (a_x (largs l)) with (l_x l); change (a_y (largs l)) with (l_y l); rewrite <- ?Hx, <- ?Hy;
      destruct (l_x l), (l_y l), (l_z l); reflexivity. }
  split.
  { intros a. destruct a; cbn [still].
    - rewrite F2. rewrite <- (Hres X) by discriminate. reflexivity.
    - rewrite F3. rewrite <- (Hres Y) by discriminate. reflexivity.
    - destruct (resets w Z); reflexivity. }
  assert (Hcmd : command l = Some "G92"%string).
  { unfold is_command in H92. destruct (command l); [|discriminate H92]. apply String.eqb_eq in H92. now subst. }
  unfold answer, tr_opcode. rewrite !cmd_is_command, cmd_in_motion, Hm, H92.
  rewrite (is_command_eq _ "G90" _ H92), (is_command_eq _ "G91" _ H92).
  change (String.eqb "G92" "G90") with false. change (String.eqb "G92" "G91") with false. cbv iota.
  assert (Hgen : forall l2 : line A, command l2 = Some "G92"%string -> l_z l2 = l_z l -> l_e l2 = l_e l ->
    (forall a, a <> Z -> option_map val (get_arg (axis_arg a) (largs l2)) =
       (if resets w a then Some ((match w a with Some v => v | None => 0 end) - amount (still st a)) else None)) ->
    exists w' e', op_of (raw (unsplit l2)) = SetPosition w' e' /\ near (/ 200000) e' e /\
    forall a, near (/ 2000) (w' a)
      (if resets w a then Some ((match w a with Some v => v | None => 0 end) - amount (still st a)) else None)).
  { intros l2 C2 Z2 E2 XY. cbn [unsplit raw set_raw]. rewrite C2.
    destruct (op_unsplit_92 (largs l2)) as (w' & e' & Ho' & Hw' & Hee).
    exists w', e'. split; [exact Ho'|]. split.
    - rewrite Hee. change (a_e (largs l2)) with (l_e l2). rewrite E2, <- He.
      destruct (l_e l) as [v|]; cbn; [|exact I]. apply round5.
    - intros a. rewrite Hw'. destruct a.
      + rewrite <- (XY X) by discriminate. cbn [axis_arg get_arg].
        destruct (a_x (largs l2)); cbn; [apply round3|exact I].
      + rewrite <- (XY Y) by discriminate. cbn [axis_arg get_arg].
        destruct (a_y (largs l2)); cbn; [apply round3|exact I].
      + unfold resets, named. cbn [still amount andb orb]. change (a_z (largs l2)) with (l_z l2). rewrite Z2, <- Hz.
        destruct (l_z l) as [v|]; cbn; [|exact I]. rewrite Rminus_0_r. apply round3. }
  assert (Hopp : forall t : option (num A), val (shift_opp t) = 0 - amount t).
  { intros [x|]; cbn; [rewrite (val_opp A E); lra|rewrite (val_n0 E); lra]. }
  assert (Hsub : forall (v : num A) t, val (shift_sub v t) = val v - amount t).
  { intros v [x|]; cbn; [apply (val_sub A E)|lra]. }
  unfold no_xyz.
  destruct (l_x l) as [vx|] eqn:Lx; destruct (l_y l) as [vy|] eqn:Ly; destruct (l_z l) as [vz|] eqn:Lz;
    cbn [is_some orb negb snd]; apply Hgen;
    first [exact Hcmd|exact Lz|reflexivity|idtac];
    intros a Ha; destruct a; try congruence; unfold resets, named; rewrite <- Hx, <- Hy, <- Hz;
    cbn [axis_arg get_arg set_arg set_args put_arg largs a_x a_y option_map orb negb andb still];
    change (a_x (largs l)) with (l_x l); change (a_y (largs l)) with (l_y l); rewrite ?Lx, ?Ly;
    cbn [option_map]; try reflexivity; rewrite ?Hopp, ?Hsub; reflexivity.
Qed.

(** all other lines *)
Lemma tr_other : forall s (l : line A) st, reads s l ->
  match op_of s with Move _ _ _ | SetPosition _ _ => False | _ => True end ->
  raw (answer tr_opcode st l) = s /\
  (forall a, still (tr_next st l) a = still st a) /\
  tr_absolute (tr_next st l) = match op_of s with Absolute => Some true | Relative => Some false
                               | _ => tr_absolute st end.
Proof.
  intros s l st Hr Ho. pose proof (reads_op s l Hr) as Hk. destruct (tr_next_fields st l) as (F1 & F2 & F3).
  assert (Hm : is_motion l = false /\ is_command "G92" l = false).
  { destruct (op_of s); try contradiction; try (destruct Hk as (K1 & K2 & _); auto);
      split; first [rewrite (is_command_motion _ _ Hk); reflexivity|rewrite (is_command_eq _ "G92" _ Hk); reflexivity]. }
  destruct Hm as [Hm H92]. destruct Hr as (Hraw & _).
  split; [|split].
  - unfold answer, tr_opcode. rewrite !cmd_is_command, cmd_in_motion, Hm, H92.
    destruct (is_command "G90" l); [exact Hraw|]. destruct (is_command "G91" l); exact Hraw.
  - unfold rebases in F2, F3. rewrite H92 in F2, F3. cbn in F2, F3. intros []; cbn [still]; auto.
  - rewrite F1. destruct (op_of s); try contradiction;
      try (destruct Hk as (_ & _ & _ & _ & K5 & K6); rewrite K5, K6; reflexivity).
    + rewrite Hk. reflexivity.
    + rewrite (is_command_eq _ "G90" _ Hk), Hk. reflexivity.
    + rewrite (is_command_eq _ "G90" _ Hk), (is_command_eq _ "G91" _ Hk). reflexivity.
    + rewrite (is_command_eq _ "G90" _ Hk), (is_command_eq _ "G91" _ Hk). reflexivity.
Qed.

(** the axis [a] of the machines [k] and [k'], when [a] is to be shifted by [t] *)
Definition axis_inv (t : R) (a : axis) (p : t_phase) (o : option (num A)) (k k' : machine) : Prop :=
  match p with
  | Homed => amount o = t /\ head k a = 0 /\ head k' a = 0 /\ origin k a = 0 /\ origin k' a = 0
  | Placed => amount o = t /\ origin k a = 0 /\ origin k' a = 0 /\
      Rabs (head k' a - (head k a + t)) <= / 2000
  | Based => amount o = 0 /\ head k' a = head k a /\ Rabs (origin k' a - (origin k a + t)) <= / 2000
  | BasedPlaced => amount o = 0 /\ Rabs (head k' a - (head k a + t)) <= / 1000 /\
      Rabs (origin k' a - (origin k a + t)) <= / 2000
  end.

Definition t_inv (t : axis -> R) (ps : axis -> t_phase) (st : tstate (A:=A)) (k k' : machine) : Prop :=
  inches k = false /\ inches k' = false /\ relative k = false /\ relative k' = false /\
  (forall a, home k a = 0) /\ (forall a, home k' a = 0) /\
  forall a, axis_inv (t a) a (ps a) (still st a) k k'.

Lemma Rabs_add_le : forall x y d e z, Rabs x <= d -> Rabs y <= e -> z = x + y -> Rabs z <= d + e.
Proof. intros x y d e z H1 H2 ->. eapply Rle_trans; [apply Rabs_triang|]. lra. Qed.

Lemma tr_step_sim : forall t s (l : line A) ps qs st k k', reads s l -> t Z = 0 ->
  t_inv t ps st k k' -> (forall a, t_step a (ps a) s = Some (qs a)) ->
  (tr_absolute st = Some true \/ (tr_absolute st = None /\ match op_of s with Move _ _ _ => False | _ => True end)) ->
  let s' := raw (answer tr_opcode st l) in
  t_inv t qs (tr_next st l) (exec_line s k) (exec_line s' k').
Proof.
  intros t s l ps qs st k k' Hr Ht0 (I1 & I2 & I3 & I4 & I5 & I6 & I7) Hq Hmode s'. subst s'. unfold exec_line.
  assert (Hother : match op_of s with Move _ _ _ | SetPosition _ _ => False | _ => True end ->
    raw (answer tr_opcode st l) = s /\ (forall a, still (tr_next st l) a = still st a)).
  { intros H. destruct (tr_other s l st Hr H) as (H1 & H2 & _). auto. }
  destruct (op_of s) as [w e f|w|w e| | | | | | |n|] eqn:Eop.
  - (* move *)
    destruct Hmode as [Hmode|[_ Hmode]]; [|destruct Hmode].
    destruct (tr_move s l st w e f Hr Eop Hmode) as (Hst & w' & e' & f' & Ho' & Hw & _).
    rewrite Ho', Hst. cbn [exec]. unfold t_inv. cbn [inches relative home].
    split; [exact I1|]. split; [exact I2|]. split; [exact I3|]. split; [exact I4|]. split; [exact I5|]. split; [exact I6|].
    intros a. specialize (I7 a). specialize (Hw a). specialize (Hq a). unfold t_step in Hq. rewrite Eop in Hq.
    unfold named in Hq. injection Hq as <-. unfold axis_inv in *. cbn [head origin]. unfold mm. rewrite I1, I2, I3, I4.
    unfold near in Hw. destruct (w a) as [v|]; cbn [option_map] in Hw; destruct (w' a) as [v'|]; try contradiction.
    + destruct (ps a).
      * destruct I7 as (J1 & J2 & J3 & J4 & J5). repeat (split; [assumption|]). rewrite J4, J5, <- J1.
        replace (0 + v' - (0 + v + amount (still st a))) with (v' - (v + amount (still st a))) by lra. exact Hw.
      * destruct I7 as (J1 & J2 & J3 & J4). repeat (split; [assumption|]). rewrite J2, J3, <- J1.
        replace (0 + v' - (0 + v + amount (still st a))) with (v' - (v + amount (still st a))) by lra. exact Hw.
      * destruct I7 as (J1 & J2 & J3). split; [exact J1|]. split; [|exact J3].
        rewrite J1 in Hw. replace (/ 1000) with (/ 2000 + / 2000) by lra.
        apply (Rabs_add_le _ _ _ _ _ Hw J3). lra.
      * destruct I7 as (J1 & J2 & J3). split; [exact J1|]. split; [|exact J3].
        rewrite J1 in Hw. replace (/ 1000) with (/ 2000 + / 2000) by lra.
        apply (Rabs_add_le _ _ _ _ _ Hw J3). lra.
    + exact I7.
  - (* home *)
    destruct (Hother I) as [-> Hst]. rewrite Eop. cbn [exec]. unfold t_inv. cbn [inches relative home].
    split; [exact I1|]. split; [exact I2|]. split; [exact I3|]. split; [exact I4|]. split; [exact I5|]. split; [exact I6|].
    intros a. specialize (I7 a). specialize (Hq a). unfold t_step in Hq. rewrite Eop in Hq.
    rewrite Hst. unfold axis_inv in *. cbn [head origin]. rewrite I5, I6.
    destruct (negb (named w X || named w Y || named w Z) || named w a).
    + destruct (ps a).
      * injection Hq as <-. destruct I7 as (J1 & _). repeat split. exact J1.
      * injection Hq as <-. destruct I7 as (J1 & _). repeat split. exact J1.
      * destruct a; try discriminate Hq. injection Hq as <-. rewrite Ht0. repeat split.
      * destruct a; try discriminate Hq. injection Hq as <-. rewrite Ht0. repeat split.
    + injection Hq as <-. exact I7.
  - (* set position *)
    destruct (tr_set s l st w e Hr Eop) as (_ & Hst & w' & e' & Ho' & _ & Hw).
    rewrite Ho'. cbn [exec]. unfold t_inv. cbn [inches relative home].
    split; [exact I1|]. split; [exact I2|]. split; [exact I3|]. split; [exact I4|]. split; [exact I5|]. split; [exact I6|].
    intros a.
    assert (Hb : bare w e = false).
    { specialize (Hq a). unfold t_step in Hq. rewrite Eop in Hq. destruct (bare w e); [discriminate Hq|reflexivity]. }
    assert (Hb' : bare w' e' = false).
    { unfold bare. assert (Hex : exists b, resets w b = true).
      { unfold resets. destruct (named w X) eqn:Nx; [exists X; now rewrite Nx|].
        destruct (named w Y) eqn:Ny; [exists Y; now rewrite Ny|].
        destruct (named w Z) eqn:Nz; [exists Z; now rewrite Nz|]. exists X. rewrite Nx. reflexivity. }
      destruct Hex as [b Hb1]. specialize (Hw b). rewrite Hb1 in Hw.
      assert (Hn : named w' b = true).
      { unfold named. destruct (w' b); [reflexivity|destruct Hw]. }
      destruct b; rewrite Hn; cbn; rewrite ?orb_true_r; reflexivity. }
    rewrite Hb, Hb'. specialize (I7 a). specialize (Hq a). unfold t_step in Hq. rewrite Eop, Hb in Hq.
    specialize (Hst a). specialize (Hw a). rewrite Hst. unfold axis_inv in *. cbn [head origin]. unfold mm. rewrite I1, I2.
    destruct (resets w a) eqn:Er.
    + destruct (ps a) eqn:Ep; try discriminate Hq. injection Hq as <-.
      destruct I7 as (J1 & J2 & J3 & J4 & J5). unfold near in Hw. destruct (w' a) as [v'|]; [|destruct Hw].
      split; [reflexivity|]. split; [congruence|].
      destruct (w a) as [v|].
      * rewrite J2, J3. rewrite <- Rabs_Ropp. rewrite J1 in Hw.
        replace (- (0 - v' - (0 - v + t a))) with (v' - (v - t a)) by lra. exact Hw.
      * rewrite J3, J4. rewrite <- Rabs_Ropp. rewrite J1 in Hw.
        replace (- (0 - v' - (0 + t a))) with (v' - (0 - t a)) by lra. exact Hw.
    + injection Hq as <-.
      assert (Hwa : w a = None).
      { unfold resets, named in Er. apply orb_false_elim in Er as [Er _]. destruct (w a); [discriminate Er|reflexivity]. }
      unfold near in Hw. destruct (w' a); [destruct Hw|]. rewrite Hwa. exact I7.
  - specialize (Hq X). unfold t_step in Hq. rewrite Eop in Hq. discriminate Hq.
  - destruct (Hother I) as [-> Hst]. rewrite Eop. cbn [exec]. unfold t_inv. cbn [inches relative home].
    split; [reflexivity|]. split; [reflexivity|]. split; [exact I3|]. split; [exact I4|]. split; [exact I5|]. split; [exact I6|].
    intros a. rewrite Hst. specialize (Hq a). unfold t_step in Hq. rewrite Eop in Hq. injection Hq as <-. exact (I7 a).
  - destruct (Hother I) as [-> Hst]. rewrite Eop. cbn [exec]. unfold t_inv. cbn [inches relative home].
    split; [exact I1|]. split; [exact I2|]. split; [reflexivity|]. split; [reflexivity|]. split; [exact I5|]. split; [exact I6|].
    intros a. rewrite Hst. specialize (Hq a). unfold t_step in Hq. rewrite Eop in Hq. injection Hq as <-. exact (I7 a).
  - specialize (Hq X). unfold t_step in Hq. rewrite Eop in Hq. discriminate Hq.
  - destruct (Hother I) as [-> Hst]. rewrite Eop. cbn [exec]. unfold t_inv. cbn [inches relative home].
    split; [exact I1|]. split; [exact I2|]. split; [exact I3|]. split; [exact I4|]. split; [exact I5|]. split; [exact I6|].
    intros a. rewrite Hst. specialize (Hq a). unfold t_step in Hq. rewrite Eop in Hq. injection Hq as <-. exact (I7 a).
  - destruct (Hother I) as [-> Hst]. rewrite Eop. cbn [exec]. unfold t_inv. cbn [inches relative home].
    split; [exact I1|]. split; [exact I2|]. split; [exact I3|]. split; [exact I4|]. split; [exact I5|]. split; [exact I6|].
    intros a. rewrite Hst. specialize (Hq a). unfold t_step in Hq. rewrite Eop in Hq. injection Hq as <-. exact (I7 a).
  - destruct (Hother I) as [-> Hst]. rewrite Eop. cbn [exec]. unfold t_inv. 
    split; [exact I1|]. split; [exact I2|]. split; [exact I3|]. split; [exact I4|]. split; [exact I5|]. split; [exact I6|].
    intros a. rewrite Hst. specialize (Hq a). unfold t_step in Hq. rewrite Eop in Hq. injection Hq as <-. exact (I7 a).
  - destruct (Hother I) as [-> Hst]. rewrite Eop. cbn [exec]. unfold t_inv. 
    split; [exact I1|]. split; [exact I2|]. split; [exact I3|]. split; [exact I4|]. split; [exact I5|]. split; [exact I6|].
    intros a. rewrite Hst. specialize (Hq a). unfold t_step in Hq. rewrite Eop in Hq. injection Hq as <-. exact (I7 a).
Qed.

Lemma t_inv_head : forall t ps st k k' a, t_inv t ps st k k' ->
  Rabs (head k' a - (head k a + (if moved (ps a) then t a else 0))) <= / 1000.
Proof.
  intros t ps st k k' a (_ & _ & _ & _ & _ & _ & H). specialize (H a). unfold axis_inv in H.
  destruct (ps a); cbn [moved].
  - destruct H as (_ & -> & -> & _). replace (0 - (0 + 0)) with 0 by lra. rewrite Rabs_R0. lra.
  - destruct H as (_ & _ & _ & H). lra.
  - destruct H as (_ & -> & _). match goal with |- Rabs ?x <= _ => replace x with 0 by lra end. rewrite Rabs_R0. lra.
  - apply H.
Qed.

Lemma tr_run_sim : forall t, t Z = 0 -> forall ss (ls : list (line A)), Forall2 reads ss ls -> forall ps st k k',
  t_inv t ps st k k' -> (forall a, t_run a (ps a) ss <> None) ->
  (tr_absolute st = Some true \/ (tr_absolute st = None /\ declared ss = true)) ->
  forall i a, exists p, t_run a (ps a) (firstn i ss) = Some p /\
    Rabs (head (run (firstn i (map raw (answers tr_opcode st ls))) k') a -
          (head (run (firstn i ss) k) a + (if moved p then t a else 0))) <= / 1000.
Proof.
  intros t Ht0 ss ls H. induction H as [|s l ss ls Hr _ IH]; intros ps st k k' Hi Hq Hm i a.
  - exists (ps a). destruct i; cbn [firstn t_run]; (split; [reflexivity|]); cbn; apply (t_inv_head _ _ _ _ _ _ Hi).
  - destruct i as [|i].
    + exists (ps a). cbn [firstn t_run]. split; [reflexivity|]. apply (t_inv_head _ _ _ _ _ _ Hi).
    + assert (Hqs : exists qs, forall b, t_step b (ps b) s = Some (qs b)).
      { assert (Hb : forall b, exists q, t_step b (ps b) s = Some q).
        { intros b. specialize (Hq b). cbn [t_run] in Hq. destruct (t_step b (ps b) s) as [q|]; [eauto|congruence]. }
        destruct (Hb X) as [qx Hx], (Hb Y) as [qy Hy], (Hb Z) as [qz Hz].
        exists (fun b => match b with X => qx | Y => qy | Z => qz end). intros []; assumption. }
      destruct Hqs as [qs Hqs].
      assert (Hm1 : tr_absolute st = Some true \/
        (tr_absolute st = None /\ match op_of s with Move _ _ _ => False | _ => True end)).
      { destruct Hm as [Hm|[Hm Hd]]; [now left|right]. split; [exact Hm|]. cbn [declared] in Hd.
        destruct (op_of s); try exact I. discriminate Hd. }
      pose proof (tr_step_sim t s l ps qs st k k' Hr Ht0 Hi Hqs Hm1) as Hi'. cbv zeta in Hi'.
      assert (Hq' : forall b, t_run b (qs b) ss <> None).
      { intros b. specialize (Hq b). cbn [t_run] in Hq. rewrite Hqs in Hq. exact Hq. }
      assert (Hm' : tr_absolute (tr_next st l) = Some true \/ (tr_absolute (tr_next st l) = None /\ declared ss = true)).
      { destruct (op_of s) as [w e f|w|w e| | | | | | |n|] eqn:Eop.
        - destruct Hm1 as [Hm1|[_ Hm1]]; [|destruct Hm1].
          destruct (tr_move s l st w e f Hr Eop Hm1) as (-> & _). now left.
        - destruct (tr_other s l st Hr) as (_ & _ & Ha); [rewrite Eop; exact I|]. rewrite Ha, Eop.
          cbn [declared] in Hm. rewrite Eop in Hm. exact Hm.
        - destruct (tr_set s l st w e Hr Eop) as (-> & _). cbn [declared] in Hm. rewrite Eop in Hm. exact Hm.
        - specialize (Hqs X). unfold t_step in Hqs. rewrite Eop in Hqs. discriminate Hqs.
        - destruct (tr_other s l st Hr) as (_ & _ & Ha); [rewrite Eop; exact I|]. rewrite Ha, Eop.
          cbn [declared] in Hm. rewrite Eop in Hm. exact Hm.
        - destruct (tr_other s l st Hr) as (_ & _ & Ha); [rewrite Eop; exact I|]. rewrite Ha, Eop. now left.
        - specialize (Hqs X). unfold t_step in Hqs. rewrite Eop in Hqs. discriminate Hqs.
        - destruct (tr_other s l st Hr) as (_ & _ & Ha); [rewrite Eop; exact I|]. rewrite Ha, Eop.
          cbn [declared] in Hm. rewrite Eop in Hm. exact Hm.
        - destruct (tr_other s l st Hr) as (_ & _ & Ha); [rewrite Eop; exact I|]. rewrite Ha, Eop.
          cbn [declared] in Hm. rewrite Eop in Hm. exact Hm.
        - destruct (tr_other s l st Hr) as (_ & _ & Ha); [rewrite Eop; exact I|]. rewrite Ha, Eop.
          cbn [declared] in Hm. rewrite Eop in Hm. exact Hm.
        - destruct (tr_other s l st Hr) as (_ & _ & Ha); [rewrite Eop; exact I|]. rewrite Ha, Eop.
          cbn [declared] in Hm. rewrite Eop in Hm. exact Hm. }
      destruct (IH qs _ _ _ Hi' Hq' Hm' i a) as (p & Hp & Hb). exists p.
      cbn [firstn t_run answers map]. rewrite Hqs. split; [exact Hp|].
      unfold run in *. cbn [fold_left]. exact Hb.
Qed.

Lemma t_run_inches : forall ss p, t_run X p ss <> None -> Forall (fun s => op_of s <> Inches) ss.
Proof.
  induction ss as [|s ss IH]; intros p H; constructor; cbn [t_run] in H;
    destruct (t_step X p s) as [q|] eqn:Eq; try congruence.
  - intros Ho. unfold t_step in Eq. rewrite Ho in Eq. discriminate Eq.
  - apply (IH q H).
Qed.

Lemma shift_of_val : forall o, val (shift_of o) = amount o.
Proof.
  intros [x|]; cbn; [|apply (val_n0 E)]. destruct (n_eqb x n0) eqn:Ex; [|reflexivity].
  apply (val_eqb A E) in Ex. symmetry. exact Ex.
Qed.

Lemma translate_moves : forall home data x y (g g' : gcode A), load_gen false home data = Ok g ->
  translate x y g = Ok g' -> declared (program_text data) = true ->
  (forall a, t_run a Homed (program_text data) <> None) ->
  forall i a, exists p, t_run a Homed (firstn i (program_text data)) = Some p /\
    Rabs (head (run (firstn i (write g')) (start (fun _ => 0))) a -
          (head (run (firstn i (program_text data)) (start (fun _ => 0))) a +
           (if moved p then shift_amount x y a else 0))) <= / 1000.
Proof.
  intros home data x y g g' H H' Hd Hq i a. destruct (translate_pure x y g g' H') as (Ha & _).
  unfold write. change (List.concat (map ly_lines (g_layers g'))) with (all_lines g'). rewrite Ha.
  apply (tr_run_sim (shift_amount x y) eq_refl _ _ (load_reads _ _ _ H (t_run_inches _ _ (Hq X))) (fun _ => Homed)).
  - rewrite tr_init_of. repeat (split; [first [reflexivity|intros b; reflexivity]|]).
    intros b. cbn [start head origin]. split; [|auto].
    destruct b; cbn [still tr_x tr_y amount shift_amount]; [apply shift_of_val|apply shift_of_val|reflexivity].
  - exact Hq.
  - right. rewrite tr_init_of. auto.
Qed.

(** *** the extruder during a translation *)

Lemma tr_run_feed : forall ss (ls : list (line A)), Forall2 reads ss ls -> Forall e_plain ss -> forall st k k',
  (tr_absolute st = Some true \/ tr_absolute st = None) ->
  inches k = false -> inches k' = false -> relative_e k = false -> relative_e k' = false ->
  extruder_origin k' = extruder_origin k -> Rabs (extruder k' - extruder k) <= / 200000 ->
  forall i, Rabs (extruder (run (firstn i (map raw (answers tr_opcode st ls))) k') -
                  extruder (run (firstn i ss) k)) <= / 200000.
Proof.
  intros ss ls H. induction H as [|s l ss ls Hr _ IH]; intros Hp st k k' Hm I1 I2 I3 I4 I5 I6 i.
  - destruct i; exact I6.
  - destruct i as [|i]; [exact I6|]. cbn [firstn answers map]. unfold run in *. cbn [fold_left].
    inversion Hp as [|? ? Hs Hps]; subst. unfold e_plain in Hs.
    fold (tr_next st l).
    assert (Hsame : (raw (answer tr_opcode st l) = s /\
        (tr_absolute (tr_next st l) = Some true \/ tr_absolute (tr_next st l) = None)) \/
      (tr_absolute (tr_next st l) = Some true /\ exists w e f w' e' f', op_of s = Move w e f /\
         op_of (raw (answer tr_opcode st l)) = Move w' e' f' /\ near (/ 200000) e' e)).
    { destruct (op_of s) as [w e f|w|w e| | | | | | |n|] eqn:Eop; try contradiction.
      - destruct Hm as [Hm|Hm].
        + right. destruct (tr_move s l st w e f Hr Eop Hm) as (-> & w' & e' & f' & Ho' & _ & He').
          split; [exact Hm|]. exists w, e, f, w', e', f'. auto.
        + left. pose proof (reads_op s l Hr) as Hk. rewrite Eop in Hk. destruct Hk as (Hmo & _).
          unfold answer, tr_next, tr_opcode. rewrite cmd_in_motion, Hmo, Hm. cbn [fst snd].
          destruct Hr as (Hraw & _). auto.
      - left. destruct (tr_other s l st Hr) as (R1 & _ & Ha); [rewrite Eop; exact I|]. rewrite Ha, Eop. auto.
      - left. destruct (tr_other s l st Hr) as (R1 & _ & Ha); [rewrite Eop; exact I|]. rewrite Ha, Eop. auto.
      - left. destruct (tr_other s l st Hr) as (R1 & _ & Ha); [rewrite Eop; exact I|]. rewrite Ha, Eop. auto.
      - left. destruct (tr_other s l st Hr) as (R1 & _ & Ha); [rewrite Eop; exact I|]. rewrite Ha, Eop. auto.
      - left. destruct (tr_other s l st Hr) as (R1 & _ & Ha); [rewrite Eop; exact I|]. rewrite Ha, Eop. auto.
      - left. destruct (tr_other s l st Hr) as (R1 & _ & Ha); [rewrite Eop; exact I|]. rewrite Ha, Eop. auto. }
    destruct Hsame as [[Hraw Hm']|(Hm' & w & e & f & w' & e' & f' & Eop & Ho' & He')].
    + rewrite Hraw.
      assert (Hex : inches (exec_line s k) = false /\ inches (exec_line s k') = false /\
        relative_e (exec_line s k) = false /\ relative_e (exec_line s k') = false /\
        extruder_origin (exec_line s k') = extruder_origin (exec_line s k) /\
        Rabs (extruder (exec_line s k') - extruder (exec_line s k)) <= / 200000).
      { unfold exec_line. destruct (op_of s) as [w e f|w|w e| | | | | | |n|] eqn:Eop; try contradiction;
          cbn [exec inches relative_e extruder_origin extruder]; repeat (split; [first [assumption|reflexivity]|]);
          try exact I6.
        unfold mm. rewrite I1, I2, I3, I4, I5. destruct e as [v|]; [|exact I6].
        match goal with |- Rabs ?x <= _ => replace x with 0 by lra end. rewrite Rabs_R0. lra. }
      destruct Hex as (X1 & X2 & X3 & X4 & X5 & X6). apply IH; assumption.
    + apply IH; try assumption; unfold exec_line; rewrite ?Eop, ?Ho';
        cbn [exec inches relative_e extruder_origin extruder]; try assumption; [now left|].
      unfold mm. rewrite I1, I2, I3, I4, I5. unfold near in He'.
      destruct e as [v|], e' as [v'|]; try contradiction; [|exact I6].
      replace (extruder_origin k + v' - (extruder_origin k + v)) with (v' - v) by lra. exact He'.
Qed.

Lemma translate_feeds : forall home data x y (g g' : gcode A) h, load_gen false home data = Ok g ->
  translate x y g = Ok g' -> Forall e_plain (program_text data) ->
  forall i, Rabs (extruder (run (firstn i (write g')) (start h)) -
                  extruder (run (firstn i (program_text data)) (start h))) <= / 200000.
Proof.
  intros home data x y g g' h H H' Hp i. destruct (translate_pure x y g g' H') as (Ha & _).
  unfold write. change (List.concat (map ly_lines (g_layers g'))) with (all_lines g'). rewrite Ha.
  assert (Hin : Forall (fun s => op_of s <> Inches) (program_text data)).
  { eapply Forall_impl; [|exact Hp]. intros s Hs Ho. unfold e_plain in Hs. rewrite Ho in Hs. exact Hs. }
  apply (tr_run_feed _ _ (load_reads _ _ _ H Hin) Hp); try reflexivity.
  - right. rewrite tr_init_of. reflexivity.
  - cbn. replace (0 - 0) with 0 by lra. rewrite Rabs_R0. lra.
Qed.

End Motion.

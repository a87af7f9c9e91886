(** * P_Mod: what conversion, translation and pauses together leave alone (C33, C105, C106) *)
From Coq Require Import List Ascii String ZArith NArith Bool Lia Reals Lra.
From Verif Require Import PyBase Arith ArithR ArithB64 Gcoder Filters Visit Samples.
From Verif Require Import SpecText SpecLoad SpecMachine SpecMeasure SpecEqual SpecFilter SpecVisit SpecMod.
From Verif Require Import P_Load P_Text P_Report P_Wf P_Machine P_Format P_Filter P_FilterMotion P_Visit.
From Verif Require Import P_MachineRefuted P_FilterRefuted P_ModRun.
Import ListNotations.
Local Open Scope list_scope.
Local Open Scope R_scope.

(** *** pauses *)

Lemma with_pauses_refl : forall ss, with_pauses 0 ss ss.
Proof. induction ss; constructor; assumption. Qed.
Lemma with_pauses_app : forall n ss out, with_pauses n ss out -> forall m ts out', with_pauses m ts out' ->
  with_pauses (n + m) (ss ++ ts) (out ++ out').
Proof. intros n ss out H m ts out' H'. induction H; cbn [app Nat.add]; [exact H'| |]; constructor; assumption. Qed.
Lemma with_pauses_repeat : forall n, with_pauses n [] (repeat "M226"%string n).
Proof. induction n; cbn; constructor; assumption. Qed.

Lemma fronts_pauses : forall {A : arith} (m : line A) ns ys, raw m = "M226"%string -> List.length ns = List.length ys ->
  with_pauses (list_sum ns) (map raw (List.concat (map ly_lines ys)))
    (map raw (List.concat (map ly_lines (fronts m ns ys)))).
Proof.
  intros A m ns ys Hm. revert ys. induction ns as [|n ns IH]; intros [|y ys] H; try discriminate H; [constructor|].
  injection H as H. unfold fronts in *. cbn [combine map List.concat fst snd fronted ly_lines list_sum fold_right].
  rewrite <- app_assoc, !map_app, map_repeat, Hm.
  change (map raw (ly_lines y) ++ map raw (List.concat (map ly_lines ys)))
    with ([] ++ (map raw (ly_lines y) ++ map raw (List.concat (map ly_lines ys)))).
  apply with_pauses_app; [apply with_pauses_repeat|].
  change (fold_right Nat.add 0%nat ns) with (0 + list_sum ns)%nat.
  apply with_pauses_app; [apply with_pauses_refl|apply (IH ys H)].
Qed.

Lemma mod_pauses : forall {A : arith} (o : mod_options (A:=A)) data (g0 g1 g2 g3 : gcode A), load_gen false home0 data = Ok g0 ->
  (if is_some (o_x o) || is_some (o_y o) then translate (o_x o) (o_y o) g0 = Ok g1 else g1 = g0) ->
  (if o_e o then to_relative_extrusion g1 = Ok g2 else g2 = g1) ->
  match o_p o with Some p => pause 2 [p] g2 = Ok g3 | None => g3 = g2 end ->
  exists n, with_pauses n (write g2) (write g3) /\ (o_p o = None -> n = 0%nat).
Proof.
  intros A o data g0 g1 g2 g3 H0 H1 H2 H3.
  destruct (o_p o) as [p|].
    - assert (HP : prepared g2).
      { assert (P1 : prepared g1).
        { destruct (is_some (o_x o) || is_some (o_y o)).
          - eapply pr_translate; [|exact H1]. eapply pr_load. exact H0.
          - subst g1. eapply pr_load. exact H0. }
        destruct (o_e o); [eapply pr_relative; [exact P1|exact H2]|now subst g2]. }
      destruct (in_none_dec (g_zs g2)) as [HN|HN].
      + rewrite (pause_unknown 2 [p] g2 HN) in H3. discriminate H3.
      + destruct (pause_general 2 [p] g2 HP HN) as (g4 & m & ns & P1 & (P2 & _) & P3 & P4 & _).
        rewrite P1 in H3. injection H3 as <-. exists (list_sum ns). split; [|discriminate].
        unfold write. rewrite P4. apply fronts_pauses; assumption.
    - subst g3. exists 0%nat. split; [apply with_pauses_refl|reflexivity].
Qed.

Section Mod.
Context {A : arith}.
Variable E : exact A.
Notation val := (val E).
Notation reads := (reads E).
Notation amount := (amount E).
Notation shift_amount := (shift_amount E).
Notation head_op := (head_op (/ 2000)).
Notation close := (close (/ 2000)).
Notation set_near := (set_near (/ 2000)).
Notation h_op := (h_op (/ 2000)).
Notation h_chain := (h_chain (/ 2000)).
Notation e_op := (e_op (/ 200000)).
Notation e_chain := (e_chain (/ 200000)).

Lemma third_pos : 0 <= / 2000. Proof. lra. Qed.
Lemma fifth_pos : 0 <= / 200000. Proof. lra. Qed.

(** ** The head during a conversion (C105) *)

Lemma rel_head_op : forall s (l : line A) st, reads s l ->
  head_op (op_of s) (op_of (raw (answer rel_opcode st l))).
Proof.
  intros s l st Hr. pose proof (reads_op E s l Hr) as Ho. pose proof Hr as (Hraw & _).
  unfold answer, rel_opcode. rewrite !cmd_is_command, cmd_in_motion.
  destruct (is_command "M83" l) eqn:H83; [left; cbn [snd]; now rewrite Hraw|].
  destruct (is_command "M82" l) eqn:H82.
  { right. left. cbn [snd]. split; [|reflexivity].
    destruct (op_of s) eqn:Eop; try reflexivity; exfalso;
      try (destruct Ho as (_ & _ & K & _); congruence).
    - destruct Ho as (Hm & _). rewrite (is_command_motion _ _ H82) in Hm. discriminate Hm.
    - destruct Ho as (_ & K & _). rewrite (is_command_eq _ "G92" _ H82) in K. discriminate K.
    - rewrite (is_command_eq _ "G90" _ H82) in Ho. discriminate Ho.
    - rewrite (is_command_eq _ "G91" _ H82) in Ho. discriminate Ho.
    - congruence. }
  destruct (is_command "G92" l); [left; cbn [snd]; destruct (l_e l); [|destruct (no_xyz l)]; cbn; now rewrite Hraw|].
  destruct (is_motion l) eqn:Hm; cbn [andb]; [|left; cbn [snd]; now rewrite Hraw].
  destruct (r_relative st); cbn [negb]; [left; cbn [snd]; now rewrite Hraw|].
  destruct (l_e l) as [x|] eqn:Ele; [|left; cbn [snd]; now rewrite Hraw].
  right. right.
  destruct (op_of s) as [w e f|w|w e| | | | | | |n|] eqn:Eop;
    try discriminate Ho; try (destruct Ho as (K & _); discriminate K);
    try (rewrite (is_command_motion _ _ Ho) in Hm; discriminate Hm).
  destruct Ho as (_ & Hx & Hy & Hz & He & Hf & c & Hc & Hgc & Hmc).
  cbn [snd unsplit mark_relative_e set_notes raw set_raw largs command set_arg set_args]. rewrite Hc.
  set (a' := put_arg LE (Some (n_sub x (r_current st))) (largs l)).
  destruct (op_unsplit_move E c a' Hgc Hmc) as (w' & e' & f' & Ho' & Hw' & _).
  exists w, e, f, w', e', f'. split; [reflexivity|]. split; [exact Ho'|].
  intros a. rewrite Hw'. destruct a; cbn [a' put_arg a_x a_y a_z].
  - rewrite <- Hx. change (a_x (largs l)) with (l_x l). destruct (l_x l); cbn; [apply round3|exact I].
  - rewrite <- Hy. change (a_y (largs l)) with (l_y l). destruct (l_y l); cbn; [apply round3|exact I].
  - rewrite <- Hz. change (a_z (largs l)) with (l_z l). destruct (l_z l); cbn; [apply round3|exact I].
Qed.

Lemma rel_head_ops : forall ss (ls : list (line A)), Forall2 reads ss ls -> forall st,
  Forall2 (fun s s' => head_op (op_of s) (op_of s')) ss (map raw (answers rel_opcode st ls)).
Proof.
  intros ss ls H. induction H as [|s l ss ls Hr _ IH]; intros st; cbn [answers map]; constructor.
  - apply rel_head_op. exact Hr.
  - apply IH.
Qed.

Lemma relative_head : forall home data (g g' : gcode A) h, load_gen false home data = Ok g ->
  to_relative_extrusion g = Ok g' -> metric (program_text data) ->
  forall i a, Rabs (head (run (firstn i (write g')) (start h)) a -
                    head (run (firstn i (program_text data)) (start h)) a)
              <= INR (drive_count a (firstn i (program_text data))) * / 2000.
Proof.
  intros home data g g' h H H' Hm i a. destruct (relative_pure g g' H') as (Ha & _).
  unfold write. change (List.concat (map ly_lines (g_layers g'))) with (all_lines g'). rewrite Ha.
  pose proof (rel_head_ops _ _ (load_reads E _ _ _ H Hm) rel_init) as Hops.
  destruct (head_run _ third_pos _ _ Hops Hm (fun _ => 0%nat) (start h) (start h)) with (i := i) as (_ & _ & _ & _ & Hb).
  - repeat split; cbn [start head origin];
      match goal with |- Rabs ?t <= _ => replace t with 0 by lra end; rewrite Rabs_R0; cbn; lra.
  - apply (Hb a).
Qed.

Lemma relative_head_fixed : forall home data (g g' : gcode A) h a, load_gen false home data = Ok g ->
  to_relative_extrusion g = Ok g' -> metric (program_text data) -> fixed_axis a (program_text data) ->
  forall i, Rabs (head (run (firstn i (write g')) (start h)) a -
                  head (run (firstn i (program_text data)) (start h)) a) <= / 2000.
Proof.
  intros home data g g' h a H H' Hm Hf i. destruct (relative_pure g g' H') as (Ha & _).
  unfold write. change (List.concat (map ly_lines (g_layers g'))) with (all_lines g'). rewrite Ha.
  pose proof (rel_head_ops _ _ (load_reads E _ _ _ H Hm) rel_init) as Hops.
  apply (fixed_run _ third_pos a _ _ Hops Hm Hf); try reflexivity.
  replace (head (start h) a - head (start h) a) with 0 by lra. rewrite Rabs_R0. lra.
Qed.

(** ** Line by line: translation, then conversion *)

(** [l] stands for the line [s], perhaps translated *)
Definition e_carried (s : string) (l : line A) : Prop :=
  match op_of s with
  | Move _ e _ => is_motion l = true /\
      (exists c, command l = Some c /\ g_command c /\ str_mem c ["G0"; "G1"; "G2"; "G3"]%string = true) /\
      option_map val (l_e l) = e /\
      exists w' e' f', op_of (raw l) = Move w' e' f' /\ near (/ 200000) e' e
  | SetPosition w e => is_motion l = false /\ is_command "G92" l = true /\ option_map val (l_e l) = e /\
      (bare w e = false -> l_e l = None -> no_xyz l = false) /\
      exists w' e', op_of (raw l) = SetPosition w' e' /\ near (/ 200000) e' e /\
        (bare w e = false -> bare w' e' = false)
  | _ => reads s l
  end.
Definition h_carried (u : axis -> R) (s : string) (l : line A) : Prop :=
  match op_of s with
  | Move w _ _ =>
      (forall a, option_map val (get_arg (axis_arg a) (largs l)) = option_map (fun v => v + u a) (w a)) /\
      forall w' e' f', op_of (raw l) = Move w' e' f' ->
        forall a, near (/ 2000) (w' a) (option_map (fun v => v + u a) (w a))
  | SetPosition w _ => forall w' e', op_of (raw l) = SetPosition w' e' -> forall a, set_near (u a) w w' a
  | _ => True
  end.

Lemma near_val : forall d (o : option (num A)) p, option_map val o = p -> 0 <= d -> near d p (option_map val o).
Proof. intros d o p <- H. apply near_self. exact H. Qed.

Lemma axis_val : forall (l : line A) (w : axis -> option R), option_map val (l_x l) = w X ->
  option_map val (l_y l) = w Y -> option_map val (l_z l) = w Z ->
  forall a, option_map val (get_arg (axis_arg a) (largs l)) = w a.
Proof. intros l w H1 H2 H3 []; assumption. Qed.

Lemma reads_carried : forall s l, reads s l -> e_carried s l /\ h_carried (fun _ => 0) s l.
Proof.
  intros s l Hr. pose proof (reads_op E s l Hr) as Ho. pose proof Hr as (Hraw & _).
  unfold e_carried, h_carried. rewrite Hraw. destruct (op_of s) as [w e f|w|w e| | | | | | |n|] eqn:Eop; auto.
  - destruct Ho as (Hm & Hx & Hy & Hz & He & Hf & c & Hc & Hgc & Hmc). split.
    + split; [exact Hm|]. split; [exists c; auto|]. split; [exact He|]. exists w, e, f. split; [reflexivity|].
      apply near_self. lra.
    + assert (Hid : forall a, option_map (fun v => v + 0) (w a) = w a).
      { intros a. destruct (w a); cbn; [f_equal; lra|reflexivity]. }
      split.
      * intros a. rewrite Hid. apply axis_val; assumption.
      * intros w' e' f' H a. injection H as <- <- <-. rewrite Hid. apply near_self. lra.
  - destruct Ho as (Hm & H92 & Hx & Hy & Hz & He). split.
    + split; [exact Hm|]. split; [exact H92|]. split; [exact He|]. split.
      * intros Hb Hle. pose proof (no_xyz_bare E l w e Hx Hy Hz He) as Hn. rewrite Hle in Hn. congruence.
      * exists w, e. split; [reflexivity|]. split; [apply near_self; lra|auto].
    + intros w' e' H a. injection H as <- <-. unfold set_near, resets, named. destruct (w a) as [v|].
      * split; [reflexivity|]. replace (v - (v - 0)) with 0 by lra. rewrite Rabs_R0. lra.
      * split; reflexivity.
Qed.

(** the numbers of a translated move *)
Lemma tr_move_args : forall s (l : line A) st w e f, reads s l -> op_of s = Move w e f ->
  tr_absolute st = Some true ->
  let l' := answer tr_opcode st l in
  command l' = command l /\ l_e l' = l_e l /\
  forall a, option_map val (get_arg (axis_arg a) (largs l')) = option_map (fun v => v + amount (still st a)) (w a).
Proof.
  intros s l st w e f Hr Ho Ht l'. subst l'. pose proof (reads_op E s l Hr) as Hk. rewrite Ho in Hk.
  destruct Hk as (Hm & Hx & Hy & Hz & He & Hf & c & Hc & Hgc & Hmc).
  unfold answer, tr_opcode. rewrite cmd_in_motion, Hm, Ht. cbn [fst snd].
  destruct (shift_two (tr_x st) (tr_y st) l) as (S1 & S2 & S3 & S4 & S5 & S6 & S7). cbv zeta in *.
  split; [exact S1|]. split; [apply (S6 LE); discriminate|].
  intros []; cbn [axis_arg still].
  - change (get_arg LX (largs ?x)) with (l_x x). rewrite S4, <- Hx. destruct (l_x l); cbn; [|reflexivity].
    now rewrite (shifted_val E).
  - change (get_arg LY (largs ?x)) with (l_y x). rewrite S5, <- Hy. destruct (l_y l); cbn; [|reflexivity].
    now rewrite (shifted_val E).
  - rewrite (S6 LZ) by discriminate. rewrite <- Hz. change (get_arg LZ (largs l)) with (l_z l).
    destruct (l_z l); cbn; [|reflexivity]. f_equal. lra.
Qed.

Lemma tr_set_line : forall s (l : line A) st w e, reads s l -> op_of s = SetPosition w e ->
  let l' := answer tr_opcode st l in
  command l' = command l /\ l_e l' = l_e l /\ no_xyz l' = false.
Proof.
  intros s l st w e Hr Ho l'. subst l'. pose proof (reads_op E s l Hr) as Hk. rewrite Ho in Hk.
  destruct Hk as (Hm & H92 & _).
  unfold answer, tr_opcode. rewrite !cmd_is_command, cmd_in_motion, Hm, H92.
  rewrite (is_command_eq _ "G90" _ H92), (is_command_eq _ "G91" _ H92).
  change (String.eqb "G92" "G90") with false. change (String.eqb "G92" "G91") with false. cbv iota.
  unfold no_xyz, shift_opp, shift_sub.
  change (l_x l) with (a_x (largs l)). change (l_y l) with (a_y (largs l)). change (l_z l) with (a_z (largs l)).
  destruct l as [rw cm mv [ax ay az ae af ai aj] nt]. cbn [largs a_x a_y a_z].
  destruct ax, ay, az; cbn; repeat split.
Qed.

Lemma is_motion_command : forall l l' : line A, command l' = command l -> is_motion l' = is_motion l.
Proof. intros l l' H. unfold is_motion. now rewrite H. Qed.
Lemma is_command_command : forall c (l l' : line A), command l' = command l -> is_command c l' = is_command c l.
Proof. intros c l l' H. unfold is_command. now rewrite H. Qed.

Lemma tr_e_carried : forall s l st, reads s l -> e_carried s (answer tr_opcode st l).
Proof.
  intros s l st Hr. pose proof (reads_op E s l Hr) as Hk. pose proof (reads_carried s l Hr) as [He0 _].
  assert (Hsame : answer tr_opcode st l = l -> e_carried s (answer tr_opcode st l)) by (intros ->; exact He0).
  unfold e_carried in *. destruct (op_of s) as [w e f|w|w e| | | | | | |n|] eqn:Eop.
  - destruct (tr_absolute st) as [[|]|] eqn:Ht.
    + destruct (tr_move_args s l st w e f Hr Eop Ht) as (C1 & C2 & _).
      destruct (tr_move E s l st w e f Hr Eop Ht) as (_ & w' & e' & f' & Ho' & _ & Hee).
      destruct He0 as (Hm & Hc & He & _).
      split; [rewrite (is_motion_command _ _ C1); exact Hm|]. split; [rewrite C1; exact Hc|].
      split; [rewrite C2; exact He|]. exists w', e', f'. auto.
    + apply Hsame. destruct Hk as (Hm & _). unfold answer, tr_opcode. rewrite cmd_in_motion, Hm, Ht. reflexivity.
    + apply Hsame. destruct Hk as (Hm & _). unfold answer, tr_opcode. rewrite cmd_in_motion, Hm, Ht. reflexivity.
  - apply Hsame. destruct Hk as (K1 & K2 & _ & _ & K5 & K6). unfold answer, tr_opcode.
    rewrite !cmd_is_command, cmd_in_motion, K1, K2, K5, K6. reflexivity.
  - destruct (tr_set_line s l st w e Hr Eop) as (C1 & C2 & C3).
    destruct (tr_set E s l st w e Hr Eop) as (_ & _ & w' & e' & Ho' & Hee & Hw).
    destruct He0 as (Hm & Hc & He & _).
    split; [rewrite (is_motion_command _ _ C1); exact Hm|]. split; [rewrite (is_command_command _ _ _ C1); exact Hc|].
    split; [rewrite C2; exact He|]. split; [intros _ _; exact C3|]. exists w', e'. split; [exact Ho'|]. split; [exact Hee|].
    intros _. unfold bare.
    assert (Hex : exists b, resets w b = true).
    { unfold resets. destruct (named w X) eqn:Nx; [exists X; now rewrite Nx|].
      destruct (named w Y) eqn:Ny; [exists Y; now rewrite Ny|].
      destruct (named w Z) eqn:Nz; [exists Z; now rewrite Nz|]. exists X. rewrite Nx. reflexivity. }
    destruct Hex as [b Hb1]. specialize (Hw b). rewrite Hb1 in Hw.
    assert (Hn : named w' b = true).
    { unfold named. destruct (w' b); [reflexivity|destruct Hw]. }
    destruct b; rewrite Hn; cbn; rewrite ?orb_true_r; reflexivity.
  - apply Hsame. destruct Hk as (K1 & K2 & _ & _ & K5 & K6). unfold answer, tr_opcode.
    rewrite !cmd_is_command, cmd_in_motion, K1, K2, K5, K6. reflexivity.
  - apply Hsame. destruct Hk as (K1 & K2 & _ & _ & K5 & K6). unfold answer, tr_opcode.
    rewrite !cmd_is_command, cmd_in_motion, K1, K2, K5, K6. reflexivity.
  - apply Hsame. unfold answer, tr_opcode.
    rewrite !cmd_is_command, cmd_in_motion, (is_command_motion _ _ Hk), Hk. reflexivity.
  - apply Hsame. unfold answer, tr_opcode.
    rewrite !cmd_is_command, cmd_in_motion, (is_command_motion _ _ Hk), (is_command_eq _ "G90" _ Hk), Hk. reflexivity.
  - apply Hsame. unfold answer, tr_opcode.
    rewrite !cmd_is_command, cmd_in_motion, (is_command_motion _ _ Hk), (is_command_eq _ "G90" _ Hk),
      (is_command_eq _ "G91" _ Hk), (is_command_eq _ "G92" _ Hk). reflexivity.
  - apply Hsame. unfold answer, tr_opcode.
    rewrite !cmd_is_command, cmd_in_motion, (is_command_motion _ _ Hk), (is_command_eq _ "G90" _ Hk),
      (is_command_eq _ "G91" _ Hk), (is_command_eq _ "G92" _ Hk). reflexivity.
  - apply Hsame. destruct Hk as (K1 & K2 & _ & _ & K5 & K6). unfold answer, tr_opcode.
    rewrite !cmd_is_command, cmd_in_motion, K1, K2, K5, K6. reflexivity.
  - apply Hsame. destruct Hk as (K1 & K2 & _ & _ & K5 & K6). unfold answer, tr_opcode.
    rewrite !cmd_is_command, cmd_in_motion, K1, K2, K5, K6. reflexivity.
Qed.

Lemma tr_h_carried : forall s l st, reads s l ->
  match op_of s with Move _ _ _ => tr_absolute st = Some true | _ => True end ->
  h_carried (fun a => amount (still st a)) s (answer tr_opcode st l).
Proof.
  intros s l st Hr Hm. unfold h_carried. destruct (op_of s) as [w e f|w|w e| | | | | | |n|] eqn:Eop; try exact I.
  - destruct (tr_move_args s l st w e f Hr Eop Hm) as (_ & _ & C3). split; [exact C3|].
    destruct (tr_move E s l st w e f Hr Eop Hm) as (_ & w1 & e1 & f1 & Ho' & Hw & _).
    intros w' e' f' H. rewrite Ho' in H. injection H as <- <- <-. exact Hw.
  - destruct (tr_set E s l st w e Hr Eop) as (_ & _ & w1 & e1 & Ho' & _ & Hw).
    intros w' e' H a. rewrite Ho' in H. injection H as <- <-. specialize (Hw a). unfold set_near.
    destruct (resets w a) eqn:Er; destruct (w1 a) as [v'|]; cbn [near] in Hw; try contradiction.
    + auto.
    + split; [|discriminate]. unfold resets, named in Er. destruct (w a); [discriminate Er|reflexivity].
Qed.

(** no conversion *)
Lemma carried_e : forall s l, e_carried s l -> e_op None (op_of s) (op_of (raw l)).
Proof.
  intros s l H. unfold e_carried, e_op in *. destruct (op_of s) eqn:Eop;
    try (destruct H as (Hraw & _); rewrite Hraw; exact Eop).
  - destruct H as (_ & _ & _ & H). exact H.
  - destruct H as (_ & _ & _ & _ & H). exact H.
Qed.
Lemma carried_h : forall u s l, e_carried s l -> h_carried u s l -> h_op u (op_of s) (op_of (raw l)).
Proof.
  intros u s l H Hh. unfold e_carried, h_carried, h_op in *. destruct (op_of s) eqn:Eop;
    try (destruct H as (Hraw & _); rewrite Hraw; first [exact Eop|left; exact Eop]).
  - destruct H as (_ & _ & _ & w' & e' & f' & H & _). destruct Hh as [_ Hh]. exists w', e', f'. eauto.
  - destruct H as (_ & _ & _ & _ & w' & e' & H & _ & Hb). exists w', e'. eauto.
Qed.

(** conversion of a line that may have been translated *)
Definition r_of (st : rstate (A:=A)) : option (bool * R) := Some (r_relative st, val (r_current st)).

Lemma rel_carried : forall s l st u, e_carried s l -> settled s ->
  e_op (r_of st) (op_of s) (op_of (raw (answer rel_opcode st l))) /\
  r_of (rel_next st l) = r_next (r_of st) (op_of s) /\
  (h_carried u s l -> h_op u (op_of s) (op_of (raw (answer rel_opcode st l)))).
Proof.
  intros s l st u H Hset. unfold e_carried, settled in *.
  assert (Hother : forall K : Prop, (K -> match op_of s with Move _ _ _ | SetPosition _ _ | AbsoluteE | RelativeE => False
    | _ => True end) -> reads s l -> K ->
    answer rel_opcode st l = l /\ rel_next st l = st).
  { intros K HK Hr k. specialize (HK k). pose proof (reads_op E s l Hr) as Ho.
    unfold rel_next, answer, rel_opcode. rewrite !cmd_is_command, cmd_in_motion.
    destruct (op_of s); try contradiction;
      try (destruct Ho as (K1 & K2 & K3 & K4 & _); rewrite K4, K3, K2, K1; split; reflexivity);
      rewrite (is_command_eq _ "M83" _ Ho), (is_command_eq _ "M82" _ Ho), (is_command_eq _ "G92" _ Ho),
        (is_command_motion _ _ Ho); split; reflexivity. }
  destruct (op_of s) as [w e f|w|w e| | | | | | |n|] eqn:Eop;
    try (destruct (Hother True (fun _ => I) H I) as [-> ->]; destruct H as (Hraw & _); rewrite Hraw, Eop;
         split; [reflexivity|]; split; [reflexivity|]; intros _; reflexivity).
  - (* move *)
    destruct H as (Hm & (c & Hc & Hgc & Hmc) & He & w1 & e1 & f1 & Ho1 & He1).
    unfold rel_next, answer, rel_opcode. rewrite !cmd_is_command, cmd_in_motion.
    rewrite (move_not_command "M83" l Hm eq_refl), (move_not_command "M82" l Hm eq_refl),
      (move_not_command "G92" l Hm eq_refl), Hm. cbn [andb].
    assert (Hh : h_carried u s l -> exists w' e' f', op_of (raw l) = Move w' e' f' /\
      forall a, near (/ 2000) (w' a) (option_map (fun v => v + u a) (w a))).
    { unfold h_carried. rewrite Eop. intros [_ Hh]. exists w1, e1, f1. split; [exact Ho1|]. exact (Hh _ _ _ Ho1). }
    destruct (r_relative st) eqn:Er; cbn [negb].
    + cbn [fst snd e_op h_op]. rewrite Ho1. unfold r_of, r_next. rewrite Er.
      split; [exists w1, e1, f1; auto|]. split; [destruct e; reflexivity|]. rewrite <- Ho1. exact Hh.
    + destruct (l_e l) as [x|] eqn:Ele; cbn in He; subst e.
      * cbn [fst snd unsplit mark_relative_e set_notes raw set_raw largs command set_arg set_args]. rewrite Hc.
        set (a' := put_arg LE (Some (n_sub x (r_current st))) (largs l)).
        destruct (op_unsplit_move E c a' Hgc Hmc) as (w' & e' & f' & Ho' & Hw' & He' & _).
        rewrite Ho'. cbn in He'. subst e'. unfold r_of, r_next. rewrite Er. cbn [r_relative r_current].
        split.
        { exists w', (Some (val (py_round 5 (n_sub x (r_current st))))), f'. split; [reflexivity|].
          cbn [option_map near]. rewrite <- (val_sub A E). apply (round5 E). }
        split; [reflexivity|].
        unfold h_carried. rewrite Eop. intros [Hh2 _]. exists w', (Some (val (py_round 5 (n_sub x (r_current st))))), f'.
        split; [reflexivity|]. intros a. rewrite Hw', <- Hh2. destruct a; cbn [a' put_arg a_x a_y a_z axis_arg get_arg].
        -- destruct (a_x (largs l)); cbn; [apply (round3 E)|exact I].
        -- destruct (a_y (largs l)); cbn; [apply (round3 E)|exact I].
        -- destruct (a_z (largs l)); cbn; [apply (round3 E)|exact I].
      * cbn [fst snd]. rewrite Ho1. unfold r_of, r_next. rewrite Er.
        split; [exists w1, e1, f1; auto|]. split; [reflexivity|]. rewrite <- Ho1. exact Hh.
  - (* set position *)
    destruct H as (Hm & H92 & He & Hnb & w1 & e1 & Ho1 & He1 & Hb1).
    unfold rel_next, answer, rel_opcode. rewrite !cmd_is_command, cmd_in_motion.
    rewrite (is_command_eq _ "M83" _ H92), (is_command_eq _ "M82" _ H92), H92.
    change (String.eqb "G92" "M83") with false. change (String.eqb "G92" "M82") with false. cbn [fst snd].
    split; [cbn [e_op]; rewrite Ho1; exists w1, e1; auto|]. split.
    { destruct (l_e l) as [x|] eqn:Ele; cbn in He; subst e; [reflexivity|].
      rewrite (Hnb Hset eq_refl). reflexivity. }
    unfold h_carried. rewrite Eop. intros Hh. cbn [h_op]. rewrite Ho1. exists w1, e1. split; [reflexivity|]. split; [exact Hb1|].
    exact (Hh _ _ Ho1).
  - pose proof (reads_op E s l H) as Ho. rewrite Eop in Ho.
    unfold rel_next, answer, rel_opcode. rewrite !cmd_is_command.
    rewrite (is_command_eq _ "M83" _ Ho), Ho. change (String.eqb "M82" "M83") with false. cbn [fst snd].
    change (op_of (raw (raw_to_line (A:=A) "M83"))) with RelativeE.
    split; [reflexivity|]. split; [reflexivity|]. intros _. right. reflexivity.
  - pose proof (reads_op E s l H) as Ho. rewrite Eop in Ho.
    unfold rel_next, answer, rel_opcode. rewrite !cmd_is_command, Ho. cbn [fst snd].
    destruct H as (Hraw & _). rewrite Hraw, Eop.
    split; [reflexivity|]. split; [reflexivity|]. intros _. reflexivity.
Qed.

(** ** Whole programs *)

Fixpoint h_carry (u : axis -> R) (ss : list string) (ls : list (line A)) : Prop :=
  match ss, ls with
  | [], [] => True
  | s :: t, l :: ls => h_carried u s l /\ h_carry (u_next u (op_of s)) t ls
  | _, _ => False
  end.

Lemma e_chain_plain : forall ss ls, Forall2 e_carried ss ls -> e_chain None ss (map raw ls).
Proof.
  intros ss ls H. induction H as [|s l ss ls Hs _ IH]; cbn [map e_chain]; [exact I|]. split; [apply carried_e; exact Hs|].
  exact IH.
Qed.

Lemma e_chain_rel : forall ss ls, Forall2 e_carried ss ls -> Forall settled ss -> forall st,
  e_chain (r_of st) ss (map raw (answers rel_opcode st ls)).
Proof.
  intros ss ls H. induction H as [|s l ss ls Hs _ IH]; intros Hset st; cbn [answers map e_chain]; [exact I|].
  inversion Hset as [|? ? S1 S2]; subst.
  destruct (rel_carried s l st (fun _ => 0) Hs S1) as (H1 & H2 & _). split; [exact H1|]. rewrite <- H2. apply (IH S2).
Qed.

Lemma h_chain_plain : forall ss ls, Forall2 e_carried ss ls -> forall u, h_carry u ss ls -> h_chain u ss (map raw ls).
Proof.
  intros ss ls H. induction H as [|s l ss ls Hs _ IH]; intros u Hu; cbn [map h_chain]; [exact I|].
  destruct Hu as [H1 H2]. split; [apply carried_h; assumption|]. apply IH. exact H2.
Qed.

Lemma h_chain_rel : forall ss ls, Forall2 e_carried ss ls -> Forall settled ss -> forall u st, h_carry u ss ls ->
  h_chain u ss (map raw (answers rel_opcode st ls)).
Proof.
  intros ss ls H. induction H as [|s l ss ls Hs _ IH]; intros Hset u st Hu; cbn [answers map h_chain]; [exact I|].
  inversion Hset as [|? ? S1 S2]; subst. destruct Hu as [U1 U2].
  destruct (rel_carried s l st u Hs S1) as (_ & _ & H3). split; [apply H3; exact U1|]. apply (IH S2). exact U2.
Qed.

Lemma h_carried_ext : forall u v s l, (forall a, u a = v a) -> h_carried u s l -> h_carried v s l.
Proof.
  intros u v s l H. unfold h_carried. destruct (op_of s); auto.
  - intros [H1 H2]. split; intros; rewrite <- H; [apply H1|eapply H2; eauto].
  - intros H1 w' e' Ho a. rewrite <- H. eapply H1; eauto.
Qed.

Lemma reads_h_carry : forall ss ls, Forall2 reads ss ls -> forall u, (forall a, u a = 0) -> h_carry u ss ls.
Proof.
  intros ss ls H. induction H as [|s l ss ls Hr _ IH]; intros u Hu; cbn [h_carry]; [exact I|]. split.
  - apply (h_carried_ext (fun _ => 0)); [intros a; now rewrite Hu|]. apply reads_carried. exact Hr.
  - apply IH. intros a. unfold u_next. destruct (op_of s); try apply Hu. destruct (resets w a); [reflexivity|apply Hu].
Qed.

Lemma reads_e_carry : forall ss ls, Forall2 reads ss ls -> Forall2 e_carried ss ls.
Proof. intros ss ls H. induction H; constructor; [apply reads_carried; assumption|assumption]. Qed.

Lemma tr_e_carry : forall ss ls, Forall2 reads ss ls -> forall st, Forall2 e_carried ss (answers tr_opcode st ls).
Proof.
  intros ss ls H. induction H as [|s l ss ls Hr _ IH]; intros st; cbn [answers]; constructor.
  - apply tr_e_carried. exact Hr.
  - apply IH.
Qed.

Lemma tr_h_carry : forall ss ls, Forall2 reads ss ls -> Forall (fun s => op_of s <> Relative) ss -> forall st u,
  (tr_absolute st = Some true \/ (tr_absolute st = None /\ declared ss = true)) ->
  (forall a, u a = amount (still st a)) -> h_carry u ss (answers tr_opcode st ls).
Proof.
  intros ss ls H. induction H as [|s l ss ls Hr _ IH]; intros Hrel st u Hm Hu; cbn [answers h_carry]; [exact I|].
  inversion Hrel as [|? ? R1 R2]; subst. split.
  - apply (h_carried_ext (fun a => amount (still st a))); [intros a; now rewrite Hu|].
    apply tr_h_carried; [exact Hr|]. cbn [declared] in Hm.
    destruct (op_of s); try exact I. destruct Hm as [Hm|[_ Hm]]; [exact Hm|discriminate Hm].
  - change (fst (tr_opcode st l)) with (tr_next st l).
    assert (Hcase : (match op_of s with Move _ _ _ | SetPosition _ _ => False | _ => True end) ->
      h_carry (u_next u (op_of s)) ss (answers tr_opcode (tr_next st l) ls)).
    { intros Ho. destruct (tr_other E s l st Hr Ho) as (_ & T2 & T3). apply (IH R2).
      - rewrite T3. cbn [declared] in Hm. destruct (op_of s); auto; try contradiction.
      - intros a. rewrite T2. unfold u_next. destruct (op_of s); try apply Hu. destruct Ho. }
    destruct (op_of s) as [w e f|w|w e| | | | | | |n|] eqn:Eop; try (apply Hcase; exact I).
    + cbn [declared] in Hm. rewrite Eop in Hm. destruct Hm as [Hm|[_ Hm]]; [|discriminate Hm].
      destruct (tr_move E s l st w e f Hr Eop Hm) as (-> & _). apply (IH R2); [now left|exact Hu].
    + cbn [declared] in Hm. rewrite Eop in Hm.
      destruct (tr_set E s l st w e Hr Eop) as (T1 & T2 & _). apply (IH R2).
      * rewrite T1. exact Hm.
      * intros a. rewrite T2. cbn [u_next]. destruct (resets w a); [reflexivity|apply Hu].
Qed.

(** *** the head *)

(** *** the extruder *)

Lemma translate_drift : forall home data x y (g g' : gcode A) h, load_gen false home data = Ok g ->
  translate x y g = Ok g' -> Forall settled (program_text data) ->
  forall i, Rabs (extruder (run (firstn i (write g')) (start h)) -
                  extruder (run (firstn i (program_text data)) (start h)))
              <= INR (e_count (firstn i (program_text data))) * / 200000.
Proof.
  intros home data x y g g' h H H' Hs i. destruct (translate_pure x y g g' H') as (Ha & _).
  unfold write. change (List.concat (map ly_lines (g_layers g'))) with (all_lines g'). rewrite Ha.
  pose proof (load_reads E _ _ _ H (settled_metric _ Hs)) as Hr.
  apply (e_run_plain _ fifth_pos _ _ (start h) (start h) 0 (e_chain_plain _ _ (tr_e_carry _ _ Hr (tr_init x y))) Hs); try reflexivity;
    cbn; match goal with |- Rabs ?t <= _ => replace t with 0 by lra end; rewrite Rabs_R0; lra.
Qed.

Lemma mod_moves : forall (o : mod_options (A:=A)) data out, gcode_mod o data = Ok out ->
  declared (program_text data) = true -> (forall a, t_run a Homed (program_text data) <> None) ->
  (o_e o = true -> m_ready (program_text data) = true) ->
  exists out0 n, with_pauses n out0 out /\ (o_p o = None -> n = 0%nat) /\
    List.length out0 = List.length (program_text data) /\
    forall i,
      (forall a, exists p, t_run a Homed (firstn i (program_text data)) = Some p /\
        Rabs (head (run (firstn i out0) (start (fun _ => 0))) a -
              (head (run (firstn i (program_text data)) (start (fun _ => 0))) a +
               (if moved p then shift_amount (o_x o) (o_y o) a else 0))) <= / 1000) /\
      Rabs (extruder (run (firstn i out0) (start (fun _ => 0))) -
            extruder (run (firstn i (program_text data)) (start (fun _ => 0))))
        <= INR (e_count (firstn i (program_text data))) * / 200000.
Proof.
  intros o data out H Hd Hq Hm. apply mod_stages in H as (g0 & g1 & g2 & g3 & H0 & H1 & H2 & HK & H3 & ->).
  set (text := program_text data) in *.
  pose proof (t_run_settled _ _ (Hq X)) as Hset. pose proof (settled_metric _ Hset) as Hmet.
  pose proof (load_reads E _ _ _ H0 Hmet) as Hr.
  (* the lines after the translation *)
  assert (T : exists u, u Z = 0 /\ (forall a, u a = shift_amount (o_x o) (o_y o) a) /\
    Forall2 e_carried text (all_lines g1) /\ h_carry u text (all_lines g1)).
  { destruct (is_some (o_x o) || is_some (o_y o)) eqn:Exy.
    - destruct (translate_pure _ _ _ _ H1) as (Ha & _). rewrite Ha.
      exists (fun a => amount (still (tr_init (o_x o) (o_y o)) a)). split; [reflexivity|]. split.
      + rewrite tr_init_of. intros []; cbn [still tr_x tr_y SpecFilter.amount SpecFilter.shift_amount];
          [apply (shift_of_val E)|apply (shift_of_val E)|reflexivity].
      + split; [apply tr_e_carry; exact Hr|].
        apply tr_h_carry; [exact Hr|apply (t_run_absolute _ _ (Hq X))| |reflexivity].
        right. rewrite tr_init_of. auto.
    - subst g1. exists (fun _ => 0). split; [reflexivity|]. split.
      + destruct (o_x o), (o_y o); try discriminate Exy. intros []; reflexivity.
      + split; [apply reads_e_carry; exact Hr|apply reads_h_carry; [exact Hr|reflexivity]]. }
  destruct T as (u & Hu0 & Hu & Hec & Hhc).
  (* and after the conversion *)
  assert (C : h_chain u text (write g2) /\
    forall i, Rabs (extruder (run (firstn i (write g2)) (start (fun _ => 0))) -
                    extruder (run (firstn i text) (start (fun _ => 0)))) <= INR (e_count (firstn i text)) * / 200000).
  { unfold write. change (List.concat (map ly_lines (g_layers g2))) with (all_lines g2).
    destruct (o_e o).
    - destruct (relative_pure _ _ H2) as (Ha & _). rewrite Ha. split; [apply h_chain_rel; assumption|].
      apply (conv_run _ fifth_pos _ _ (r_of rel_init) Begin (start (fun _ => 0)) (start (fun _ => 0)) 0
               (e_chain_rel _ _ Hec Hset rel_init) Hset).
      + split; [reflexivity|]. split; [reflexivity|]. exists 0. split; [unfold r_of; cbn [rel_init r_relative r_current]; rewrite (val_n0 E); reflexivity|cbn; lra].
      + apply Hm. reflexivity.
      + cbn. match goal with |- Rabs ?t <= _ => replace t with 0 by lra end. rewrite Rabs_R0. lra.
    - subst g2. split; [apply h_chain_plain; assumption|].
      apply (e_run_plain _ fifth_pos _ _ (start (fun _ => 0)) (start (fun _ => 0)) 0 (e_chain_plain _ _ Hec) Hset); try reflexivity;
        cbn; match goal with |- Rabs ?t <= _ => replace t with 0 by lra end; rewrite Rabs_R0; lra. }
  destruct C as [Ch Ce].
  pose proof (mod_pauses o data g0 g1 g2 g3 H0 H1 H2 H3) as W.
  destruct W as (n & W1 & W2).
  exists (write g2), n. split; [exact W1|]. split; [exact W2|]. split; [apply (h_chain_length _ _ _ _ Ch)|].
  intros i. split; [|apply Ce].
  replace (/ 1000) with (2 * / 2000) by lra.
  apply (h_run _ third_pos (shift_amount (o_x o) (o_y o)) eq_refl text (write g2) u (fun _ => Homed) _ _ Hu0 Ch); [|exact Hq].
  repeat (split; [first [reflexivity|intros b; reflexivity]|]).
  intros b. cbn [start head origin axis_at]. auto.
Qed.

End Mod.

(** relative moves shorter than half a thousandth are lost *)
Lemma rel_small_refuted :
  exists g g' : gcode B64,
    load_gen false home0 ["G91"; "M82"; "G1 X0.0004 E1"; "G1 X0.0004 E2"; "G1 X0.0004 E3"]%string = Ok g /\
    to_relative_extrusion g = Ok g' /\
    write g' = ["G91"; "M83"; "G1 X0.000 E1.00000"; "G1 X0.000 E1.00000"; "G1 X0.000 E1.00000"]%string /\
    head (run ["G91"; "M82"; "G1 X0.0004 E1"; "G1 X0.0004 E2"; "G1 X0.0004 E3"]%string (start (fun _ => 0))) X = 12 / 10000 /\
    head (run ["G91"; "M83"; "G1 X0.000 E1.00000"; "G1 X0.000 E1.00000"; "G1 X0.000 E1.00000"]%string
              (start (fun _ => 0))) X = 0.
Proof.
  eexists _, _. split; [apply loadF_ok; vm_compute; reflexivity|].
  split; [apply relF_ok; vm_compute; reflexivity|]. split; [vm_compute; reflexivity|].
  split; run_machine.
Qed.

(** a translated program no longer resets the extruder at a bare G92 *)
Lemma tr_bare_refuted :
  exists g g' : gcode B64,
    load_gen false home0 ["G90"; "G1 E5"; "G92"; "G1 E5"]%string = Ok g /\
    translate (some_num 10) None g = Ok g' /\
    write g' = ["G90"; "G1 E5"; "G92 X-10.000 Y-0.000"; "G1 E5"]%string /\
    extruder (run ["G90"; "G1 E5"; "G92"; "G1 E5"]%string (start (fun _ => 0))) = 10 /\
    extruder (run ["G90"; "G1 E5"; "G92 X-10.000 Y-0.000"; "G1 E5"]%string (start (fun _ => 0))) = 5.
Proof.
  eexists _, _. split; [apply loadF_ok; vm_compute; reflexivity|].
  split; [apply trF_ok; vm_compute; reflexivity|]. split; [vm_compute; reflexivity|].
  split; run_machine.
Qed.

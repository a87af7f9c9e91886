(** * P_FloatMod: conversion, translation and gcode_mod with doubles (C33, C105, C106) *)
From Coq Require Import List Ascii String ZArith NArith Bool Lia Reals Lra.
From Flocq Require Import Core.
From Verif Require Import PyBase Arith ArithR ArithB64 Gcoder Filters Visit.
From Verif Require Import SpecText SpecLoad SpecMachine SpecEqual SpecFilter SpecVisit SpecMod SpecBinary64.
From Verif Require Import P_Load P_Text P_Report P_Wf P_Machine P_Format P_Filter P_FilterMotion P_Visit.
From Verif Require Import P_Float P_FloatText P_FloatMotion P_ModRun P_Mod.
Import ListNotations.
Local Open Scope list_scope.
Local Open Scope R_scope.

(** what the arithmetic and the rounding of a line may do to its numbers *)
Definition d3 : R := / 2000 + loss.
Definition d5 : R := / 200000 + / 10 ^ 9.
Lemma d3_pos : 0 <= d3. Proof. unfold d3, loss. lra. Qed.
Lemma d5_pos : 0 <= d5. Proof. unfold d5. cbn [pow]. lra. Qed.
Lemma d5_loss : / 200000 + loss <= d5. Proof. unfold d5, loss. cbn [pow]. lra. Qed.

Notation head_op := (head_op d3).
Notation h_op := (h_op d3).
Notation h_chain := (h_chain d3).
Notation set_near := (set_near d3).
Notation e_op := (e_op d5).
Notation e_chain := (e_chain d5).
Local Notation near := P_FilterMotion.near.

Lemma near_more : forall d e (o p : option R), d <= e -> near d o p -> near e o p.
Proof. intros d e [x|] [y|] H N; cbn in *; auto. lra. Qed.

Lemma held_shown3 : forall o (x : option (num B64)), held o x -> near d3 (option_map (shown 3) x) o.
Proof. intros [v|] [x|] H; cbn in *; try contradiction; [|exact I]. apply shown3_holds. exact H. Qed.

(** ** The head during a conversion (C105) *)

Lemma frel_head_op : forall s (l : line B64) st u, freads s l -> holds u (r_current st) ->
  head_op (op_of s) (op_of (raw (answer rel_opcode st l))) /\
  exists u', holds u' (r_current (rel_next st l)).
Proof.
  intros s l st u Hr Hu. pose proof (freads_op s l Hr) as Ho. pose proof Hr as (Hraw & _).
  unfold rel_next, answer, rel_opcode. rewrite !cmd_is_command, cmd_in_motion.
  destruct (is_command "M83" l) eqn:H83; [split; [left; cbn [snd]; now rewrite Hraw|exists u; exact Hu]|].
  destruct (is_command "M82" l) eqn:H82.
  { split; [|exists u; exact Hu]. right. left. cbn [snd]. split; [|reflexivity].
    destruct (op_of s) eqn:Eop; try reflexivity; exfalso;
      try (destruct Ho as (_ & _ & K & _); congruence).
    - destruct Ho as (Hm & _). rewrite (is_command_motion _ _ H82) in Hm. discriminate Hm.
    - destruct Ho as (_ & K & _). rewrite (is_command_eq _ "G92" _ H82) in K. discriminate K.
    - rewrite (is_command_eq _ "G90" _ H82) in Ho. discriminate Ho.
    - rewrite (is_command_eq _ "G91" _ H82) in Ho. discriminate Ho.
    - congruence. }
  destruct (is_command "G92" l) eqn:H92.
  { cbn [fst snd]. split; [left; destruct (l_e l); [|destruct (no_xyz l)]; cbn; now rewrite Hraw|].
    destruct (l_e l) as [x|] eqn:Ele; cbn [fst r_current].
    - destruct (op_of s) as [w e f|w|w e| | | | | | |n|] eqn:Eop;
        try discriminate Ho; try (destruct Ho as (_ & K & _); congruence);
        try (rewrite (is_command_eq _ _ _ H92) in Ho; discriminate Ho).
      + destruct Ho as (Hm & _). rewrite (is_command_motion _ _ H92) in Hm. discriminate Hm.
      + destruct Ho as (_ & _ & _ & _ & _ & He & _). destruct e as [v|]; [|destruct He].
        exists v. exact He.
    - destruct (no_xyz l); cbn [fst r_current]; [exists 0; apply holds_0; reflexivity|exists u; exact Hu]. }
  destruct (is_motion l) eqn:Hm; cbn [andb]; [|split; [left; cbn [snd]; now rewrite Hraw|exists u; exact Hu]].
  destruct (r_relative st); cbn [negb]; [split; [left; cbn [snd]; now rewrite Hraw|exists u; exact Hu]|].
  destruct (l_e l) as [x|] eqn:Ele; [|split; [left; cbn [snd]; now rewrite Hraw|exists u; exact Hu]].
  destruct (op_of s) as [w e f|w|w e| | | | | | |n|] eqn:Eop;
    try discriminate Ho; try (destruct Ho as (K & _); discriminate K);
    try (rewrite (is_command_motion _ _ Ho) in Hm; discriminate Hm).
  destruct Ho as (_ & Hx & Hy & Hz & He & Hf & Hfin & c & Hc & Hgc & Hmc).
  destruct e as [v|]; [|destruct He]. cbn [held] in He.
  destruct (shown_sub v u x (r_current st) He Hu) as [Fs _].
  cbn [fst snd unsplit mark_relative_e set_notes raw set_raw largs command set_arg set_args r_current]. rewrite Hc.
  split; [|exists v; exact He]. right. right.
  set (a' := put_arg LE (Some (n_sub (a:=B64) x (r_current st))) (largs l)).
  assert (Ha : all_fin a').
  { intros k y Hy'. destruct (letter_eq_dec k LE) as [->|NE].
    - cbn in Hy'. injection Hy' as <-. exact Fs.
    - apply (Hfin k y). destruct k; try congruence; exact Hy'. }
  destruct (op_move_B64 c a' Hgc Ha Hmc) as (w' & e' & f' & Ho' & Hw' & _).
  exists w, (Some v), f, w', e', f'. split; [reflexivity|]. split; [exact Ho'|].
  intros a. rewrite Hw'. destruct a; cbn [a' put_arg a_x a_y a_z]; apply held_shown3; assumption.
Qed.

Lemma frel_head_ops : forall ss (ls : list (line B64)), Forall2 freads ss ls -> forall st u, holds u (r_current st) ->
  Forall2 (fun s s' => head_op (op_of s) (op_of s')) ss (map raw (answers rel_opcode st ls)).
Proof.
  intros ss ls H. induction H as [|s l ss ls Hr _ IH]; intros st u Hu; cbn [answers map]; constructor.
  - apply (frel_head_op s l st u Hr Hu).
  - destruct (frel_head_op s l st u Hr Hu) as (_ & u' & Hu'). apply (IH _ _ Hu').
Qed.

Lemma rel_init_holds : holds 0 (r_current (rel_init (A:=B64))).
Proof. apply holds_0. reflexivity. Qed.

Lemma relative_head_B64 : forall home data (g g' : gcode B64) h, load_gen false home data = Ok g ->
  to_relative_extrusion g = Ok g' -> metric (program_text data) -> Forall modest (program_text data) ->
  forall i a, Rabs (head (run (firstn i (write g')) (start h)) a -
                    head (run (firstn i (program_text data)) (start h)) a)
              <= INR (drive_count a (firstn i (program_text data))) * (/ 2000 + / 10 ^ 9).
Proof.
  intros home data g g' h H H' Hm Hmo i a. destruct (relative_pure g g' H') as (Ha & _).
  unfold write. change (List.concat (map ly_lines (g_layers g'))) with (all_lines g'). rewrite Ha.
  pose proof (frel_head_ops _ _ (load_freads _ _ _ H Hm Hmo) rel_init 0 rel_init_holds) as Hops.
  destruct (head_run d3 d3_pos _ _ Hops Hm (fun _ => 0%nat) (start h) (start h)) with (i := i) as (_ & _ & _ & _ & Hb).
  - repeat split; cbn [start head origin];
      match goal with |- Rabs ?t <= _ => replace t with 0 by lra end; rewrite Rabs_R0; cbn; lra.
  - destruct (Hb a) as [Hb1 _]. eapply Rle_trans; [exact Hb1|]. apply Rmult_le_compat_l; [apply pos_INR|].
    unfold d3, loss. cbn [pow]. lra.
Qed.

Lemma relative_head_fixed_B64 : forall home data (g g' : gcode B64) h a, load_gen false home data = Ok g ->
  to_relative_extrusion g = Ok g' -> metric (program_text data) -> Forall modest (program_text data) ->
  fixed_axis a (program_text data) ->
  forall i, Rabs (head (run (firstn i (write g')) (start h)) a -
                  head (run (firstn i (program_text data)) (start h)) a) <= / 2000 + / 10 ^ 9.
Proof.
  intros home data g g' h a H H' Hm Hmo Hf i. destruct (relative_pure g g' H') as (Ha & _).
  unfold write. change (List.concat (map ly_lines (g_layers g'))) with (all_lines g'). rewrite Ha.
  pose proof (frel_head_ops _ _ (load_freads _ _ _ H Hm Hmo) rel_init 0 rel_init_holds) as Hops.
  eapply Rle_trans; [apply (fixed_run d3 d3_pos a _ _ Hops Hm Hf); try reflexivity|unfold d3, loss; cbn [pow]; lra].
  replace (head (start h) a - head (start h) a) with 0 by lra. rewrite Rabs_R0. apply d3_pos.
Qed.

(** ** Line by line: translation, then conversion *)

Definition fe_carried (s : string) (l : line B64) : Prop :=
  match op_of s with
  | Move _ e _ => is_motion l = true /\
      (exists c, command l = Some c /\ g_command c /\ str_mem c ["G0"; "G1"; "G2"; "G3"]%string = true) /\
      all_fin (largs l) /\ held e (l_e l) /\
      exists w' e' f', op_of (raw l) = Move w' e' f' /\ near d5 e' e
  | SetPosition w e => is_motion l = false /\ is_command "G92" l = true /\ held e (l_e l) /\
      (bare w e = false -> l_e l = None -> no_xyz l = false) /\
      exists w' e', op_of (raw l) = SetPosition w' e' /\ near d5 e' e /\
        (bare w e = false -> bare w' e' = false)
  | _ => freads s l
  end.
Definition fh_carried (u : axis -> R) (s : string) (l : line B64) : Prop :=
  match op_of s with
  | Move w _ _ =>
      (forall a, got (option_map (fun v => v + u a) (w a)) (get_arg (axis_arg a) (largs l))) /\
      forall w' e' f', op_of (raw l) = Move w' e' f' ->
        forall a, near d3 (w' a) (option_map (fun v => v + u a) (w a))
  | SetPosition w _ => forall w' e', op_of (raw l) = SetPosition w' e' -> forall a, set_near (u a) w w' a
  | _ => True
  end.

Lemma held_got : forall o (x : option (num B64)), held o x -> got o x.
Proof. intros [v|] [x|] H; cbn in *; auto. apply holds_loss. exact H. Qed.

Lemma freads_carried : forall s l, freads s l -> fe_carried s l /\ fh_carried (fun _ => 0) s l.
Proof.
  intros s l Hr. pose proof (freads_op s l Hr) as Ho. pose proof Hr as (Hraw & _). pose proof d3_pos. pose proof d5_pos.
  unfold fe_carried, fh_carried. rewrite Hraw. destruct (op_of s) as [w e f|w|w e| | | | | | |n|] eqn:Eop; auto.
  - destruct Ho as (Hm & Hx & Hy & Hz & He & Hf & Hfin & c & Hc & Hgc & Hmc). split.
    + split; [exact Hm|]. split; [exists c; auto|]. split; [exact Hfin|]. split; [exact He|].
      exists w, e, f. split; [reflexivity|]. apply near_self. assumption.
    + assert (Hid : forall a, option_map (fun v => v + 0) (w a) = w a).
      { intros a. destruct (w a); cbn; [f_equal; lra|reflexivity]. }
      split.
      * intros a. rewrite Hid. apply held_got. destruct a; assumption.
      * intros w' e' f' K a. injection K as <- <- <-. rewrite Hid. apply near_self. assumption.
  - destruct Ho as (Hm & H92 & Hx & Hy & Hz & He & Hfin). split.
    + split; [exact Hm|]. split; [exact H92|]. split; [exact He|]. split.
      * intros Hb Hle. pose proof (no_xyz_fbare l w e Hx Hy Hz He) as Hn. rewrite Hle in Hn. congruence.
      * exists w, e. split; [reflexivity|]. split; [apply near_self; assumption|auto].
    + intros w' e' K a. injection K as <- <-. unfold P_ModRun.set_near, resets, named. destruct (w a) as [v|].
      * split; [reflexivity|]. replace (v - (v - 0)) with 0 by lra. rewrite Rabs_R0. assumption.
      * split; reflexivity.
Qed.

(** the numbers of a translated move *)
Lemma ftr_move_args : forall s (l : line B64) st w e f, freads s l -> op_of s = Move w e f ->
  modest_shift (tr_x st) -> modest_shift (tr_y st) -> tr_absolute st = Some true ->
  let l' := answer tr_opcode st l in
  command l' = command l /\ l_e l' = l_e l /\ all_fin (largs l') /\
  forall a, got (option_map (fun v => v + famount (fstill st a)) (w a)) (get_arg (axis_arg a) (largs l')).
Proof.
  intros s l st w e f Hr Ho Mx My Ht l'. subst l'. pose proof (freads_op s l Hr) as Hk. rewrite Ho in Hk.
  destruct Hk as (Hm & Hx & Hy & Hz & He & Hf & Hfin & c & Hc & Hgc & Hmc).
  unfold answer, tr_opcode. rewrite cmd_in_motion, Hm, Ht. cbn [fst snd].
  destruct (shift_two (tr_x st) (tr_y st) l) as (S1 & S2 & S3 & S4 & S5 & S6 & S7). cbv zeta in *.
  set (l' := shift_word LY (tr_y st) (shift_word LX (tr_x st) l)) in *.
  split; [exact S1|]. split; [apply (S6 LE); discriminate|].
  assert (Hg : forall t o (x : option (num B64)), modest_shift t -> held o x ->
    got (option_map (fun v => v + famount t) o) (option_map (shifted t) x)).
  { intros t [v|] [x|] Mt Hh; cbn in *; try contradiction; [|exact I]. apply shifted_fval; assumption. }
  assert (Hgx : got (option_map (fun v => v + famount (tr_x st)) (w X)) (get_arg LX (largs l'))).
  { change (get_arg LX (largs l')) with (l_x l'). rewrite S4. apply Hg; assumption. }
  assert (Hgy : got (option_map (fun v => v + famount (tr_y st)) (w Y)) (get_arg LY (largs l'))).
  { change (get_arg LY (largs l')) with (l_y l'). rewrite S5. apply Hg; assumption. }
  split.
  - intros k y Hk. destruct (letter_eq_dec k LX) as [->|NX].
    { rewrite Hk in Hgx. destruct (w X); [apply Hgx|destruct Hgx]. }
    destruct (letter_eq_dec k LY) as [->|NY].
    { rewrite Hk in Hgy. destruct (w Y); [apply Hgy|destruct Hgy]. }
    rewrite (S6 k NX NY) in Hk. apply (Hfin k y Hk).
  - intros []; cbn [axis_arg fstill]; [exact Hgx|exact Hgy|].
    rewrite (S6 LZ) by discriminate. change (get_arg LZ (largs l)) with (l_z l).
    replace (option_map (fun v => v + famount None) (w Z)) with (w Z); [apply held_got; exact Hz|].
    destruct (w Z); cbn; [f_equal; lra|reflexivity].
Qed.

Lemma ftr_set_line : forall s (l : line B64) st w e, freads s l -> op_of s = SetPosition w e ->
  let l' := answer tr_opcode st l in
  command l' = command l /\ l_e l' = l_e l /\ no_xyz l' = false.
Proof.
  intros s l st w e Hr Ho l'. subst l'. pose proof (freads_op s l Hr) as Hk. rewrite Ho in Hk.
  destruct Hk as (Hm & H92 & _).
  unfold answer, tr_opcode. rewrite !cmd_is_command, cmd_in_motion, Hm, H92.
  rewrite (is_command_eq _ "G90" _ H92), (is_command_eq _ "G91" _ H92).
  change (String.eqb "G92" "G90") with false. change (String.eqb "G92" "G91") with false. cbv iota.
  unfold no_xyz, shift_opp, shift_sub.
  change (l_x l) with (a_x (largs l)). change (l_y l) with (a_y (largs l)). change (l_z l) with (a_z (largs l)).
  destruct l as [rw cm mv [ax ay az ae af ai aj] nt]. cbn [largs a_x a_y a_z].
  destruct ax, ay, az; cbn; repeat split.
Qed.

Lemma ftr_e_carried : forall s l st, freads s l -> modest_shift (tr_x st) -> modest_shift (tr_y st) ->
  fe_carried s (answer tr_opcode st l).
Proof.
  intros s l st Hr Mx My. pose proof (freads_op s l Hr) as Hk. pose proof (freads_carried s l Hr) as [He0 _].
  assert (Hsame : answer tr_opcode st l = l -> fe_carried s (answer tr_opcode st l)) by (intros ->; exact He0).
  unfold fe_carried in *. destruct (op_of s) as [w e f|w|w e| | | | | | |n|] eqn:Eop.
  - destruct (tr_absolute st) as [[|]|] eqn:Ht.
    + destruct (ftr_move_args s l st w e f Hr Eop Mx My Ht) as (C1 & C2 & C3 & _).
      destruct (ftr_move s l st w e f Hr Eop Mx My Ht) as (_ & w' & e' & f' & Ho' & _ & Hee).
      destruct He0 as (Hm & Hc & _ & He & _).
      split; [rewrite (is_motion_command _ _ C1); exact Hm|]. split; [rewrite C1; exact Hc|]. split; [exact C3|].
      split; [rewrite C2; exact He|]. exists w', e', f'. split; [exact Ho'|]. apply (near_more _ _ _ _ d5_loss Hee).
    + apply Hsame. destruct Hk as (Hm & _). unfold answer, tr_opcode. rewrite cmd_in_motion, Hm, Ht. reflexivity.
    + apply Hsame. destruct Hk as (Hm & _). unfold answer, tr_opcode. rewrite cmd_in_motion, Hm, Ht. reflexivity.
  - apply Hsame. destruct Hk as (K1 & K2 & _ & _ & K5 & K6). unfold answer, tr_opcode.
    rewrite !cmd_is_command, cmd_in_motion, K1, K2, K5, K6. reflexivity.
  - destruct (ftr_set_line s l st w e Hr Eop) as (C1 & C2 & C3).
    destruct (ftr_set s l st w e Hr Eop Mx My) as (_ & _ & w' & e' & Ho' & Hee & Hw).
    destruct He0 as (Hm & Hc & He & _).
    split; [rewrite (is_motion_command _ _ C1); exact Hm|]. split; [rewrite (is_command_command _ _ _ C1); exact Hc|].
    split; [rewrite C2; exact He|]. split; [intros _ _; exact C3|]. exists w', e'. split; [exact Ho'|].
    split; [apply (near_more _ _ _ _ d5_loss Hee)|].
    intros _. unfold bare.
    assert (Hex : exists b, resets w b = true).
    { unfold resets. destruct (named w X) eqn:Nx; [exists X; now rewrite Nx|].
      destruct (named w Y) eqn:Ny; [exists Y; now rewrite Ny|].
      destruct (named w Z) eqn:Nz; [exists Z; now rewrite Nz|]. exists X. rewrite Nx. reflexivity. }
    destruct Hex as [b Hb1]. specialize (Hw b). rewrite Hb1 in Hw.
    assert (Hn : named w' b = true).
    { unfold named. destruct (w' b); [reflexivity|destruct Hw]. }
    destruct b; rewrite Hn; cbn; rewrite ?orb_true_r; reflexivity.
  - apply Hsame. destruct Hk as (K1 & K2 & _ & _ & K5 & K6). unfold answer, tr_opcode.
    rewrite !cmd_is_command, cmd_in_motion, K1, K2, K5, K6. reflexivity.
  - apply Hsame. destruct Hk as (K1 & K2 & _ & _ & K5 & K6). unfold answer, tr_opcode.
    rewrite !cmd_is_command, cmd_in_motion, K1, K2, K5, K6. reflexivity.
  - apply Hsame. unfold answer, tr_opcode.
    rewrite !cmd_is_command, cmd_in_motion, (is_command_motion _ _ Hk), Hk. reflexivity.
  - apply Hsame. unfold answer, tr_opcode.
    rewrite !cmd_is_command, cmd_in_motion, (is_command_motion _ _ Hk), (is_command_eq _ "G90" _ Hk), Hk. reflexivity.
  - apply Hsame. unfold answer, tr_opcode.
    rewrite !cmd_is_command, cmd_in_motion, (is_command_motion _ _ Hk), (is_command_eq _ "G90" _ Hk),
      (is_command_eq _ "G91" _ Hk), (is_command_eq _ "G92" _ Hk). reflexivity.
  - apply Hsame. unfold answer, tr_opcode.
    rewrite !cmd_is_command, cmd_in_motion, (is_command_motion _ _ Hk), (is_command_eq _ "G90" _ Hk),
      (is_command_eq _ "G91" _ Hk), (is_command_eq _ "G92" _ Hk). reflexivity.
  - apply Hsame. destruct Hk as (K1 & K2 & _ & _ & K5 & K6). unfold answer, tr_opcode.
    rewrite !cmd_is_command, cmd_in_motion, K1, K2, K5, K6. reflexivity.
  - apply Hsame. destruct Hk as (K1 & K2 & _ & _ & K5 & K6). unfold answer, tr_opcode.
    rewrite !cmd_is_command, cmd_in_motion, K1, K2, K5, K6. reflexivity.
Qed.

Lemma ftr_h_carried : forall s l st, freads s l -> modest_shift (tr_x st) -> modest_shift (tr_y st) ->
  match op_of s with Move _ _ _ => tr_absolute st = Some true | _ => True end ->
  fh_carried (fun a => famount (fstill st a)) s (answer tr_opcode st l).
Proof.
  intros s l st Hr Mx My Hm. unfold fh_carried. destruct (op_of s) as [w e f|w|w e| | | | | | |n|] eqn:Eop; try exact I.
  - destruct (ftr_move_args s l st w e f Hr Eop Mx My Hm) as (_ & _ & _ & C3). split; [exact C3|].
    destruct (ftr_move s l st w e f Hr Eop Mx My Hm) as (_ & w1 & e1 & f1 & Ho' & Hw & _).
    intros w' e' f' H. rewrite Ho' in H. injection H as <- <- <-. exact Hw.
  - destruct (ftr_set s l st w e Hr Eop Mx My) as (_ & _ & w1 & e1 & Ho' & _ & Hw).
    intros w' e' H a. rewrite Ho' in H. injection H as <- <-. specialize (Hw a). unfold P_ModRun.set_near.
    destruct (resets w a) eqn:Er; destruct (w1 a) as [v'|]; cbn [P_FilterMotion.near] in Hw; try contradiction.
    + auto.
    + split; [|discriminate]. unfold resets, named in Er. destruct (w a); [discriminate Er|reflexivity].
Qed.

(** no conversion *)
Lemma fcarried_e : forall s l, fe_carried s l -> e_op None (op_of s) (op_of (raw l)).
Proof.
  intros s l H. unfold fe_carried, P_ModRun.e_op in *. destruct (op_of s) eqn:Eop;
    try (destruct H as (Hraw & _); rewrite Hraw; exact Eop).
  - destruct H as (_ & _ & _ & _ & H). exact H.
  - destruct H as (_ & _ & _ & _ & H). exact H.
Qed.
Lemma fcarried_h : forall u s l, fe_carried s l -> fh_carried u s l -> h_op u (op_of s) (op_of (raw l)).
Proof.
  intros u s l H Hh. unfold fe_carried, fh_carried, P_ModRun.h_op in *. destruct (op_of s) eqn:Eop;
    try (destruct H as (Hraw & _); rewrite Hraw; first [exact Eop|left; exact Eop]).
  - destruct H as (_ & _ & _ & _ & w' & e' & f' & H & _). destruct Hh as [_ Hh]. exists w', e', f'. eauto.
  - destruct H as (_ & _ & _ & _ & w' & e' & H & _ & Hb). exists w', e'. eauto.
Qed.

(** conversion of a line that may have been translated *)
Definition at_ (st : rstate (A:=B64)) (r : option (bool * R)) : Prop :=
  match r with Some (b, c) => r_relative st = b /\ holds c (r_current st) | None => False end.

Lemma frel_carried : forall s l st r u, fe_carried s l -> settled s -> at_ st r ->
  e_op r (op_of s) (op_of (raw (answer rel_opcode st l))) /\
  at_ (rel_next st l) (r_next r (op_of s)) /\
  (fh_carried u s l -> h_op u (op_of s) (op_of (raw (answer rel_opcode st l)))).
Proof.
  intros s l st r u H Hset Hat. destruct r as [[b c0]|]; [|destruct Hat]. destruct Hat as [Hb0 Hc0].
  unfold fe_carried, settled in *.
  assert (Hother : match op_of s with Move _ _ _ | SetPosition _ _ | AbsoluteE | RelativeE => False
    | _ => True end -> freads s l ->
    answer rel_opcode st l = l /\ rel_next st l = st).
  { intros k Hr. pose proof (freads_op s l Hr) as Ho.
    unfold rel_next, answer, rel_opcode. rewrite !cmd_is_command, cmd_in_motion.
    destruct (op_of s); try contradiction;
      try (destruct Ho as (K1 & K2 & K3 & K4 & _); rewrite K4, K3, K2, K1; split; reflexivity);
      rewrite (is_command_eq _ "M83" _ Ho), (is_command_eq _ "M82" _ Ho), (is_command_eq _ "G92" _ Ho),
        (is_command_motion _ _ Ho); split; reflexivity. }
  destruct (op_of s) as [w e f|w|w e| | | | | | |n|] eqn:Eop;
    try (destruct (Hother I H) as [-> ->]; destruct H as (Hraw & _); rewrite Hraw, Eop;
         split; [reflexivity|]; split; [split; assumption|]; intros _; reflexivity).
  - (* move *)
    destruct H as (Hm & (c & Hc & Hgc & Hmc) & Hfin & He & w1 & e1 & f1 & Ho1 & He1).
    unfold rel_next, answer, rel_opcode. rewrite !cmd_is_command, cmd_in_motion.
    rewrite (move_not_command "M83" l Hm eq_refl), (move_not_command "M82" l Hm eq_refl),
      (move_not_command "G92" l Hm eq_refl), Hm. cbn [andb].
    assert (Hh : fh_carried u s l -> exists w' e' f', op_of (raw l) = Move w' e' f' /\
      forall a, near d3 (w' a) (option_map (fun v => v + u a) (w a))).
    { unfold fh_carried. rewrite Eop. intros [_ Hh]. exists w1, e1, f1. split; [exact Ho1|]. exact (Hh _ _ _ Ho1). }
    destruct b; rewrite Hb0; cbn [negb].
    + cbn [fst snd P_ModRun.e_op P_ModRun.h_op r_next]. rewrite Ho1.
      split; [exists w1, e1, f1; auto|]. split; [destruct e; split; assumption|]. rewrite <- Ho1. exact Hh.
    + destruct (l_e l) as [x|] eqn:Ele; destruct e as [v|]; cbn [held] in He; try contradiction.
      * destruct (shown_sub v c0 x (r_current st) He Hc0) as [Fs Ns].
        cbn [fst snd unsplit mark_relative_e set_notes raw set_raw largs command set_arg set_args]. rewrite Hc.
        set (a' := put_arg LE (Some (n_sub (a:=B64) x (r_current st))) (largs l)).
        assert (Ha : all_fin a').
        { intros k y Hy'. destruct (letter_eq_dec k LE) as [->|NE].
          - cbn in Hy'. injection Hy' as <-. exact Fs.
          - apply (Hfin k y). destruct k; try congruence; exact Hy'. }
        destruct (op_move_B64 c a' Hgc Ha Hmc) as (w' & e' & f' & Ho' & Hw' & He' & _).
        rewrite Ho'. cbn [a' put_arg a_e option_map] in He'. subst e'.
        split.
        { eexists w', _, f'. split; [reflexivity|]. cbn [option_map P_FilterMotion.near].
          eapply Rle_trans; [exact Ns|]. unfold d5. cbn [pow]. lra. }
        split; [split; [first [exact Hb0|reflexivity]|exact He]|].
        unfold fh_carried. rewrite Eop. intros [Hh2 _]. eexists w', _, f'.
        split; [reflexivity|]. intros a. rewrite Hw'. specialize (Hh2 a).
        destruct a; cbn [a' put_arg a_x a_y a_z axis_arg get_arg] in *; apply got_shown; exact Hh2.
      * cbn [fst snd P_ModRun.e_op P_ModRun.h_op r_next option_map]. rewrite Ho1.
        split; [exists w1, e1, f1; auto|]. split; [split; assumption|]. rewrite <- Ho1. exact Hh.
  - (* set position *)
    destruct H as (Hm & H92 & He & Hnb & w1 & e1 & Ho1 & He1 & Hb1).
    unfold rel_next, answer, rel_opcode. rewrite !cmd_is_command, cmd_in_motion.
    rewrite (is_command_eq _ "M83" _ H92), (is_command_eq _ "M82" _ H92), H92.
    change (String.eqb "G92" "M83") with false. change (String.eqb "G92" "M82") with false. cbn [fst snd].
    split; [cbn [P_ModRun.e_op]; rewrite Ho1; exists w1, e1; auto|]. split.
    { destruct (l_e l) as [x|] eqn:Ele; destruct e as [v|]; cbn [held] in He; try contradiction.
      - split; [first [exact Hb0|reflexivity]|exact He].
      - rewrite (Hnb Hset eq_refl). split; assumption. }
    unfold fh_carried. rewrite Eop. intros Hh. cbn [P_ModRun.h_op]. rewrite Ho1. exists w1, e1. split; [reflexivity|]. split; [exact Hb1|].
    exact (Hh _ _ Ho1).
  - pose proof (freads_op s l H) as Ho. rewrite Eop in Ho.
    unfold rel_next, answer, rel_opcode. rewrite !cmd_is_command.
    rewrite (is_command_eq _ "M83" _ Ho), Ho. change (String.eqb "M82" "M83") with false. cbn [fst snd].
    change (op_of (raw (raw_to_line (A:=B64) "M83"))) with RelativeE.
    split; [reflexivity|]. split; [split; [reflexivity|exact Hc0]|]. intros _. right. reflexivity.
  - pose proof (freads_op s l H) as Ho. rewrite Eop in Ho.
    unfold rel_next, answer, rel_opcode. rewrite !cmd_is_command, Ho. cbn [fst snd].
    destruct H as (Hraw & _). rewrite Hraw, Eop.
    split; [reflexivity|]. split; [split; [reflexivity|exact Hc0]|]. intros _. reflexivity.
Qed.

(** ** Whole programs *)

Fixpoint fh_carry (u : axis -> R) (ss : list string) (ls : list (line B64)) : Prop :=
  match ss, ls with
  | [], [] => True
  | s :: t, l :: ls => fh_carried u s l /\ fh_carry (u_next u (op_of s)) t ls
  | _, _ => False
  end.

Lemma fe_chain_plain : forall ss ls, Forall2 fe_carried ss ls -> e_chain None ss (map raw ls).
Proof.
  intros ss ls H. induction H as [|s l ss ls Hs _ IH]; cbn [map P_ModRun.e_chain]; [exact I|]. split; [apply fcarried_e; exact Hs|].
  exact IH.
Qed.

Lemma fe_chain_rel : forall ss ls, Forall2 fe_carried ss ls -> Forall settled ss -> forall st r, at_ st r ->
  e_chain r ss (map raw (answers rel_opcode st ls)).
Proof.
  intros ss ls H. induction H as [|s l ss ls Hs _ IH]; intros Hset st r Hat; cbn [answers map P_ModRun.e_chain]; [exact I|].
  inversion Hset as [|? ? S1 S2]; subst.
  destruct (frel_carried s l st r (fun _ => 0) Hs S1 Hat) as (H1 & H2 & _). split; [exact H1|]. apply (IH S2 _ _ H2).
Qed.

Lemma fh_chain_plain : forall ss ls, Forall2 fe_carried ss ls -> forall u, fh_carry u ss ls -> h_chain u ss (map raw ls).
Proof.
  intros ss ls H. induction H as [|s l ss ls Hs _ IH]; intros u Hu; cbn [map P_ModRun.h_chain]; [exact I|].
  destruct Hu as [H1 H2]. split; [apply fcarried_h; assumption|]. apply IH. exact H2.
Qed.

Lemma fh_chain_rel : forall ss ls, Forall2 fe_carried ss ls -> Forall settled ss -> forall u st r, at_ st r ->
  fh_carry u ss ls -> h_chain u ss (map raw (answers rel_opcode st ls)).
Proof.
  intros ss ls H. induction H as [|s l ss ls Hs _ IH]; intros Hset u st r Hat Hu; cbn [answers map P_ModRun.h_chain]; [exact I|].
  inversion Hset as [|? ? S1 S2]; subst. destruct Hu as [U1 U2].
  destruct (frel_carried s l st r u Hs S1 Hat) as (_ & H2 & H3). split; [apply H3; exact U1|]. apply (IH S2 _ _ _ H2). exact U2.
Qed.

Lemma fh_carried_ext : forall u v s l, (forall a, u a = v a) -> fh_carried u s l -> fh_carried v s l.
Proof.
  intros u v s l H. unfold fh_carried. destruct (op_of s); auto.
  - intros [H1 H2]. split; intros; rewrite <- H; [apply H1|eapply H2; eauto].
  - intros H1 w' e' Ho a. rewrite <- H. eapply H1; eauto.
Qed.

Lemma freads_h_carry : forall ss ls, Forall2 freads ss ls -> forall u, (forall a, u a = 0) -> fh_carry u ss ls.
Proof.
  intros ss ls H. induction H as [|s l ss ls Hr _ IH]; intros u Hu; cbn [fh_carry]; [exact I|]. split.
  - apply (fh_carried_ext (fun _ => 0)); [intros a; now rewrite Hu|]. apply freads_carried. exact Hr.
  - apply IH. intros a. unfold u_next. destruct (op_of s); try apply Hu. destruct (resets w a); [reflexivity|apply Hu].
Qed.

Lemma freads_e_carry : forall ss ls, Forall2 freads ss ls -> Forall2 fe_carried ss ls.
Proof. intros ss ls H. induction H; constructor; [apply freads_carried; assumption|assumption]. Qed.

Lemma tr_next_modest : forall (st : tstate (A:=B64)) l, modest_shift (tr_x st) -> modest_shift (tr_y st) ->
  modest_shift (tr_x (tr_next st l)) /\ modest_shift (tr_y (tr_next st l)).
Proof.
  intros st l Mx My. destruct (tr_next_fields st l) as (_ & -> & ->). 
  split; [destruct (rebases LX l)|destruct (rebases LY l)]; first [exact I|assumption].
Qed.

Lemma ftr_e_carry : forall ss ls, Forall2 freads ss ls -> forall st, modest_shift (tr_x st) -> modest_shift (tr_y st) ->
  Forall2 fe_carried ss (answers tr_opcode st ls).
Proof.
  intros ss ls H. induction H as [|s l ss ls Hr _ IH]; intros st Mx My; cbn [answers]; constructor.
  - apply ftr_e_carried; assumption.
  - change (fst (tr_opcode st l)) with (tr_next st l). destruct (tr_next_modest st l Mx My). apply IH; assumption.
Qed.

Lemma ftr_h_carry : forall ss ls, Forall2 freads ss ls -> Forall (fun s => op_of s <> Relative) ss -> forall st u,
  modest_shift (tr_x st) -> modest_shift (tr_y st) ->
  (tr_absolute st = Some true \/ (tr_absolute st = None /\ declared ss = true)) ->
  (forall a, u a = famount (fstill st a)) -> fh_carry u ss (answers tr_opcode st ls).
Proof.
  intros ss ls H. induction H as [|s l ss ls Hr _ IH]; intros Hrel st u Mx My Hm Hu; cbn [answers fh_carry]; [exact I|].
  inversion Hrel as [|? ? R1 R2]; subst. split.
  - apply (fh_carried_ext (fun a => famount (fstill st a))); [intros a; now rewrite Hu|].
    apply ftr_h_carried; [exact Hr|exact Mx|exact My|]. cbn [declared] in Hm.
    destruct (op_of s); try exact I. destruct Hm as [Hm|[_ Hm]]; [exact Hm|discriminate Hm].
  - change (fst (tr_opcode st l)) with (tr_next st l). destruct (tr_next_modest st l Mx My) as [Mx' My'].
    assert (Hcase : (match op_of s with Move _ _ _ | SetPosition _ _ => False | _ => True end) ->
      fh_carry (u_next u (op_of s)) ss (answers tr_opcode (tr_next st l) ls)).
    { intros Ho. destruct (ftr_other s l st Hr Ho) as (_ & T2 & T3). apply (IH R2); [exact Mx'|exact My'| |].
      - rewrite T3. cbn [declared] in Hm. destruct (op_of s); auto; try contradiction.
      - intros a. rewrite T2. unfold u_next. destruct (op_of s); try apply Hu. destruct Ho. }
    destruct (op_of s) as [w e f|w|w e| | | | | | |n|] eqn:Eop; try (apply Hcase; exact I).
    + cbn [declared] in Hm. rewrite Eop in Hm. destruct Hm as [Hm|[_ Hm]]; [|discriminate Hm].
      destruct (ftr_move s l st w e f Hr Eop Mx My Hm) as (-> & _). apply (IH R2); [exact Mx|exact My|now left|exact Hu].
    + cbn [declared] in Hm. rewrite Eop in Hm.
      destruct (ftr_set s l st w e Hr Eop Mx My) as (T1 & T2 & _). apply (IH R2); [exact Mx'|exact My'| |].
      * rewrite T1. exact Hm.
      * intros a. rewrite T2. cbn [u_next]. destruct (resets w a); [reflexivity|apply Hu].
Qed.

Lemma tr_init_modest : forall x y, modest_shift x -> modest_shift y ->
  modest_shift (tr_x (tr_init (A:=B64) x y)) /\ modest_shift (tr_y (tr_init x y)).
Proof. intros x y Mx My. rewrite tr_init_of. cbn [tr_x tr_y]. split; apply shift_of_modest; assumption. Qed.

Lemma translate_drift_B64 : forall home data x y (g g' : gcode B64) h, load_gen false home data = Ok g ->
  translate x y g = Ok g' -> Forall settled (program_text data) -> Forall modest (program_text data) ->
  modest_shift x -> modest_shift y ->
  forall i, Rabs (extruder (run (firstn i (write g')) (start h)) -
                  extruder (run (firstn i (program_text data)) (start h)))
              <= INR (e_count (firstn i (program_text data))) * (/ 200000 + / 10 ^ 9).
Proof.
  intros home data x y g g' h H H' Hs Hmo Mx My i. destruct (translate_pure x y g g' H') as (Ha & _).
  unfold write. change (List.concat (map ly_lines (g_layers g'))) with (all_lines g'). rewrite Ha.
  pose proof (load_freads _ _ _ H (settled_metric _ Hs) Hmo) as Hr. destruct (tr_init_modest x y Mx My) as [Ix Iy].
  apply (e_run_plain d5 d5_pos _ _ (start h) (start h) 0 (fe_chain_plain _ _ (ftr_e_carry _ _ Hr (tr_init x y) Ix Iy)) Hs);
    try reflexivity; cbn; match goal with |- Rabs ?t <= _ => replace t with 0 by lra end; rewrite Rabs_R0; lra.
Qed.

Lemma mod_moves_B64 : forall (o : mod_options (A:=B64)) data out, gcode_mod o data = Ok out ->
  declared (program_text data) = true -> (forall a, t_run a Homed (program_text data) <> None) ->
  (o_e o = true -> m_ready (program_text data) = true) ->
  Forall modest (program_text data) -> modest_shift (o_x o) -> modest_shift (o_y o) ->
  exists out0 n, with_pauses n out0 out /\ (o_p o = None -> n = 0%nat) /\
    List.length out0 = List.length (program_text data) /\
    forall i,
      (forall a, exists p, t_run a Homed (firstn i (program_text data)) = Some p /\
        Rabs (head (run (firstn i out0) (start (fun _ => 0))) a -
              (head (run (firstn i (program_text data)) (start (fun _ => 0))) a +
               (if moved p then fshift_amount (o_x o) (o_y o) a else 0))) <= / 1000 + / 10 ^ 9) /\
      Rabs (extruder (run (firstn i out0) (start (fun _ => 0))) -
            extruder (run (firstn i (program_text data)) (start (fun _ => 0))))
        <= INR (e_count (firstn i (program_text data))) * (/ 200000 + / 10 ^ 9).
Proof.
  intros o data out H Hd Hq Hm Hmo Mx My. apply mod_stages in H as (g0 & g1 & g2 & g3 & H0 & H1 & H2 & HK & H3 & ->).
  set (text := program_text data) in *.
  pose proof (t_run_settled _ _ (Hq X)) as Hset. pose proof (settled_metric _ Hset) as Hmet.
  pose proof (load_freads _ _ _ H0 Hmet Hmo) as Hr.
  (* the lines after the translation *)
  assert (T : exists u, u Z = 0 /\ (forall a, u a = fshift_amount (o_x o) (o_y o) a) /\
    Forall2 fe_carried text (all_lines g1) /\ fh_carry u text (all_lines g1)).
  { destruct (is_some (o_x o) || is_some (o_y o)) eqn:Exy.
    - destruct (translate_pure _ _ _ _ H1) as (Ha & _). rewrite Ha. destruct (tr_init_modest _ _ Mx My) as [Ix Iy].
      exists (fun a => famount (fstill (tr_init (o_x o) (o_y o)) a)). split; [reflexivity|]. split.
      + rewrite tr_init_of. intros []; cbn [fstill tr_x tr_y fshift_amount famount];
          [apply shift_of_modest; assumption|apply shift_of_modest; assumption|reflexivity].
      + split; [apply ftr_e_carry; assumption|].
        apply ftr_h_carry; [exact Hr|apply (t_run_absolute _ _ (Hq X))|exact Ix|exact Iy| |reflexivity].
        right. rewrite tr_init_of. auto.
    - subst g1. exists (fun _ => 0). split; [reflexivity|]. split.
      + destruct (o_x o), (o_y o); try discriminate Exy. intros []; reflexivity.
      + split; [apply freads_e_carry; exact Hr|apply freads_h_carry; [exact Hr|reflexivity]]. }
  destruct T as (u & Hu0 & Hu & Hec & Hhc).
  (* and after the conversion *)
  assert (C : h_chain u text (write g2) /\
    forall i, Rabs (extruder (run (firstn i (write g2)) (start (fun _ => 0))) -
                    extruder (run (firstn i text) (start (fun _ => 0)))) <= INR (e_count (firstn i text)) * d5).
  { unfold write. change (List.concat (map ly_lines (g_layers g2))) with (all_lines g2).
    assert (Hat : at_ (rel_init (A:=B64)) (Some (false, 0))) by (split; [reflexivity|exact rel_init_holds]).
    destruct (o_e o).
    - destruct (relative_pure _ _ H2) as (Ha & _). rewrite Ha. split; [apply (fh_chain_rel _ _ Hec Hset u _ _ Hat Hhc)|].
      apply (conv_run d5 d5_pos _ _ (Some (false, 0)) Begin (start (fun _ => 0)) (start (fun _ => 0)) 0
               (fe_chain_rel _ _ Hec Hset rel_init _ Hat) Hset).
      + split; [reflexivity|]. split; [reflexivity|]. exists 0. split; [reflexivity|cbn; lra].
      + apply Hm. reflexivity.
      + cbn. match goal with |- Rabs ?t <= _ => replace t with 0 by lra end. rewrite Rabs_R0. lra.
    - subst g2. split; [apply fh_chain_plain; assumption|].
      apply (e_run_plain d5 d5_pos _ _ (start (fun _ => 0)) (start (fun _ => 0)) 0 (fe_chain_plain _ _ Hec) Hset); try reflexivity;
        cbn; match goal with |- Rabs ?t <= _ => replace t with 0 by lra end; rewrite Rabs_R0; lra. }
  destruct C as [Ch Ce].
  destruct (mod_pauses o data g0 g1 g2 g3 H0 H1 H2 H3) as (n & W1 & W2).
  exists (write g2), n. split; [exact W1|]. split; [exact W2|]. split; [apply (h_chain_length _ _ _ _ Ch)|].
  intros i. split; [|apply Ce].
  replace (/ 1000 + / 10 ^ 9) with (2 * d3) by (unfold d3, loss; cbn [pow]; lra).
  apply (h_run d3 d3_pos (fshift_amount (o_x o) (o_y o)) eq_refl text (write g2) u (fun _ => Homed) _ _ Hu0 Ch); [|exact Hq].
  repeat (split; [first [reflexivity|intros b; reflexivity]|]).
  intros b. cbn [start head origin axis_at]. auto.
Qed.

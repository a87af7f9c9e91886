(** * P_ModRun: machines that run two programs whose numbers differ by rounding
    (C33, C105, C106) *)
From Coq Require Import List Ascii String ZArith NArith Bool Lia Reals Lra.
From Verif Require Import PyBase SpecText SpecMachine SpecFilter SpecMod.
From Verif Require Import P_Machine P_FilterMotion.
Import ListNotations.
Local Open Scope list_scope.
Local Open Scope R_scope.

Section Run.
(** what rounding may do to a coordinate and to an E word *)
Variables d3 d5 : R.
Hypothesis d3_pos : 0 <= d3.
Hypothesis d5_pos : 0 <= d5.

Lemma near_self : forall d (o : option R), 0 <= d -> near d o o.
Proof. intros d [x|] H; cbn; [|exact I]. replace (x - x) with 0 by lra. rewrite Rabs_R0. exact H. Qed.

(** what the conversion makes of a line, as the head sees it *)
Definition head_op (o o' : op) : Prop :=
  o' = o \/ (o = AbsoluteE /\ o' = RelativeE) \/
  exists w e f w' e' f', o = Move w e f /\ o' = Move w' e' f' /\ forall a, near (d3) (w' a) (w a).

(** the machines agree but for rounding, [c a] times on axis [a] *)
Definition close (c : axis -> nat) (k k' : machine) : Prop :=
  inches k = false /\ inches k' = false /\ relative k' = relative k /\ (forall a, home k' a = home k a) /\
  forall a, Rabs (head k' a - head k a) <= INR (c a) * d3 /\
            Rabs (origin k' a - origin k a) <= INR (c a) * d3.

Lemma count_pos : forall n, 0 <= INR n * d3.
Proof. intros n. apply Rmult_le_pos; [apply pos_INR|exact d3_pos]. Qed.

Lemma head_step : forall c k k' s s', op_of s <> Inches -> head_op (op_of s) (op_of s') -> close c k k' ->
  close (fun a => (c a + (if drives a s then 1 else 0))%nat) (exec_line s k) (exec_line s' k').
Proof.
  intros c k k' s s' Hin Ho (I1 & I2 & I3 & I4 & I5). unfold exec_line, drives.
  assert (Hz : forall a, INR (c a + 0) = INR (c a)) by (intros a; rewrite Nat.add_0_r; reflexivity).
  assert (H1 : forall a, INR (c a + 1) = INR (c a) + 1) by (intros a; rewrite plus_INR; reflexivity).
  assert (Hself : forall x, x - x = 0) by (intros x; lra).
  assert (Habs : forall n, Rabs 0 <= INR n * d3) by (intros n; rewrite Rabs_R0; apply count_pos).
  assert (Hmove : forall w e f w' e' f', op_of s = Move w e f -> op_of s' = Move w' e' f' ->
    (forall a, near (d3) (w' a) (w a)) ->
    close (fun a => (c a + (if match op_of s with Move w _ _ => named w a | _ => false end then 1 else 0))%nat)
      (exec (op_of s) k) (exec (op_of s') k')).
  { intros w e f w' e' f' E1 E2 Hw. rewrite E1, E2. cbn [exec]. unfold close. cbn [inches relative home head origin].
    repeat (split; [assumption|]). intros a. destruct (I5 a) as [J1 J2]. specialize (Hw a). unfold near, named, mm in *.
    rewrite I1, I2, I3. destruct (w a) as [v|], (w' a) as [v'|]; try contradiction.
    - rewrite H1. split; [|pose proof (count_pos (c a)); lra].
      destruct (relative k).
      + replace (head k' a + v' - (head k a + v)) with ((head k' a - head k a) + (v' - v)) by lra.
        eapply Rle_trans; [apply Rabs_triang|]. lra.
      + replace (origin k' a + v' - (origin k a + v)) with ((origin k' a - origin k a) + (v' - v)) by lra.
        eapply Rle_trans; [apply Rabs_triang|]. lra.
    - rewrite Hz. auto. }
  destruct Ho as [Ho|[[E1 E2]|(w & e & f & w' & e' & f' & E1 & E2 & Hw)]].
  - destruct (op_of s) as [w e f|w|w e| | | | | | |n|] eqn:Eop.
    + apply (Hmove w e f w e f eq_refl Ho). intros a. apply near_self. lra.
    + rewrite Ho. cbn [exec]. unfold close. cbn [inches relative home head origin].
      repeat (split; [assumption|]). intros a. rewrite I4, Hz. destruct (_ || _).
      * rewrite !Hself. split; apply Habs.
      * apply I5.
    + rewrite Ho. cbn [exec]. unfold close. cbn [inches relative home head origin].
      repeat (split; [assumption|]). intros a. rewrite Hz. destruct (I5 a) as [J1 J2]. split; [exact J1|].
      unfold mm. rewrite I1, I2. destruct (w a) as [v|].
      * replace (head k' a - v - (head k a - v)) with (head k' a - head k a) by lra. exact J1.
      * destruct (bare w e); assumption.
    + congruence.
    + rewrite Ho. cbn [exec]. unfold close. cbn [inches relative home head origin].
      repeat (split; [first [assumption|reflexivity]|]). intros a. rewrite Hz. apply I5.
    + rewrite Ho. cbn [exec]. unfold close. cbn [inches relative home head origin].
      repeat (split; [first [assumption|reflexivity]|]). intros a. rewrite Hz. apply I5.
    + rewrite Ho. cbn [exec]. unfold close. cbn [inches relative home head origin].
      repeat (split; [first [assumption|reflexivity]|]). intros a. rewrite Hz. apply I5.
    + rewrite Ho. cbn [exec]. unfold close. cbn [inches relative home head origin].
      repeat (split; [first [assumption|reflexivity]|]). intros a. rewrite Hz. apply I5.
    + rewrite Ho. cbn [exec]. unfold close. cbn [inches relative home head origin].
      repeat (split; [first [assumption|reflexivity]|]). intros a. rewrite Hz. apply I5.
    + rewrite Ho. cbn [exec]. unfold close.
      repeat (split; [first [assumption|reflexivity]|]). intros a. rewrite Hz. apply I5.
    + rewrite Ho. cbn [exec]. unfold close.
      repeat (split; [first [assumption|reflexivity]|]). intros a. rewrite Hz. apply I5.
  - rewrite E1, E2. cbn [exec]. unfold close. cbn [inches relative home head origin].
    repeat (split; [first [assumption|reflexivity]|]). intros a. rewrite Hz. apply I5.
  - exact (Hmove w e f w' e' f' E1 E2 Hw).
Qed.

Lemma head_run : forall ss ss', Forall2 (fun s s' => head_op (op_of s) (op_of s')) ss ss' -> metric ss ->
  forall c k k', close c k k' -> forall i,
  close (fun a => (c a + drive_count a (firstn i ss))%nat) (run (firstn i ss) k) (run (firstn i ss') k').
Proof.
  intros ss ss' H. induction H as [|s s' ss ss' Hs _ IH]; intros Hm c k k' Hc i.
  - assert (H0 : close (fun a => (c a + 0)%nat) k k').
    { destruct Hc as (I1 & I2 & I3 & I4 & I5). repeat (split; [assumption|]). intros a. rewrite Nat.add_0_r. apply I5. }
    destruct i; exact H0.
  - inversion Hm as [|? ? M1 M2]; subst. destruct i as [|i].
    + destruct Hc as (I1 & I2 & I3 & I4 & I5). repeat (split; [assumption|]). intros a.
      cbn [firstn drive_count filter List.length]. rewrite Nat.add_0_r. apply I5.
    + pose proof (IH M2 _ _ _ (head_step c k k' s s' M1 Hs Hc) i) as (I1 & I2 & I3 & I4 & I5).
      cbn [firstn]. unfold run in *. cbn [fold_left].
      repeat (split; [assumption|]). intros a. specialize (I5 a).
      replace (c a + drive_count a (s :: firstn i ss))%nat
        with (c a + (if drives a s then 1 else 0) + drive_count a (firstn i ss))%nat; [exact I5|].
      unfold drive_count. cbn [filter]. destruct (drives a s); cbn [List.length]; lia.
Qed.

(** an axis whose logical zero is never changed *)
Lemma fixed_run : forall a ss ss', Forall2 (fun s s' => head_op (op_of s) (op_of s')) ss ss' -> metric ss ->
  fixed_axis a ss -> forall k k', inches k = false -> inches k' = false -> relative k = false -> relative k' = false ->
  home k' a = home k a -> origin k' a = origin k a -> Rabs (head k' a - head k a) <= d3 ->
  forall i, Rabs (head (run (firstn i ss') k') a - head (run (firstn i ss) k) a) <= d3.
Proof.
  intros a ss ss' H. induction H as [|s s' ss ss' Hs _ IH]; intros Hm Hf k k' I1 I2 I3 I4 I5 I6 I7 i.
  - destruct i; exact I7.
  - destruct i as [|i]; [exact I7|]. inversion Hm as [|? ? M1 M2]; subst. inversion Hf as [|? ? F1 F2]; subst.
    cbn [firstn]. unfold run in *. cbn [fold_left].
    assert (Hz : forall x, Rabs (x - x) <= d3) by (intros x; replace (x - x) with 0 by lra; rewrite Rabs_R0; lra).
    assert (Hmove : forall w e f w' e' f', op_of s = Move w e f -> op_of s' = Move w' e' f' ->
      near (d3) (w' a) (w a) ->
      Rabs (head (fold_left (fun k s => exec_line s k) (firstn i ss') (exec_line s' k')) a -
            head (fold_left (fun k s => exec_line s k) (firstn i ss) (exec_line s k)) a) <= d3).
    { intros w e f w' e' f' E1 E2 Hw.
      apply (IH M2 F2); unfold exec_line; rewrite ?E1, ?E2; cbn [exec inches relative home origin head]; try assumption.
      unfold mm, near in *. rewrite I1, I2, I3, I4, I6. destruct (w a), (w' a); try contradiction; [|exact I7].
      replace (origin k a + r0 - (origin k a + r)) with (r0 - r) by lra. exact Hw. }
    destruct Hs as [Ho|[[E1 E2]|(w & e & f & w' & e' & f' & E1 & E2 & Hw)]].
    + destruct (op_of s) as [w e f|w|w e| | | | | | |n|] eqn:Eop;
        try (apply (IH M2 F2); unfold exec_line; rewrite ?Eop, ?Ho; cbn [exec inches relative home origin head];
             first [assumption|reflexivity]).
      * apply (Hmove w e f w e f eq_refl Ho). apply near_self. lra.
      * apply (IH M2 F2); unfold exec_line; rewrite ?Eop, ?Ho; cbn [exec inches relative home origin head]; try assumption.
        -- destruct (_ || _); [reflexivity|exact I6].
        -- rewrite I5. destruct (_ || _); [apply Hz|exact I7].
      * destruct F1 as [N1 N2].
        apply (IH M2 F2); unfold exec_line; rewrite ?Eop, ?Ho; cbn [exec inches relative home origin head]; try assumption.
        unfold named in N1. destruct (w a); [discriminate N1|]. rewrite N2. exact I6.
      * congruence.
      * destruct F1.
    + apply (IH M2 F2); unfold exec_line; rewrite ?E1, ?E2; cbn [exec inches relative home origin head];
        first [assumption|reflexivity].
    + apply (Hmove w e f w' e' f' E1 E2 (Hw a)).
Qed.

(** what becomes of a G92, for axis [a], shifted by [u] *)
Definition set_near (u : R) (w w' : axis -> option R) (a : axis) : Prop :=
  match w' a with
  | Some v' => resets w a = true /\ Rabs (v' - ((match w a with Some v => v | None => 0 end) - u)) <= d3
  | None => w a = None /\ (resets w a = true -> u = 0)
  end.

(** what the head sees of a line, shifted by [u] *)
Definition h_op (u : axis -> R) (o o' : op) : Prop :=
  match o with
  | Move w _ _ => exists w' e' f', o' = Move w' e' f' /\
      forall a, near (d3) (w' a) (option_map (fun v => v + u a) (w a))
  | SetPosition w e => exists w' e', o' = SetPosition w' e' /\ (bare w e = false -> bare w' e' = false) /\
      forall a, set_near (u a) w w' a
  | AbsoluteE => o' = AbsoluteE \/ o' = RelativeE
  | _ => o' = o
  end.

Definition u_next (u : axis -> R) (o : op) (a : axis) : R :=
  match o with SetPosition w _ => if resets w a then 0 else u a | _ => u a end.

Fixpoint h_chain (u : axis -> R) (ss ss' : list string) : Prop :=
  match ss, ss' with
  | [], [] => True
  | s :: t, s' :: t' => h_op u (op_of s) (op_of s') /\ h_chain (u_next u (op_of s)) t t'
  | _, _ => False
  end.

(** what the extruder sees; [r] is the state of the conversion, if there is one *)
Definition e_op (r : option (bool * R)) (o o' : op) : Prop :=
  match o with
  | Move _ e _ => exists w' e' f', o' = Move w' e' f' /\
      near (d5) e' (match r with Some (false, c) => option_map (fun v => v - c) e | _ => e end)
  | SetPosition w e => exists w' e', o' = SetPosition w' e' /\ near (d5) e' e /\
      (bare w e = false -> bare w' e' = false)
  | AbsoluteE => o' = match r with None => AbsoluteE | Some _ => RelativeE end
  | _ => o' = o
  end.

Definition r_next (r : option (bool * R)) (o : op) : option (bool * R) :=
  match r with
  | None => None
  | Some (b, c) =>
      match o with
      | Move _ (Some v) _ => if b then r else Some (b, v)
      | SetPosition _ (Some v) => Some (b, v)
      | AbsoluteE => Some (false, c)
      | RelativeE => Some (true, c)
      | _ => r
      end
  end.

Fixpoint e_chain (r : option (bool * R)) (ss ss' : list string) : Prop :=
  match ss, ss' with
  | [], [] => True
  | s :: t, s' :: t' => e_op r (op_of s) (op_of s') /\ e_chain (r_next r (op_of s)) t t'
  | _, _ => False
  end.

Definition axis_at (t u : R) (a : axis) (p : t_phase) (k k' : machine) : Prop :=
  match p with
  | Homed => u = t /\ head k a = 0 /\ head k' a = 0 /\ origin k a = 0 /\ origin k' a = 0
  | Placed => u = t /\ origin k a = 0 /\ origin k' a = 0 /\ Rabs (head k' a - (head k a + t)) <= d3
  | Based => u = 0 /\ head k' a = head k a /\ Rabs (origin k' a - (origin k a + t)) <= d3
  | BasedPlaced => u = 0 /\ Rabs (head k' a - (head k a + t)) <= (2 * d3) /\
      Rabs (origin k' a - (origin k a + t)) <= d3
  end.

Definition h_inv (t u : axis -> R) (ps : axis -> t_phase) (k k' : machine) : Prop :=
  inches k = false /\ inches k' = false /\ relative k = false /\ relative k' = false /\
  (forall a, home k a = 0) /\ (forall a, home k' a = 0) /\
  forall a, axis_at (t a) (u a) a (ps a) k k'.

Lemma h_step : forall t u s s' ps qs k k', t Z = 0 -> u Z = 0 -> h_op u (op_of s) (op_of s') ->
  h_inv t u ps k k' -> (forall a, t_step a (ps a) s = Some (qs a)) ->
  h_inv t (u_next u (op_of s)) qs (exec_line s k) (exec_line s' k').
Proof.
  intros t u s s' ps qs k k' Ht0 Hu0 Ho (I1 & I2 & I3 & I4 & I5 & I6 & I7) Hq. unfold exec_line, t_step, h_op in *.
  destruct (op_of s) as [w e f|w|w e| | | | | | |n|] eqn:Eop; try (specialize (Hq X); discriminate Hq).
  - (* move *)
    destruct Ho as (w' & e' & f' & -> & Hw). cbn [exec u_next]. unfold h_inv. cbn [inches relative home].
    repeat (split; [assumption|]).
    intros a. specialize (I7 a). specialize (Hw a). specialize (Hq a).
    unfold named in Hq. injection Hq as <-. unfold axis_at in *. cbn [head origin]. unfold mm. rewrite I1, I2, I3, I4.
    unfold near in Hw. destruct (w a) as [v|]; cbn [option_map] in Hw; destruct (w' a) as [v'|]; try contradiction.
    + destruct (ps a).
      * destruct I7 as (J1 & J2 & J3 & J4 & J5). repeat (split; [assumption|]). rewrite J4, J5, <- J1.
        replace (0 + v' - (0 + v + u a)) with (v' - (v + u a)) by lra. exact Hw.
      * destruct I7 as (J1 & J2 & J3 & J4). repeat (split; [assumption|]). rewrite J2, J3, <- J1.
        replace (0 + v' - (0 + v + u a)) with (v' - (v + u a)) by lra. exact Hw.
      * destruct I7 as (J1 & J2 & J3). split; [exact J1|]. split; [|exact J3].
        rewrite J1 in Hw. replace ((2 * d3)) with (d3 + d3) by lra.
        apply (Rabs_add_le _ _ _ _ _ Hw J3). lra.
      * destruct I7 as (J1 & J2 & J3). split; [exact J1|]. split; [|exact J3].
        rewrite J1 in Hw. replace ((2 * d3)) with (d3 + d3) by lra.
        apply (Rabs_add_le _ _ _ _ _ Hw J3). lra.
    + exact I7.
  - (* home *)
    rewrite Ho. cbn [exec u_next]. unfold h_inv. cbn [inches relative home].
    repeat (split; [assumption|]).
    intros a. specialize (I7 a). specialize (Hq a). unfold axis_at in *. cbn [head origin]. rewrite I5, I6.
    destruct (negb (named w X || named w Y || named w Z) || named w a).
    + destruct (ps a).
      * injection Hq as <-. destruct I7 as (J1 & _). repeat split. exact J1.
      * injection Hq as <-. destruct I7 as (J1 & _). repeat split. exact J1.
      * destruct a; try discriminate Hq. injection Hq as <-. split; [cbn [u_next]; rewrite Ht0, Hu0; reflexivity|repeat split; reflexivity].
      * destruct a; try discriminate Hq. injection Hq as <-. split; [cbn [u_next]; rewrite Ht0, Hu0; reflexivity|repeat split; reflexivity].
    + injection Hq as <-. exact I7.
  - (* set position *)
    destruct Ho as (w' & e' & -> & Hb' & Hw). cbn [exec u_next]. unfold h_inv. cbn [inches relative home].
    repeat (split; [assumption|]).
    intros a.
    assert (Hb : bare w e = false).
    { specialize (Hq a). destruct (bare w e); [discriminate Hq|reflexivity]. }
    rewrite Hb, (Hb' Hb). specialize (I7 a). specialize (Hq a). rewrite Hb in Hq.
    specialize (Hw a). unfold axis_at, set_near in *. cbn [head origin u_next]. unfold mm. rewrite I1, I2.
    destruct (resets w a) eqn:Er.
    + destruct (ps a) eqn:Ep; try discriminate Hq. injection Hq as <-.
      destruct I7 as (J1 & J2 & J3 & J4 & J5).
      split; [reflexivity|]. split; [congruence|].
      destruct (w' a) as [v'|].
      * destruct Hw as [_ Hw]. rewrite J1 in Hw. rewrite <- Rabs_Ropp.
        destruct (w a) as [v|].
        -- rewrite J2, J3. replace (- (0 - v' - (0 - v + t a))) with (v' - (v - t a)) by lra. exact Hw.
        -- rewrite J3, J4. replace (- (0 - v' - (0 + t a))) with (v' - (0 - t a)) by lra. exact Hw.
      * destruct Hw as [-> Hw]. rewrite J4, J5, <- J1, (Hw eq_refl).
        replace (0 - (0 + 0)) with 0 by lra. rewrite Rabs_R0. lra.
    + injection Hq as <-.
      destruct (w' a) as [v'|]; [destruct Hw as [Hw _]; discriminate Hw|]. destruct Hw as [-> _]. exact I7.
  - rewrite Ho. cbn [exec u_next]. unfold h_inv. cbn [inches relative home].
    repeat (split; [first [assumption|reflexivity]|]).
    intros a. specialize (Hq a). injection Hq as <-. exact (I7 a).
  - rewrite Ho. cbn [exec u_next]. unfold h_inv. cbn [inches relative home].
    repeat (split; [first [assumption|reflexivity]|]).
    intros a. specialize (Hq a). injection Hq as <-. exact (I7 a).
  - destruct Ho as [-> | ->]; cbn [exec u_next]; unfold h_inv; cbn [inches relative home];
      repeat (split; [first [assumption|reflexivity]|]);
      intros a; specialize (Hq a); injection Hq as <-; exact (I7 a).
  - rewrite Ho. cbn [exec u_next]. unfold h_inv. cbn [inches relative home].
    repeat (split; [first [assumption|reflexivity]|]).
    intros a. specialize (Hq a). injection Hq as <-. exact (I7 a).
  - rewrite Ho. cbn [exec u_next]. unfold h_inv.
    repeat (split; [first [assumption|reflexivity]|]).
    intros a. specialize (Hq a). injection Hq as <-. exact (I7 a).
  - rewrite Ho. cbn [exec u_next]. unfold h_inv.
    repeat (split; [first [assumption|reflexivity]|]).
    intros a. specialize (Hq a). injection Hq as <-. exact (I7 a).
Qed.

Lemma h_inv_head : forall t u ps k k' a, h_inv t u ps k k' ->
  Rabs (head k' a - (head k a + (if moved (ps a) then t a else 0))) <= (2 * d3).
Proof.
  intros t u ps k k' a (_ & _ & _ & _ & _ & _ & H). specialize (H a). unfold axis_at in H.
  destruct (ps a); cbn [moved].
  - destruct H as (_ & -> & -> & _). replace (0 - (0 + 0)) with 0 by lra. rewrite Rabs_R0. lra.
  - destruct H as (_ & _ & _ & H). lra.
  - destruct H as (_ & -> & _). match goal with |- Rabs ?x <= _ => replace x with 0 by lra end. rewrite Rabs_R0. lra.
  - apply H.
Qed.

Lemma h_run : forall t, t Z = 0 -> forall ss ss' u ps k k', u Z = 0 -> h_chain u ss ss' ->
  h_inv t u ps k k' -> (forall a, t_run a (ps a) ss <> None) ->
  forall i a, exists p, t_run a (ps a) (firstn i ss) = Some p /\
    Rabs (head (run (firstn i ss') k') a - (head (run (firstn i ss) k) a + (if moved p then t a else 0))) <= (2 * d3).
Proof.
  intros t Ht0. induction ss as [|s ss IH]; intros [|s' ss'] u ps k k' Hu Hc Hi Hq i a; try contradiction.
  - exists (ps a). destruct i; cbn [firstn t_run]; (split; [reflexivity|]); apply (h_inv_head _ _ _ _ _ _ Hi).
  - destruct i as [|i].
    + exists (ps a). cbn [firstn t_run]. split; [reflexivity|]. apply (h_inv_head _ _ _ _ _ _ Hi).
    + assert (Hqs : exists qs, forall b, t_step b (ps b) s = Some (qs b)).
      { assert (Hb : forall b, exists q, t_step b (ps b) s = Some q).
        { intros b. specialize (Hq b). cbn [t_run] in Hq. destruct (t_step b (ps b) s) as [q|]; [eauto|congruence]. }
        destruct (Hb X) as [qx Hx], (Hb Y) as [qy Hy], (Hb Z) as [qz Hz].
        exists (fun b => match b with X => qx | Y => qy | Z => qz end). intros []; assumption. }
      destruct Hqs as [qs Hqs]. destruct Hc as [C1 C2].
      pose proof (h_step t u s s' ps qs k k' Ht0 Hu C1 Hi Hqs) as Hi'.
      assert (Hq' : forall b, t_run b (qs b) ss <> None).
      { intros b. specialize (Hq b). cbn [t_run] in Hq. rewrite Hqs in Hq. exact Hq. }
      assert (Hu' : u_next u (op_of s) Z = 0).
      { unfold u_next. destruct (op_of s); auto. destruct (resets w Z); auto. }
      destruct (IH ss' _ qs _ _ Hu' C2 Hi' Hq' i a) as (p & Hp & Hb). exists p.
      cbn [firstn t_run]. rewrite Hqs. split; [exact Hp|]. unfold run in *. cbn [fold_left]. exact Hb.
Qed.

Lemma e_count_cons : forall s ss, e_count (s :: ss) = ((if has_e s then 1 else 0) + e_count ss)%nat.
Proof. intros s ss. unfold e_count. cbn [filter]. destruct (has_e s); reflexivity. Qed.

Lemma two_errors : forall x y n d, Rabs x <= INR n * d -> Rabs y <= d -> Rabs (x + y) <= INR (n + 1) * d.
Proof.
  intros x y n d H1 H2. rewrite plus_INR. eapply Rle_trans; [apply Rabs_triang|]. cbn [INR]. lra.
Qed.

Lemma more_errors : forall x n m d, 0 <= d -> Rabs x <= INR n * d -> Rabs x <= INR (n + m) * d.
Proof.
  intros x n m d Hd H. rewrite plus_INR. pose proof (pos_INR m) as Hp.
  assert (0 <= INR m * d) by (apply Rmult_le_pos; assumption). lra.
Qed.

Lemma e_step_plain : forall s s' k k' n, e_op None (op_of s) (op_of s') -> settled s ->
  inches k = false -> inches k' = false -> relative_e k' = relative_e k ->
  Rabs (extruder k' - extruder k) <= INR n * d5 ->
  Rabs (extruder_origin k' - extruder_origin k) <= INR n * d5 ->
  let m := (n + (if has_e s then 1 else 0))%nat in
  let j := exec_line s k in let j' := exec_line s' k' in
  inches j = false /\ inches j' = false /\ relative_e j' = relative_e j /\
  Rabs (extruder j' - extruder j) <= INR m * d5 /\
  Rabs (extruder_origin j' - extruder_origin j) <= INR m * d5.
Proof.
  intros s s' k k' n Ho Hs I1 I2 I3 I4 I5 m j j'. subst m j j'. unfold exec_line, e_op, settled, has_e in *.
  pose proof d5_pos as Hd.
  destruct (op_of s) as [w e f|w|w e| | | | | | |b|]; try contradiction;
    try (rewrite Ho; cbn [exec inches relative_e extruder extruder_origin];
         rewrite ?Nat.add_0_r; repeat split; first [assumption|reflexivity]).
  - destruct Ho as (w' & e' & f' & -> & He). cbn [exec inches relative_e extruder extruder_origin]. unfold near, mm in *.
    rewrite I1, I2, I3. destruct e as [v|], e' as [v'|]; try contradiction.
    + repeat (split; [first [assumption|reflexivity]|]). split.
      * destruct (relative_e k).
        -- replace (extruder k' + v' - (extruder k + v)) with ((extruder k' - extruder k) + (v' - v)) by lra.
           apply two_errors; assumption.
        -- replace (extruder_origin k' + v' - (extruder_origin k + v))
             with ((extruder_origin k' - extruder_origin k) + (v' - v)) by lra.
           apply two_errors; assumption.
      * apply more_errors; assumption.
    + rewrite Nat.add_0_r. repeat split; assumption.
  - destruct Ho as (w' & e' & -> & He & Hb). cbn [exec inches relative_e extruder extruder_origin]. unfold near, mm in *.
    rewrite I1, I2, Hs, (Hb Hs). destruct e as [v|], e' as [v'|]; try contradiction.
    + repeat (split; [first [assumption|reflexivity]|]). split; [apply more_errors; assumption|].
      replace (extruder k' - v' - (extruder k - v)) with ((extruder k' - extruder k) + - (v' - v)) by lra.
      apply two_errors; [assumption|rewrite Rabs_Ropp; assumption].
    + rewrite Nat.add_0_r. repeat split; assumption.
Qed.

Lemma e_run_plain : forall ss ss' k k' n, e_chain None ss ss' -> Forall settled ss ->
  inches k = false -> inches k' = false -> relative_e k' = relative_e k ->
  Rabs (extruder k' - extruder k) <= INR n * d5 ->
  Rabs (extruder_origin k' - extruder_origin k) <= INR n * d5 ->
  forall i, Rabs (extruder (run (firstn i ss') k') - extruder (run (firstn i ss) k))
              <= INR (n + e_count (firstn i ss)) * d5.
Proof.
  induction ss as [|s ss IH]; intros [|s' ss'] k k' n Hc Hset I1 I2 I3 I4 I5 i; try contradiction.
  - destruct i; cbn [firstn e_count filter List.length]; rewrite Nat.add_0_r; exact I4.
  - destruct i as [|i]; [cbn [firstn e_count filter List.length]; rewrite Nat.add_0_r; exact I4|].
    destruct Hc as [C1 C2]. inversion Hset as [|? ? S1 S2]; subst.
    destruct (e_step_plain s s' k k' n C1 S1 I1 I2 I3 I4 I5) as (J1 & J2 & J3 & J4 & J5). cbv zeta in *.
    cbn [firstn]. rewrite e_count_cons, Nat.add_assoc. unfold run in *. cbn [fold_left].
    apply IH; assumption.
Qed.

Definition conv_inv (p : e_phase) (r : option (bool * R)) (k k' : machine) : Prop :=
  inches k = false /\ inches k' = false /\
  match p with
  | Begin => exists c, r = Some (false, c) /\ extruder k - extruder_origin k = c
  | Native | Rel => exists c, r = Some (true, c) /\ relative_e k = true /\ relative_e k' = true
  | Abs => exists c, r = Some (false, c) /\ relative_e k = false /\ relative_e k' = true /\
      extruder k - extruder_origin k = c
  | Stale => exists c, r = Some (false, c) /\ relative_e k = false /\ relative_e k' = true
  end.

Lemma conv_step : forall s s' p q r k k', e_op r (op_of s) (op_of s') -> settled s -> conv_inv p r k k' ->
  m_step p s = Some q ->
  Rabs (advance s' k' - advance s k) <= (if feeds s then d5 else 0) /\
  conv_inv q (r_next r (op_of s)) (exec_line s k) (exec_line s' k').
Proof.
  intros s s' p q r k k' Ho Hs (I1 & I2 & I3) Hq.
  assert (Hzero : forall x, x = 0 -> Rabs x <= 0) by (intros x ->; rewrite Rabs_R0; lra).
  assert (Hrr : exists b c, r = Some (b, c)).
  { destruct p; destruct I3 as (c & H & _); eauto. }
  destruct Hrr as (b0 & c0 & Hrr).
  unfold exec_line, advance, feeds, e_op, settled, m_step, e_step in *.
  destruct (op_of s) as [w e f|w|w e| | | | | | |b|] eqn:Eop; try contradiction.
  - destruct Ho as (w' & e' & f' & Ho & He). rewrite Ho. unfold exec_line. rewrite ?Eop, ?Ho.
    cbn [exec inches relative_e extruder extruder_origin]. unfold near, mm in *. rewrite I1, I2.
    destruct e as [v|].
    + destruct p; try discriminate Hq; injection Hq as <-; destruct I3 as (c & -> & I3); cbn [option_map r_next] in *;
        (destruct e' as [v'|]; [|contradiction]).
      * destruct I3 as (R1 & R2). rewrite R1, R2. split.
        -- replace (extruder k' + v' - extruder k' - (extruder k + v - extruder k)) with (v' - v) by lra. lra.
        -- split; [first [exact I1|reflexivity]|]. split; [first [exact I2|reflexivity]|]. exists c. auto.
      * destruct I3 as (R1 & R2 & R3). rewrite R1, R2. split.
        -- replace (extruder k' + v' - extruder k' - (extruder_origin k + v - extruder k)) with (v' - (v - c)) by lra. lra.
        -- split; [first [exact I1|reflexivity]|]. split; [first [exact I2|reflexivity]|]. exists v. cbn [extruder extruder_origin relative_e]. repeat split; auto. lra.
      * destruct I3 as (R1 & R2). rewrite R1, R2. split.
        -- replace (extruder k' + v' - extruder k' - (extruder k + v - extruder k)) with (v' - v) by lra. lra.
        -- split; [first [exact I1|reflexivity]|]. split; [first [exact I2|reflexivity]|]. exists c. auto.
    + 
      assert (He' : e' = None) by (destruct r as [[[|] c]|]; cbn [option_map] in He; destruct e'; auto; contradiction).
      subst e'. split; [apply Hzero; lra|]. split; [first [exact I1|reflexivity]|]. split; [first [exact I2|reflexivity]|].
      assert (Hr : r_next r (Move w None f) = r) by (destruct r as [[]|]; reflexivity). rewrite Hr.
      destruct p; try discriminate Hq; injection Hq as <-; exact I3.
  - rewrite Ho. unfold exec_line. rewrite ?Eop, ?Ho. cbn [exec extruder]. split; [apply Hzero; lra|].
    assert (q = p) by (destruct p; congruence). subst q p || subst q.
    subst r. split; [first [exact I1|reflexivity]|]. split; [first [exact I2|reflexivity]|]. exact I3.
  - destruct Ho as (w' & e' & Ho & He & Hb). rewrite Ho. unfold exec_line. rewrite ?Eop, ?Ho. cbn [exec extruder].
    split; [apply Hzero; lra|].
    unfold conv_inv. cbn [inches relative_e extruder extruder_origin]. split; [first [exact I1|reflexivity]|]. split; [first [exact I2|reflexivity]|].
    unfold near, mm in *. rewrite I1, Hs in *.
    destruct e as [v|].
    + destruct p; injection Hq as <-; destruct I3 as (c & -> & I3); cbn [r_next]; exists v; intuition lra.
    + destruct p; injection Hq as <-; destruct I3 as (c & -> & I3); cbn [r_next]; exists c; intuition lra.
  - rewrite Ho. unfold exec_line. rewrite ?Eop, ?Ho. cbn [exec extruder]. split; [apply Hzero; lra|].
    assert (q = p) by (destruct p; congruence). subst q r.
    split; [reflexivity|]. split; [reflexivity|]. exact I3.
  - rewrite Ho. unfold exec_line. rewrite ?Eop, ?Ho. cbn [exec extruder]. split; [apply Hzero; lra|].
    subst r. destruct p; try discriminate Hq. injection Hq as <-.
    split; [first [exact I1|reflexivity]|]. split; [first [exact I2|reflexivity]|]. exact I3.
  - rewrite Ho. unfold exec_line. rewrite ?Eop, ?Ho. cbn [exec extruder]. split; [apply Hzero; lra|].
    subst r. destruct p; try discriminate Hq; injection Hq as <-;
    (split; [first [exact I1|reflexivity]|]); (split; [first [exact I2|reflexivity]|]).
    + exact I3.
    + destruct I3 as (c & H & _). exists c. auto.
    + destruct I3 as (c & H & _). exists c. auto.
  - subst r. rewrite Ho. unfold exec_line. rewrite ?Eop, ?Ho. cbn [exec extruder]. split; [apply Hzero; lra|].
    unfold conv_inv. cbn [inches relative_e extruder extruder_origin].
    destruct p; injection Hq as <-; (split; [first [exact I1|reflexivity]|]); (split; [first [exact I2|reflexivity]|]); destruct I3 as (c & H & I3);
      exists c; injection H as -> ->; intuition.
  - subst r. rewrite Ho. unfold exec_line. rewrite ?Eop, ?Ho. cbn [exec extruder]. split; [apply Hzero; lra|].
    unfold conv_inv. cbn [inches relative_e extruder extruder_origin].
    destruct p; injection Hq as <-; (split; [first [exact I1|reflexivity]|]); (split; [first [exact I2|reflexivity]|]); destruct I3 as (c & H & I3);
      exists c; injection H as -> ->; intuition.
  - subst r. rewrite Ho. unfold exec_line. rewrite ?Eop, ?Ho. cbn [exec extruder]. split; [apply Hzero; lra|].
    assert (q = p) by (destruct p; congruence). subst q. split; [first [exact I1|reflexivity]|]. split; [first [exact I2|reflexivity]|]. exact I3.
  - subst r. rewrite Ho. unfold exec_line. rewrite ?Eop, ?Ho. cbn [exec extruder]. split; [apply Hzero; lra|].
    assert (q = p) by (destruct p; congruence). subst q. split; [first [exact I1|reflexivity]|]. split; [first [exact I2|reflexivity]|]. exact I3.
Qed.

Lemma conv_run : forall ss ss' r p k k' n, e_chain r ss ss' -> Forall settled ss -> conv_inv p r k k' ->
  m_ready_from p ss = true -> Rabs (extruder k' - extruder k) <= INR n * d5 ->
  forall i, Rabs (extruder (run (firstn i ss') k') - extruder (run (firstn i ss) k))
              <= INR (n + e_count (firstn i ss)) * d5.
Proof.
  induction ss as [|s ss IH]; intros [|s' ss'] r p k k' n Hc Hset Hi Hq Hk i; try contradiction.
  - destruct i; cbn [firstn e_count filter List.length]; rewrite Nat.add_0_r; exact Hk.
  - destruct i as [|i]; [cbn [firstn e_count filter List.length]; rewrite Nat.add_0_r; exact Hk|].
    destruct Hc as [C1 C2]. inversion Hset as [|? ? S1 S2]; subst. cbn [m_ready_from] in Hq.
    destruct (m_step p s) as [q|] eqn:Eq; [|discriminate Hq].
    destruct (conv_step s s' p q r k k' C1 S1 Hi Eq) as [H1 H2].
    cbn [firstn]. rewrite e_count_cons, Nat.add_assoc. unfold run in *. cbn [fold_left].
    apply (IH _ _ _ _ _ _ C2 S2 H2 Hq). unfold advance in H1.
    replace (extruder (exec_line s' k') - extruder (exec_line s k))
      with ((extruder k' - extruder k) +
            (extruder (exec_line s' k') - extruder k' - (extruder (exec_line s k) - extruder k))) by lra.
    pose proof d5_pos as Hd. unfold feeds, has_e in *. destruct (op_of s) as [w [v|] f|w|w [v|]| | | | | | |b|];
      try (apply two_errors; [exact Hk|exact H1]);
      try (eapply Rle_trans; [apply Rabs_triang|]; rewrite plus_INR; cbn [INR]; lra).
Qed.

Lemma h_chain_length : forall ss ss' u, h_chain u ss ss' -> List.length ss' = List.length ss.
Proof.
  induction ss as [|s ss IH]; intros [|s' ss'] u H; cbn [h_chain] in H; try contradiction; [reflexivity|].
  destruct H as [_ H]. cbn [List.length]. f_equal. apply (IH _ _ H).
Qed.

End Run.

Lemma t_run_settled : forall ss p, t_run X p ss <> None -> Forall settled ss.
Proof.
  induction ss as [|s ss IH]; intros p H; constructor; cbn [t_run] in H;
    destruct (t_step X p s) as [q|] eqn:Eq; try congruence.
  - unfold settled, t_step in *. destruct (op_of s); try exact I; [|discriminate Eq].
    destruct (bare w e); [discriminate Eq|reflexivity].
  - apply (IH q H).
Qed.

Lemma t_run_absolute : forall ss p, t_run X p ss <> None -> Forall (fun s => op_of s <> Relative) ss.
Proof.
  induction ss as [|s ss IH]; intros p H; constructor; cbn [t_run] in H;
    destruct (t_step X p s) as [q|] eqn:Eq; try congruence.
  - intros Ho. unfold t_step in Eq. rewrite Ho in Eq. discriminate Eq.
  - apply (IH q H).
Qed.

Lemma settled_metric : forall ss, Forall settled ss -> metric ss.
Proof. intros ss H. eapply Forall_impl; [|exact H]. intros s Hs Ho. unfold settled in Hs. rewrite Ho in Hs. exact Hs. Qed.

(** * P_FloatTrack: the tracked position with doubles (C12) *)
From Coq Require Import List Ascii String ZArith NArith Bool Lia Reals Lra Floats.SpecFloat.
From Flocq Require Import Core Round BinarySingleNaN.
From Verif Require Import PyBase Arith ArithR ArithB64 Gcoder SpecText SpecLoad SpecMachine SpecFilter SpecBinary64.
From Verif Require Import P_Load P_Text P_Report P_Wf P_Machine P_Float P_FloatText.
Import ListNotations.
Local Open Scope list_scope.
Local Open Scope R_scope.

Lemma rnd_fin : forall x, fin x -> rnd (fval x) = fval x.
Proof.
  intros x H. apply fin_B in H as (b & -> & Hb & ->). unfold rnd. apply round_generic; [apply valid_rnd_N|].
  apply generic_format_B2R.
Qed.

Definition pos (m : mstate B64) (a : axis) : num B64 := match a with X => m_x m | Y => m_y m | Z => m_z m end.
Definition off (m : mstate B64) (a : axis) : num B64 := match a with X => m_ox m | Y => m_oy m | Z => m_oz m end.
Definition hom (m : mstate B64) (a : axis) : num B64 := match a with X => m_hx m | Y => m_hy m | Z => m_hz m end.

(** the error of one addition of a word *)
Definition slip : R := 3 / 8000000000.
(** what a relative move or a G92 can add to the error *)
Definition drift : R := / 1000000000.

Lemma held_near : forall v (x : num B64), holds v x -> fin x /\ Rabs (fval x - v) <= / 8000000000 /\ Rabs v <= 1000000.
Proof.
  intros v x (H1 & H2 & H3). assert (H : Rabs v <= 1000000) by (replace 1000000 with (10 ^ 6) by (cbn [pow]; lra); exact H1).
  split; [exact H2|]. split; [|exact H]. rewrite H3. apply rnd_nearer, H.
Qed.

(** adding a word to a base; the exact sum is within the volume *)
Lemma add_near : forall v x b r d, holds v x -> near d b r -> Rabs (r + v) <= 2000000 -> d <= 1 ->
  near (d + slip) (fadd b x) (r + v).
Proof.
  intros v x b r d Hx [Fb Hb] Hs Hd. destruct (held_near _ _ Hx) as (Fx & Ex & Vx). unfold slip, near.
  apply Rabs_le_both in Hb, Ex. pose proof (Rabs_le_both _ _ Hs) as Hs'.
  assert (Hm : Rabs (fval b + fval x) <= 2100000) by (apply Rabs_le; lra).
  destruct (fadd_val b x Fb Fx) as [F V]; [apply million_big; lra|].
  split; [exact F|]. rewrite V. pose proof (rnd_between _ Hm) as K. apply Rabs_le_both in K. apply Rabs_le. lra.
Qed.
Lemma add_near' : forall v x b r d, holds v x -> near d b r -> Rabs (r + v) <= 2000000 -> d <= 1 ->
  near (d + slip) (fadd x b) (r + v).
Proof.
  intros v x b r d Hx [Fb Hb] Hs Hd. destruct (held_near _ _ Hx) as (Fx & Ex & Vx). unfold slip, near.
  apply Rabs_le_both in Hb, Ex. pose proof (Rabs_le_both _ _ Hs) as Hs'.
  assert (Hm : Rabs (fval x + fval b) <= 2100000) by (apply Rabs_le; lra).
  destruct (fadd_val x b Fx Fb) as [F V]; [apply million_big; lra|].
  split; [exact F|]. rewrite V. pose proof (rnd_between _ Hm) as K. apply Rabs_le_both in K. apply Rabs_le. lra.
Qed.
Lemma sub_near : forall v x b r d, holds v x -> near d b r -> Rabs (r - v) <= 2000000 -> d <= 1 ->
  near (d + slip) (fsub b x) (r - v).
Proof.
  intros v x b r d Hx [Fb Hb] Hs Hd. destruct (held_near _ _ Hx) as (Fx & Ex & Vx). unfold slip, near.
  apply Rabs_le_both in Hb, Ex. pose proof (Rabs_le_both _ _ Hs) as Hs'.
  assert (Hm : Rabs (fval b - fval x) <= 2100000) by (apply Rabs_le; lra).
  destruct (fsub_val b x Fb Fx) as [F V]; [apply million_big; lra|].
  split; [exact F|]. rewrite V. pose proof (rnd_between _ Hm) as K. apply Rabs_le_both in K. apply Rabs_le. lra.
Qed.

Lemma near_le : forall d d' x v, near d x v -> d <= d' -> near d' x v.
Proof. intros d d' x v [F H] Hd. split; [exact F|lra]. Qed.

Lemma n0_fin : fin (n0 (A:=B64)) /\ fval (n0 (A:=B64)) = 0.
Proof. split; [split; vm_compute; reflexivity|]. reflexivity. Qed.

Lemma add_zero : forall x, fin x -> fin (fadd x (n0 (A:=B64))) /\ fval (fadd x (n0 (A:=B64))) = fval x.
Proof.
  intros x F. destruct n0_fin as [F0 V0].
  assert (H : Rabs (fval x) <= bpow radix2 emax).
  { apply fin_B in F as (b & -> & Hb & ->). apply Rlt_le, abs_B2R_lt_emax. }
  apply fin_B in F as (b & -> & Fb & Vb). apply fin_B in F0 as (z & E0 & Fz & Vz). rewrite E0 in *. rewrite Vz in V0.
  rewrite fadd_equiv. pose proof (Bplus_correct prec emax Hprec Hmax mode_NE b z Fb Fz) as K.
  rewrite V0, Rplus_0_r in K. rewrite round_generic in K; [|apply valid_rnd_N|apply generic_format_B2R].
  rewrite Rlt_bool_true in K by apply abs_B2R_lt_emax. destruct K as (K1 & K2 & _).
  destruct (B_fin _ K2) as [F1 V1]. split; [exact F1|]. rewrite V1, K1, Vb. reflexivity.
Qed.

Lemma or_zero_holds : forall v y, holds v y -> holds v (or_zero (A:=B64) (Some y)).
Proof.
  intros v y (H1 & F & V). cbn [or_zero]. unfold truthy. destruct (n_eqb (a:=B64) y n0) eqn:E; [|split; [exact H1|split; assumption]].
  destruct n0_fin as [F0 V0]. cbn [negb]. split; [exact H1|]. split; [exact F0|]. rewrite V0, <- V.
  symmetry. rewrite <- V0. apply (feqb_val _ _ F F0), E.
Qed.

(** ** One axis *)

(** [c]: position, [o]: offset; [h]: head, [g]: origin *)
Definition ax (d : R) (c o : num B64) (h g : R) : Prop :=
  near (d + slip) c h /\ near d o g /\ Rabs g <= 2000000.

Lemma ax_le : forall d d' c o h g, ax d c o h g -> d <= d' -> ax d' c o h g.
Proof.
  intros d d' c o h g (H1 & H2 & H3) Hd. split; [apply (near_le _ _ _ _ H1); lra|].
  split; [apply (near_le _ _ _ _ H2 Hd)|exact H3].
Qed.

Lemma ax_move : forall d (rel : bool) c o h g w x, ax d c o h g -> held w x -> d <= / 2 ->
  Rabs (match w with Some v => (if rel then h else g) + v | None => h end) <= 1000000 ->
  ax (d + (if rel then drift else 0)) (axis_move rel o c x) o
     (match w with Some v => (if rel then h else g) + v | None => h end) g.
Proof.
  intros d rel c o h g w x (H1 & H2 & H3) Hx Hd Hv. unfold axis_move.
  assert (S1 : 0 < slip) by (unfold slip; lra). assert (S2 : slip <= / 4) by (unfold slip; lra).
  assert (S3 : 2 * slip <= drift) by (unfold slip, drift; lra).
  destruct rel.
  - split; [|split; [apply (near_le _ _ _ _ H2); lra|exact H3]].
    destruct w as [v|], x as [y|]; try contradiction.
    + apply (near_le (d + slip + slip)); [|lra]. apply add_near; [apply or_zero_holds, Hx|exact H1|lra|lra].
    + change (near (d + drift + slip) (fadd c (n0 (A:=B64))) h). destruct H1 as [F1 V1]. destruct (add_zero c F1) as [F V].
      split; [exact F|]. rewrite V. lra.
  - rewrite Rplus_0_r. split; [|split; assumption].
    destruct w as [v|], x as [y|]; try contradiction; [|exact H1].
    apply add_near'; [exact Hx|exact H2|lra|lra].
Qed.

Lemma ax_rebase : forall d c o h g w x, ax d c o h g -> held w x -> d <= / 2 -> Rabs h <= 1000000 ->
  ax (d + drift) c (axis_rebase x o c) h (match w with Some v => h - v | None => g end).
Proof.
  intros d c o h g w x (H1 & H2 & H3) Hx Hd Hv. unfold axis_rebase.
  assert (S1 : 0 < slip) by (unfold slip; lra). assert (S2 : slip <= / 4) by (unfold slip; lra).
  assert (S3 : 2 * slip <= drift) by (unfold slip, drift; lra).
  split; [apply (near_le _ _ _ _ H1); lra|].
  destruct w as [v|], x as [y|]; try contradiction; [|split; [apply (near_le _ _ _ _ H2); lra|exact H3]].
  destruct (held_near v y Hx) as (_ & _ & Vy). apply Rabs_le_both in Vy, Hv.
  assert (Hb : Rabs (h - v) <= 2000000) by (apply Rabs_le; lra).
  split; [|exact Hb]. apply (near_le (d + slip + slip)); [|lra].
  apply sub_near; [exact Hx|exact H1|exact Hb|lra].
Qed.

Lemma ax_home : forall d (b : bool) c o h g hm hr, ax d c o h g -> fin hm -> fval hm = hr -> 0 <= d ->
  ax d (if b then hm else c) (if b then n0 else o) (if b then hr else h) (if b then 0 else g).
Proof.
  intros d b c o h g hm hr H Hf Hv Hd. destruct b; [|exact H]. assert (0 < slip) by (unfold slip; lra).
  destruct n0_fin as [F0 V0]. split; [|split].
  - split; [exact Hf|]. rewrite Hv. replace (hr - hr) with 0 by lra. rewrite Rabs_R0. lra.
  - split; [exact F0|]. rewrite V0. replace (0 - 0) with 0 by lra. rewrite Rabs_R0. lra.
  - rewrite Rabs_R0. lra.
Qed.

(** ** The state *)

Definition ftracks (d : R) (m : mstate B64) (k : machine) : Prop :=
  m_imperial m = false /\ inches k = false /\ m_relative m = relative k /\
  forall a, ax d (pos m a) (off m a) (head k a) (origin k a) /\ fin (hom m a) /\ fval (hom m a) = home k a.

Definition step_drift (s : string) (k : machine) : nat :=
  match op_of s with
  | SetPosition _ _ => 1%nat
  | Move _ _ _ => if relative k then 1%nat else 0%nat
  | _ => 0%nat
  end.

Lemma truthy_B64 : forall w (x : option (num B64)), held w x ->
  (opt_truthy x = true -> exists v, w = Some v /\ v <> 0) /\
  (forall v, w = Some v -> / 10 ^ 20 <= Rabs v -> opt_truthy x = true).
Proof.
  intros w x H. destruct n0_fin as [F0 V0].
  destruct w as [v|], x as [y|]; try contradiction; [|split; [discriminate|intros v E; discriminate E]].
  destruct H as (_ & Fy & Vy). split.
  - intros Ht. exists v. split; [reflexivity|]. intros ->. cbn in Ht. unfold truthy in Ht.
    apply negb_true_iff in Ht. assert (He : SFeqb y (n0 (A:=B64)) = true).
    { apply (feqb_val _ _ Fy F0). rewrite V0, Vy. apply rnd_0. }
    change (@n_eqb B64) with SFeqb in Ht. congruence.
  - intros v' E Hv. injection E as <-. cbn. unfold truthy. apply negb_true_iff.
    destruct (n_eqb (a:=B64) y n0) eqn:He; [|reflexivity]. exfalso. change (@n_eqb B64) with SFeqb in He.
    apply (feqb_val _ _ Fy F0) in He. rewrite V0, Vy in He.
    pose proof (rnd_err v) as K. rewrite He in K. pose proof ulp1_small as U.
    assert (T : tiny <= bpow radix2 (-70)) by (apply bpow_le; lia).
    replace (0 - v) with (- v) in K by lra. rewrite Rabs_Ropp in K.
    assert (T2 : bpow radix2 (-70) < / 2 * / 10 ^ 20).
    { cbn [bpow]. rewrite <- Rinv_mult. apply Rinv_lt_contravar.
      - apply Rmult_lt_0_compat; [cbn [pow]; lra|apply IZR_lt; reflexivity].
      - replace (2 * 10 ^ 20) with (IZR (2 * 10 ^ 20)) by (rewrite mult_IZR; f_equal; rewrite (pow_IZR 10 20); reflexivity).
        apply IZR_lt. vm_compute. reflexivity. }
    assert (ulp1 * Rabs v <= / 2 * Rabs v) by (apply Rmult_le_compat_r; [apply Rabs_pos|lra]).
    lra.
Qed.

Lemma held_named : forall w (x : option (num B64)), held w x ->
  is_some x = match w with Some _ => true | None => false end.
Proof. intros [v|] [y|] H; try contradiction; reflexivity. Qed.

Lemma drift_pos : 0 < drift.
Proof. unfold drift. lra. Qed.

Lemma update_position_ftracks : forall s c (l : line B64) m k d,
  ftracks d m k -> parsed s c false l -> command_name s = Some c -> plain_line s ->
  (str_mem c move_gcodes = true \/ c = "G28"%string \/ c = "G92"%string) -> 0 <= d <= / 2 ->
  (forall a, Rabs (head k a) <= 1000000) -> (forall a, Rabs (head (exec_line s k) a) <= 1000000) ->
  ftracks (d + INR (step_drift s k) * drift) (update_position l m) (exec_line s k).
Proof.
  intros s c l m k d Ht Hp Hc [Hm Hh] Hkind Hd Hb Hb'. pose proof drift_pos as Dp.
  assert (Hg : first_is "G" c = true).
  { destruct Hkind as [Hk|[-> | ->]]; [|reflexivity|reflexivity].
    unfold str_mem in Hk. cbn in Hk.
    repeat (apply orb_prop in Hk as [Hk|Hk]; [apply String.eqb_eq in Hk; subst c; reflexivity|]).
    discriminate Hk. }
  pose proof (parsed_B64 s c l LX Hp Hg Hm) as Hx.
  pose proof (parsed_B64 s c l LY Hp Hg Hm) as Hy.
  pose proof (parsed_B64 s c l LZ Hp Hg Hm) as Hz.
  cbn [get_arg letter_code] in Hx, Hy, Hz.
  destruct Hp as (_ & Hcmd & Hmv & _ & _).
  destruct Ht as (T1 & T2 & T3 & T4).
  unfold update_position, step_drift, exec_line, op_of in *. rewrite Hc in *.
  rewrite Hmv, Hcmd. unfold l_x, l_y, l_z, l_f.
  change (str_mem c ["G0"; "G1"; "G2"; "G3"]%string) with (str_mem c move_gcodes) in *.
  destruct (str_mem c move_gcodes) eqn:Emv.
  - set (m1 := match a_f (largs l) with Some f => set_feed f m | None => m end).
    assert (M : m_relative m1 = m_relative m /\ m_imperial m1 = m_imperial m /\
      m_x m1 = m_x m /\ m_y m1 = m_y m /\ m_z m1 = m_z m /\
      m_ox m1 = m_ox m /\ m_oy m1 = m_oy m /\ m_oz m1 = m_oz m /\
      m_hx m1 = m_hx m /\ m_hy m1 = m_hy m /\ m_hz m1 = m_hz m).
    { unfold m1. destruct (a_f (largs l)); repeat split. }
    destruct M as (M1 & M2 & M4 & M5 & M6 & M7 & M8 & M9 & M10 & M11 & M12).
    unfold ftracks, exec, set_pos. cbn [m_imperial m_relative inches relative head origin home].
    rewrite M1, M2. repeat (split; [assumption|]).
    replace (INR (if relative k then 1%nat else 0%nat) * drift) with (if relative k then drift else 0)
      by (destruct (relative k); cbn; lra).
    intros a. destruct (T4 a) as (A1 & A2 & A3). specialize (Hb' a). cbn [exec head] in Hb'.
    unfold mm in *. rewrite T2 in *. rewrite T3.
    destruct a; cbn [pos off hom m_x m_y m_z m_ox m_oy m_oz m_hx m_hy m_hz axis_letter] in *;
      rewrite ?M4, ?M5, ?M6, ?M7, ?M8, ?M9, ?M10, ?M11, ?M12; (split; [|split; assumption]).
    + apply (ax_move d (relative k) _ _ _ _ _ _ A1 Hx); [lra|exact Hb'].
    + apply (ax_move d (relative k) _ _ _ _ _ _ A1 Hy); [lra|exact Hb'].
    + apply (ax_move d (relative k) _ _ _ _ _ _ A1 Hz); [lra|exact Hb'].
  - destruct Hkind as [Hk|[-> | ->]]; [discriminate Hk| |].
    + cbn [cmd_is] in *. change (String.eqb "G28" "G28") with true in *. cbv iota in *.
      set (w := fun a => number_of (axis_letter a) (words s)) in *.
      assert (Hall : negb (opt_truthy (a_x (largs l)) || opt_truthy (a_y (largs l)) || opt_truthy (a_z (largs l)))
                     = negb (named w X || named w Y || named w Z)).
      { destruct (truthy_B64 _ _ Hx) as [Ax Bx]. destruct (truthy_B64 _ _ Hy) as [Ay By].
        destruct (truthy_B64 _ _ Hz) as [Az Bz].
        destruct Hh as [Hnone|(a & v & Hv & Hv0)].
        - pose proof (Hnone X) as Nx. pose proof (Hnone Y) as Ny. pose proof (Hnone Z) as Nz.
          unfold w in Nx, Ny, Nz. cbn [axis_letter] in Nx, Ny, Nz.
          rewrite Nx in Hx. rewrite Ny in Hy. rewrite Nz in Hz. unfold named, w. cbn [axis_letter].
          rewrite Nx, Ny, Nz.
          destruct (a_x (largs l)); [destruct Hx|]. destruct (a_y (largs l)); [destruct Hy|].
          destruct (a_z (largs l)); [destruct Hz|]. reflexivity.
        - assert (Hn : named w X || named w Y || named w Z = true).
          { unfold named. destruct a; rewrite Hv; repeat rewrite orb_true_r; reflexivity. }
          assert (Ho : opt_truthy (a_x (largs l)) || opt_truthy (a_y (largs l)) || opt_truthy (a_z (largs l)) = true).
          { destruct a; [rewrite (Bx v)|rewrite (By v)|rewrite (Bz v)]; repeat rewrite orb_true_r; try reflexivity; assumption. }
          rewrite Hn, Ho. reflexivity. }
      rewrite Hall. set (all := negb (named w X || named w Y || named w Z)).
      unfold axis_home.
      rewrite (held_named _ _ Hx), (held_named _ _ Hy), (held_named _ _ Hz).
      change (match number_of "x" (words s) with Some _ => true | None => false end) with (named w X).
      change (match number_of "y" (words s) with Some _ => true | None => false end) with (named w Y).
      change (match number_of "z" (words s) with Some _ => true | None => false end) with (named w Z).
      cbn [INR]. rewrite Rmult_0_l, Rplus_0_r.
      unfold ftracks, exec. fold all. cbn [inches relative head origin home].
      destruct (T4 X) as (X1 & X2 & X3). destruct (T4 Y) as (Y1 & Y2 & Y3). destruct (T4 Z) as (Z1 & Z2 & Z3).
      pose proof (ax_home d (all || named w X) _ _ _ _ _ _ X1 X2 X3 (proj1 Hd)) as HX.
      pose proof (ax_home d (all || named w Y) _ _ _ _ _ _ Y1 Y2 Y3 (proj1 Hd)) as HY.
      pose proof (ax_home d (all || named w Z) _ _ _ _ _ _ Z1 Z2 Z3 (proj1 Hd)) as HZ.
      destruct (all || named w X) eqn:D1, (all || named w Y) eqn:D2, (all || named w Z) eqn:D3;
        (split; [exact T1|]; split; [exact T2|]; split; [exact T3|]);
        intros [| |]; cbn [pos off hom m_x m_y m_z m_ox m_oy m_oz m_hx m_hy m_hz set_off set_pos];
        cbv zeta; fold all; rewrite ?D1, ?D2, ?D3; first [exact (conj HX (conj X2 X3))|exact (conj HY (conj Y2 Y3))|exact (conj HZ (conj Z2 Z3))].
    + change (str_mem "G92" ["G0"; "G1"; "G2"; "G3"]%string) with false.
      cbn [cmd_is]. change (String.eqb "G92" "G28") with false in *. change (String.eqb "G92" "G92") with true in *.
      cbv iota in *. unfold ftracks, exec. rewrite Hh.
      split; [exact T1|]. split; [exact T2|]. split; [exact T3|].
      cbn [INR]. rewrite Rmult_1_l. unfold mm. rewrite T2. cbn [head origin home].
      intros a. destruct (T4 a) as (A1 & A2 & A3). specialize (Hb a). split; [|destruct a; exact (conj A2 A3)].
      destruct a; cbn [pos off hom m_x m_y m_z m_ox m_oy m_oz set_off axis_letter] in *.
      * apply (ax_rebase d _ _ _ _ _ _ A1 Hx); [lra|exact Hb].
      * apply (ax_rebase d _ _ _ _ _ _ A1 Hy); [lra|exact Hb].
      * apply (ax_rebase d _ _ _ _ _ _ A1 Hz); [lra|exact Hb].
Qed.

Lemma motion_ftracks : forall s (l : line B64) m m' k d,
  ftracks d m k -> plain_line s -> motion_step m (new_line s) = Ok (m', l) -> 0 <= d <= / 2 ->
  (forall a, Rabs (head k a) <= 1000000) -> (forall a, Rabs (head (exec_line s k) a) <= 1000000) ->
  ftracks (d + INR (step_drift s k) * drift) m' (exec_line s k).
Proof.
  intros s l m m' k d Ht Hh H Hd Hb Hb'.
  destruct (command_name s) as [c|] eqn:Hc.
  - destruct (motion_some _ _ _ _ _ Hc H) as (s1 & l1 & ext & H1 & H2 & H3 & _).
    destruct (update_extrusion_fixed _ _ _ _ H3) as
      (X1 & X2 & X3 & X4 & X5 & X6 & X7 & X8 & X9 & X10 & X11 & X12 & X13 & X14).
    assert (Hpos : ftracks (d + INR (step_drift s k) * drift) (update_position l1 s1) (exec_line s k)).
    { pose proof (update_modes_modes _ _ _ _ Hc H1) as
        (M1 & M2 & M3 & M4 & M5 & M6 & M7 & M8 & M9 & M10 & M11 & M12 & M13 & _).
      assert (Hk : {str_mem c move_gcodes = true \/ c = "G28"%string \/ c = "G92"%string} +
                   {str_mem c move_gcodes = false /\ String.eqb c "G28" = false /\ String.eqb c "G92" = false}).
      { destruct (str_mem c move_gcodes); [left; auto|].
        destruct (String.eqb c "G28") eqn:E1; [left; right; left; apply String.eqb_eq, E1|].
        destruct (String.eqb c "G92") eqn:E2; [left; right; right; apply String.eqb_eq, E2|].
        right. auto. }
      destruct Hk as [Hk|(K1 & K2 & K3)].
      - assert (Hs1 : s1 = m).
        { destruct Hk as [Hk|[-> | ->]].
          - rewrite Hk in H1. cbn in H1. congruence.
          - cbn in H1. congruence.
          - cbn in H1. congruence. }
        subst s1. assert (Ti : m_imperial m = false) by apply Ht. rewrite Ti in H2.
        apply (update_position_ftracks _ _ _ _ _ _ Ht H2 Hc Hh Hk Hd Hb Hb').
      - destruct H2 as (_ & Hcmd & Hmv & _).
        unfold update_position. rewrite Hmv, Hcmd. cbn [cmd_is]. rewrite K1, K2, K3.
        destruct Ht as (T1 & T2 & T3 & T4).
        assert (Hop : match op_of s with Move _ _ _ | Home _ | SetPosition _ _ => False | _ => True end).
        { unfold op_of. rewrite Hc. change (str_mem c ["G0"; "G1"; "G2"; "G3"]%string) with (str_mem c move_gcodes).
          rewrite K1, K2, K3.
          repeat match goal with |- context [if String.eqb c ?x then _ else _] =>
            destruct (String.eqb c x); [exact I|] end.
          destruct c as [|e t]; [exact I|]. clear. all_chars e; exact I. }
        destruct Hh as [_ Hh]. unfold ftracks, step_drift, exec_line. rewrite M1, M3. unfold mode_rel, mode_inch.
        assert (P : forall a, pos s1 a = pos m a /\ off s1 a = off m a /\ hom s1 a = hom m a)
          by (intros []; cbn [pos off hom]; auto).
        destruct (op_of s); try contradiction; cbn [exec inches relative head origin home INR];
          rewrite Rmult_0_l, Rplus_0_r; (split; [assumption || reflexivity|]; split; [assumption || reflexivity|];
          split; [assumption || reflexivity|]); intros a; destruct (P a) as (-> & -> & ->); apply T4. }
    destruct Hpos as (P1 & P2 & P3 & P4). split; [congruence|]. split; [exact P2|]. split; [congruence|].
    intros a. specialize (P4 a). destruct a; cbn [pos off hom] in *; congruence.
  - destruct (motion_none _ _ _ _ Hc H) as (-> & _). unfold exec_line, step_drift, op_of. rewrite Hc.
    cbn [exec INR]. rewrite Rmult_0_l, Rplus_0_r. exact Ht.
Qed.

Lemma trace_ftracks : forall ts ls (m m' : mstate B64), trace m ts ls m' -> Forall plain_line ts ->
  forall k d, ftracks d m k -> in_volume ts k -> 0 <= d -> d + INR (drifts ts k) * drift <= / 2 ->
  ftracks (d + INR (drifts ts k) * drift) m' (run ts k) /\
  forall i l, nth_error ls i = Some l -> command l <> None ->
    notes_near (d + INR (drifts ts k) * drift + slip) l (run (firstn (S i) ts) k).
Proof.
  pose proof drift_pos as Dp.
  intros ts ls m m' H. induction H as [m|m s l m1 ts ls m' Hs Ht IH]; intros Hh k d Hk Hv Hd Hb.
  - cbn [drifts INR run fold_left]. rewrite Rmult_0_l, Rplus_0_r. split; [exact Hk|].
    intros i l Hi. destruct i; discriminate Hi.
  - inversion Hh as [|? ? Hh1 Hh2]; subst.
    assert (E6 : 10 ^ 6 = 1000000) by (cbn [pow]; lra).
    assert (V0 : forall a, Rabs (head k a) <= 1000000) by (intros a; rewrite <- E6; apply (Hv 0%nat a)).
    assert (V1 : forall a, Rabs (head (exec_line s k) a) <= 1000000) by (intros a; rewrite <- E6; apply (Hv 1%nat a)).
    assert (V2 : in_volume ts (exec_line s k)) by (intros i a; apply (Hv (S i) a)).
    assert (En : drifts (s :: ts) k = (step_drift s k + drifts ts (exec_line s k))%nat) by reflexivity.
    rewrite En, plus_INR, Rmult_plus_distr_r in *.
    assert (P1 : 0 <= INR (step_drift s k) * drift) by (apply Rmult_le_pos; [apply pos_INR|lra]).
    assert (P2 : 0 <= INR (drifts ts (exec_line s k)) * drift) by (apply Rmult_le_pos; [apply pos_INR|lra]).
    assert (T : ftracks (d + INR (step_drift s k) * drift) m1 (exec_line s k))
      by (apply (motion_ftracks _ _ _ _ _ _ Hk Hh1 Hs); [lra|exact V0|exact V1]).
    destruct (IH Hh2 _ (d + INR (step_drift s k) * drift) T V2) as (IH1 & IH2); [lra|lra|].
    rewrite <- !Rplus_assoc. split; [exact IH1|].
    intros i l0 Hi Hc. destruct i as [|i]; cbn [nth_error] in Hi.
    + injection Hi as <-. destruct (motion_notes _ _ _ _ Hs Hc) as (N1 & N2 & N3 & _).
      destruct T as (_ & _ & _ & T). exists (m_x m1), (m_y m1), (m_z m1).
      split; [exact N1|]. split; [exact N2|]. split; [exact N3|].
      split; [|split].
      * destruct (T X) as ((A & _) & _). apply (near_le _ _ _ _ A). lra.
      * destruct (T Y) as ((A & _) & _). apply (near_le _ _ _ _ A). lra.
      * destruct (T Z) as ((A & _) & _). apply (near_le _ _ _ _ A). lra.
    + apply (IH2 i l0 Hi Hc).
Qed.

Lemma init_ftracks : forall h, fhome_fin h -> ftracks 0 (init_mstate h) (start (fhome_of h)).
Proof.
  intros [[hx hy] hz] (H1 & H2 & H3). cbn [fst snd] in *. destruct n0_fin as [F0 V0].
  assert (A : ax 0 (n0 (A:=B64)) (n0 (A:=B64)) 0 0).
  { assert (N : forall d, 0 <= d -> near d (n0 (A:=B64)) 0).
    { intros d Hd. split; [exact F0|]. rewrite V0. replace (0 - 0) with 0 by lra. rewrite Rabs_R0. exact Hd. }
    split; [apply N; unfold slip; lra|]. split; [apply N; lra|]. rewrite Rabs_R0. lra. }
  split; [reflexivity|]. split; [reflexivity|]. split; [reflexivity|].
  intros []; (split; [exact A|]); split; try assumption; reflexivity.
Qed.

Lemma load_ftracks : forall light home data (g : gcode B64), load_gen light home data = Ok g ->
  Forall plain_line (program_text data) -> fhome_fin home ->
  in_volume (program_text data) (start (fhome_of home)) ->
  INR (drifts (program_text data) (start (fhome_of home))) <= 10 ^ 8 ->
  let d := (INR (drifts (program_text data) (start (fhome_of home))) + 1) * / 10 ^ 9 in
  state_near d (g_m g) (run (program_text data) (start (fhome_of home))) /\
  (light = false -> forall i l, nth_error (g_lines g) i = Some l -> command l <> None ->
   notes_near d l (run (firstn (S i) (program_text data)) (start (fhome_of home)))).
Proof.
  intros light home data g H Hh Hf Hv Hn d. apply load_trace in H as (ls & Ht & Hl).
  assert (Hd : 0 + INR (drifts (program_text data) (start (fhome_of home))) * drift + slip <= d).
  { unfold d, drift, slip. replace (10 ^ 9) with 1000000000 by (cbn [pow]; lra). lra. }
  assert (Hb : 0 + INR (drifts (program_text data) (start (fhome_of home))) * drift <= / 2).
  { unfold drift. replace (10 ^ 8) with 100000000 in Hn by (cbn [pow]; lra). lra. }
  destruct (trace_ftracks _ _ _ _ Ht Hh _ 0 (init_ftracks home Hf) Hv (Rle_refl 0) Hb) as (T1 & T2).
  split.
  - destruct T1 as (_ & _ & _ & T). split; [|split].
    + destruct (T X) as ((A & _) & _). apply (near_le _ _ _ _ A Hd).
    + destruct (T Y) as ((A & _) & _). apply (near_le _ _ _ _ A Hd).
    + destruct (T Z) as ((A & _) & _). apply (near_le _ _ _ _ A Hd).
  - intros Hlt. rewrite (Hl Hlt). intros i l Hi Hc. destruct (T2 i l Hi Hc) as (x & y & z & E1 & E2 & E3 & N1 & N2 & N3).
    exists x, y, z. split; [exact E1|]. split; [exact E2|]. split; [exact E3|].
    split; [apply (near_le _ _ _ _ N1 Hd)|]. split; [apply (near_le _ _ _ _ N2 Hd)|apply (near_le _ _ _ _ N3 Hd)].
Qed.

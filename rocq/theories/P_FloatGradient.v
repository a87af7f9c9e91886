(** * P_FloatGradient: the temperature gradients for IEEE doubles *)
From Coq Require Import List String ZArith NArith Bool Reals Lra Lia Floats.SpecFloat.
From Flocq Require Import Core Round Relative BinarySingleNaN.
From Verif Require Import PyBase Arith ArithB64 Gcoder Tempcal SpecTempcal SpecBinary64 SpecFloatTempcal.
From Verif Require Import P_Tempcal P_Float P_FloatText P_FloatTempcal.
Import ListNotations.
Local Open Scope list_scope.
Local Open Scope R_scope.

(** ** Rounding errors *)

Definition uu : R := / 4000000000000000.

Lemma uu_pos : 0 < uu.
Proof. unfold uu. lra. Qed.

Lemma tiny_small : tiny <= / 10 ^ 60.
Proof.
  unfold tiny. apply Rle_trans with (bpow radix2 (-200)); [apply bpow_le; lia|].
  change (bpow radix2 (-200)) with (/ IZR (2 ^ 200)). apply Rinv_le_contravar; [apply pow_lt; lra|].
  replace (10 ^ 60) with (IZR (10 ^ 60)) by (rewrite pow_IZR; reflexivity). apply IZR_le. vm_compute. discriminate.
Qed.

Lemma rnd_rel : forall x B, Rabs x <= B -> / 10 ^ 30 <= B -> Rabs (rnd x - x) <= B * uu.
Proof.
  intros x B Hx HB. pose proof (rnd_err x) as H. pose proof tiny_small as Ht.
  assert (Hu : ulp1 <= / 8000000000000000).
  { unfold ulp1. change (bpow radix2 (-53)) with (/ 9007199254740992). lra. }
  assert (Hu0 : 0 <= ulp1) by apply bpow_ge_0. pose proof (Rabs_pos x) as Hp.
  assert (H1 : ulp1 * Rabs x <= / 8000000000000000 * B) by (apply Rmult_le_compat; assumption).
  assert (H2 : / 10 ^ 60 <= / 8000000000000000 * / 10 ^ 30).
  { rewrite <- Rinv_mult. apply Rinv_le_contravar; lra. }
  assert (H3 : / 8000000000000000 * / 10 ^ 30 <= / 8000000000000000 * B) by (apply Rmult_le_compat_l; lra).
  unfold uu. lra.
Qed.

Lemma rnd_le : forall x y, x <= y -> rnd x <= rnd y.
Proof. intros x y H. apply round_le; [apply fexp_correct; reflexivity|apply valid_rnd_N|exact H]. Qed.

Lemma rnd_nonneg : forall x, 0 <= x -> 0 <= rnd x.
Proof. intros x H. rewrite <- rnd_0. apply rnd_le, H. Qed.

Lemma big_trillion : forall x, Rabs x <= 10 ^ 40 -> Rabs x <= big.
Proof.
  intros x H. eapply Rle_trans; [exact H|]. unfold big.
  apply Rle_trans with (bpow radix2 140); [|apply bpow_le; vm_compute; discriminate].
  change (bpow radix2 140) with (IZR (2 ^ 140)). replace (10 ^ 40) with (IZR (10 ^ 40)) by (rewrite pow_IZR; reflexivity).
  apply IZR_le. vm_compute. discriminate.
Qed.

(** ** The number of steps *)

Lemma int_exact : forall n, (0 <= n <= 2000000)%Z -> fin (n_of_Z (A:=B64) n) /\ fval (n_of_Z (A:=B64) n) = IZR n.
Proof.
  intros n Hn. unfold n_of_Z. destruct (Z.ltb_spec n 0) as [Hl|_]; [lia|].
  destruct (fin_lit (Z.abs_N n) ltac:(lia)) as [F V]. unfold lit in F, V. split; [exact F|]. rewrite V.
  rewrite N2Z.inj_abs_N, Z.abs_eq by lia. apply round_generic; [apply valid_rnd_N|].
  apply generic_format_FLT. apply FLT_spec with (Float radix2 n 0).
  - unfold F2R. cbn. ring.
  - cbn. lia.
  - cbn. lia.
Qed.

(** ** Progress *)

Section Progress.
Variables zmin zmax z : num B64.
Hypothesis Fmin : modest_num zmin.
Hypothesis Fmax : modest_num zmax.
Hypothesis Fz : modest_num z.
Hypothesis Hgap : / 10 ^ 9 <= fval zmax - fval zmin.
Hypothesis Hz : fval zmin <= fval z <= fval zmax.

Let D := fval zmax - fval zmin.
Let W := fval z - fval zmin.

Lemma span_val : fin (fsub zmax zmin) /\ fval (fsub zmax zmin) = rnd D /\ D * (1 - uu) <= rnd D <= D * (1 + uu).
Proof.
  destruct Fmin as [F1 B1], Fmax as [F2 B2]. apply Rabs_le_both in B1, B2.
  destruct (fsub_val _ _ F2 F1) as [F V].
  { apply big_trillion. apply Rabs_le. lra. }
  split; [exact F|]. split; [exact V|]. fold D.
  assert (H : Rabs (rnd D - D) <= D * uu).
  { apply rnd_rel; [rewrite Rabs_pos_eq; unfold D; lra|unfold D]. lra. }
  apply Rabs_le_both in H. lra.
Qed.

Lemma rise_val : fin (fsub z zmin) /\ fval (fsub z zmin) = rnd W /\ 0 <= rnd W <= rnd D /\ Rabs (rnd W - W) <= D * uu.
Proof.
  destruct Fmin as [F1 B1], Fz as [F2 B2]. apply Rabs_le_both in B1, B2.
  destruct (fsub_val _ _ F2 F1) as [F V].
  { apply big_trillion. apply Rabs_le. lra. }
  split; [exact F|]. split; [exact V|]. fold W. split.
  - split; [apply rnd_nonneg; unfold W; lra|apply rnd_le; unfold W, D; lra].
  - apply rnd_rel; [rewrite Rabs_pos_eq; unfold W, D; lra|unfold D; lra].
Qed.

Lemma ratio : 0 <= rnd W / rnd D <= 1 /\ Rabs (rnd W / rnd D - W / D) <= 3 * uu.
Proof.
  destruct span_val as (_ & _ & HD). destruct rise_val as (_ & _ & HW & EW).
  pose proof uu_pos as Hu. assert (HD0 : 0 < D) by (unfold D; lra). assert (Hs : uu <= / 1000) by (unfold uu; lra).
  assert (HD1 : 0 < rnd D) by nra. assert (Hi : 0 < / rnd D) by (apply Rinv_0_lt_compat, HD1).
  split.
  - split; [apply Rmult_le_pos; lra|]. apply Rmult_le_reg_r with (rnd D); [exact HD1|].
    unfold Rdiv. rewrite Rmult_assoc, Rinv_l by lra. lra.
  - replace (rnd W / rnd D - W / D) with (((rnd W - W) * D - (rnd D - D) * W) * / (rnd D * D)) by (field; lra).
    rewrite Rabs_mult, (Rabs_pos_eq (/ _)) by (left; apply Rinv_0_lt_compat, Rmult_lt_0_compat; lra).
    apply Rmult_le_reg_r with (rnd D * D); [apply Rmult_lt_0_compat; lra|].
    rewrite Rmult_assoc, Rinv_l, Rmult_1_r by (apply Rmult_integral_contrapositive_currified; lra).
    assert (HWD : 0 <= W <= D) by (unfold W, D; lra).
    assert (H1 : Rabs ((rnd W - W) * D) <= D * uu * D).
    { rewrite Rabs_mult, (Rabs_pos_eq D) by lra. apply Rmult_le_compat_r; lra. }
    assert (H2 : Rabs ((rnd D - D) * W) <= D * uu * D).
    { rewrite Rabs_mult, (Rabs_pos_eq W) by lra. apply Rmult_le_compat; try lra; [apply Rabs_pos|].
      apply Rabs_le. lra. }
    apply Rabs_le_both in H1, H2. apply Rle_trans with (2 * (D * uu * D)); [apply Rabs_le; lra|].
    assert (H3 : D * (1 - uu) * D <= rnd D * D) by (apply Rmult_le_compat_r; lra).
    assert (H4 : 3 * uu * (D * (1 - uu) * D) <= 3 * uu * (rnd D * D)) by (apply Rmult_le_compat_l; lra).
    assert (H5 : 2 * (D * uu * D) <= 3 * uu * (D * (1 - uu) * D)); [|lra].
    replace (2 * (D * uu * D)) with (D * D * uu * 2) by ring.
    replace (3 * uu * (D * (1 - uu) * D)) with (D * D * uu * (3 * (1 - uu))) by ring.
    apply Rmult_le_compat_l; [|lra]. apply Rmult_le_pos; [apply Rmult_le_pos|]; lra.
Qed.

End Progress.

(** ** The temperatures *)

Section Temps.
Variables s e zmin zmax z : num B64.
Hypothesis Fs : modest_num s.
Hypothesis Fe : modest_num e.
Hypothesis Fmin : modest_num zmin.
Hypothesis Fmax : modest_num zmax.
Hypothesis Fz : modest_num z.
Hypothesis Hgap : / 10 ^ 9 <= fval zmax - fval zmin.
Hypothesis Hz : fval zmin <= fval z <= fval zmax.

Let D := fval zmax - fval zmin.
Let W := fval z - fval zmin.
Let S := fval e - fval s.
Let q := rnd W / rnd D.

Lemma change_val : fin (fsub e s) /\ fval (fsub e s) = rnd S /\ Rabs (rnd S - S) <= 2000000 * uu /\
  Rabs S <= 2000000 /\ Rabs (rnd S) <= 3000000.
Proof.
  destruct Fs as [F1 B1], Fe as [F2 B2]. apply Rabs_le_both in B1, B2.
  destruct (fsub_val _ _ F2 F1) as [F V].
  { apply big_trillion. apply Rabs_le. lra. }
  split; [exact F|]. split; [exact V|].
  assert (HS : Rabs S <= 2000000) by (apply Rabs_le; unfold S; lra).
  assert (HE : Rabs (rnd S - S) <= 2000000 * uu) by (apply rnd_rel; [exact HS|lra]).
  split; [exact HE|]. split; [exact HS|]. apply Rabs_le_both in HS, HE. apply Rabs_le. unfold uu in HE. lra.
Qed.

Lemma near_mul : forall a a' b b' da db A B, Rabs (a' - a) <= da -> Rabs (b' - b) <= db -> Rabs a' <= A -> Rabs b <= B ->
  Rabs (a' * b' - a * b) <= A * db + da * B.
Proof.
  intros a a' b b' da db A B Ha Hb HA HB.
  replace (a' * b' - a * b) with (a' * (b' - b) + (a' - a) * b) by ring.
  eapply Rle_trans; [apply Rabs_triang|]. rewrite !Rabs_mult.
  apply Rplus_le_compat; apply Rmult_le_compat; try assumption; apply Rabs_pos.
Qed.

Lemma near_trans : forall a b c d1 d2 d, Rabs (a - b) <= d1 -> Rabs (b - c) <= d2 -> d1 + d2 <= d -> Rabs (a - c) <= d.
Proof.
  intros a b c d1 d2 d H1 H2 H. apply Rabs_le_both in H1, H2. apply Rabs_le. lra.
Qed.

Lemma near_size : forall a b d B B', Rabs (a - b) <= d -> Rabs b <= B -> B + d <= B' -> Rabs a <= B'.
Proof. intros a b d B B' H1 H2 H. apply Rabs_le_both in H1, H2. apply Rabs_le. lra. Qed.

Lemma span_pos : 0 < rnd D /\ rnd D <= 3000000 /\ / 2000000000 <= rnd D.
Proof.
  destruct (span_val zmin zmax Fmin Fmax Hgap) as (_ & _ & H). fold D in H.
  destruct Fmin as [_ B1], Fmax as [_ B2]. apply Rabs_le_both in B1, B2.
  assert (D <= 2000000) by (unfold D; lra). assert (/ 10 ^ 9 <= D) by exact Hgap.
  assert (uu <= / 1000) by (unfold uu; lra). pose proof uu_pos.
  assert (D * uu <= D * / 1000) by (apply Rmult_le_compat_l; lra).
  split; [lra|]. split; lra.
Qed.

Lemma span_div : forall a : num B64, py_div (A:=B64) a (fsub zmax zmin) = Ok (fdiv a (fsub zmax zmin)).
Proof.
  intros a. destruct (span_val zmin zmax Fmin Fmax Hgap) as (F & V & _). destruct span_pos as (HD & _).
  unfold py_div. destruct (n_eqb (a:=B64) (fsub zmax zmin) n0) eqn:Eb; [|reflexivity].
  assert (F0 : fin (n0 (A:=B64)) /\ fval (n0 (A:=B64)) = 0) by (split; [split; reflexivity|reflexivity]).
  apply (feqb_val _ _ F (proj1 F0)) in Eb. rewrite (proj2 F0), V in Eb. fold D in Eb. lra.
Qed.

Lemma continuous_near : exists d, continuous_delta s e zmin zmax = Ok d /\
  fin (continuous_temp s d zmin z) /\
  Rabs (fval (continuous_temp s d zmin z) - target Continuous (fval s) (fval e) (fval zmin) (fval zmax) (fval z)) <= / 10 ^ 7.
Proof.
  destruct (span_val zmin zmax Fmin Fmax Hgap) as (FD & VD & _). destruct span_pos as (HD & HD3 & HD9).
  destruct (rise_val zmin zmax z Fmin Fz Hgap Hz) as (FW & VW & HW & _).
  destruct (ratio zmin zmax z Fmin Fmax Fz Hgap Hz) as [Hq Eq].
  destruct change_val as (FS & VS & ES & BS & BS').
  fold D in VD, HW, Hq, Eq. fold W in VW, HW, Hq, Eq. fold q in Hq, Eq.
  unfold continuous_delta. change (@n_sub B64) with fsub. rewrite span_div. eexists. split; [reflexivity|].
  unfold continuous_temp. change (@n_add B64) with fadd. change (@n_mul B64) with fmul. change (@n_sub B64) with fsub.
  assert (Hi : / rnd D <= 2000000000).
  { rewrite <- (Rinv_inv 2000000000). apply Rinv_le_contravar; lra. }
  assert (Hi0 : 0 < / rnd D) by (apply Rinv_0_lt_compat, HD).
  assert (Hi3 : / 3000000 <= / rnd D) by (apply Rinv_le_contravar; lra).
  assert (Bd : Rabs (rnd S / rnd D) <= 3000000 * / rnd D).
  { unfold Rdiv. rewrite Rabs_mult, (Rabs_pos_eq (/ rnd D)) by lra. apply Rmult_le_compat_r; lra. }
  destruct (fdiv_val (fsub e s) (fsub zmax zmin) FS FD) as [Fd Vd].
  { rewrite VD. lra. }
  { rewrite VS, VD. apply big_trillion. eapply Rle_trans; [exact Bd|]. lra. }
  rewrite VS, VD in Vd. set (dl := fdiv (fsub e s) (fsub zmax zmin)) in *.
  assert (Ed : Rabs (fval dl - rnd S / rnd D) <= 3000000 * / rnd D * uu).
  { rewrite Vd. apply rnd_rel; [exact Bd|]. lra. }
  assert (Em : Rabs (fval dl * rnd W - rnd S * q) <= 3000000 * uu).
  { unfold q. replace (fval dl * rnd W - rnd S * (rnd W / rnd D)) with ((fval dl - rnd S / rnd D) * rnd W) by (field; lra).
    rewrite Rabs_mult, (Rabs_pos_eq (rnd W)) by lra.
    apply Rle_trans with (3000000 * / rnd D * uu * rnd D).
    - apply Rmult_le_compat; [apply Rabs_pos|lra|exact Ed|lra].
    - apply Req_le. field. lra. }
  assert (Eq2 : Rabs (rnd S * q - S * (W / D)) <= 3000000 * (3 * uu) + 2000000 * uu * 1).
  { apply near_mul; [exact ES|exact Eq|exact BS'|].
    destruct (progress_range (fval zmin) (fval zmax) (fval z) ltac:(lra) Hz) as [P1 P2].
    change (fval z - fval zmin) with W in P1, P2. change (fval zmax - fval zmin) with D in P1, P2.
    rewrite Rabs_pos_eq; lra. }
  pose proof uu_pos as Hu.
  assert (Bq : Rabs (rnd S * q) <= 3000000 * 1).
  { rewrite Rabs_mult, (Rabs_pos_eq q) by lra. apply Rmult_le_compat; try lra. apply Rabs_pos. }
  assert (Bm : Rabs (fval dl * rnd W) <= 4000000).
  { apply (near_size _ _ _ _ _ Em Bq). unfold uu. lra. }
  destruct (fmul_val dl (fsub z zmin) Fd FW) as [Fm Vm].
  { rewrite VW. apply big_trillion. lra. }
  rewrite VW in Vm. set (ml := fmul dl (fsub z zmin)) in *.
  assert (Er : Rabs (fval ml - fval dl * rnd W) <= 4000000 * uu).
  { rewrite Vm. apply rnd_rel; [exact Bm|lra]. }
  assert (Bl : Rabs (fval ml) <= 5000000) by (apply (near_size _ _ _ _ _ Er Bm); unfold uu; lra).
  destruct Fs as [F1 B1]. assert (Ba : Rabs (fval s + fval ml) <= 6000000).
  { apply Rabs_le_both in B1, Bl. apply Rabs_le. lra. }
  destruct (fadd_val s ml F1 Fm) as [Fa Va]; [apply big_trillion; lra|].
  split; [exact Fa|]. rewrite Va. cbn [target]. unfold linear.
  change (fval z - fval zmin) with W. change (fval zmax - fval zmin) with D. change (fval e - fval s) with S.
  assert (Et : Rabs (rnd (fval s + fval ml) - (fval s + fval ml)) <= 6000000 * uu) by (apply rnd_rel; [exact Ba|lra]).
  apply Rabs_le_both in Et, Er, Eq2, Em. apply Rabs_le. unfold uu in *. lra.
Qed.

Lemma step_near : forall n, (1 <= n <= 1000000)%Z ->
  exists a b c t, step_init s e (StepsInt n) = Ok (a, b, c) /\ step_temp s a b c zmin zmax z = Ok t /\ fin t /\
    Rabs (fval t - target (Steps (StepsInt n)) (fval s) (fval e) (fval zmin) (fval zmax) (fval z)) <= / 10 ^ 7.
Proof.
  intros n Hn.
  destruct (span_val zmin zmax Fmin Fmax Hgap) as (FD & VD & _). destruct span_pos as (HD & HD3 & HD9).
  destruct (rise_val zmin zmax z Fmin Fz Hgap Hz) as (FW & VW & HW & _).
  destruct (ratio zmin zmax z Fmin Fmax Fz Hgap Hz) as [Hq Eq].
  destruct change_val as (FS & VS & ES & BS & BS').
  fold D in VD, HW, Hq, Eq. fold W in VW, HW, Hq, Eq. fold q in Hq, Eq.
  pose proof uu_pos as Hu. assert (Hus : uu <= / 1000000000000000) by (unfold uu; lra).
  destruct (int_exact n ltac:(lia)) as [Fn Vn]. destruct (int_exact (n + 1) ltac:(lia)) as [Fk Vk].
  assert (Hn1 : 1 <= IZR n) by (apply (IZR_le 1); lia). assert (Hn6 : IZR n <= 1000000) by (apply IZR_le; lia).
  rewrite plus_IZR in Vk.
  assert (F0 : fin (n0 (A:=B64)) /\ fval (n0 (A:=B64)) = 0) by (split; [split; reflexivity|reflexivity]).
  assert (Dv : forall a b : num B64, fin b -> fval b <> 0 -> py_div (A:=B64) a b = Ok (fdiv a b)).
  { intros a b Fb Hb. unfold py_div. destruct (n_eqb (a:=B64) b n0) eqn:Eb; [|reflexivity].
    apply (feqb_val _ _ Fb (proj1 F0)) in Eb. rewrite (proj2 F0) in Eb. contradiction. }
  assert (Hin : 0 < / IZR n <= 1).
  { split; [apply Rinv_0_lt_compat; lra|]. rewrite <- Rinv_1. apply Rinv_le_contravar; lra. }
  (* the end of the steeper line *)
  unfold step_init. change (@n_sub B64) with fsub. rewrite (Dv _ _ Fn) by lra. cbn [bind].
  assert (Bd : Rabs (rnd S / IZR n) <= 3000000).
  { unfold Rdiv. rewrite Rabs_mult, (Rabs_pos_eq (/ IZR n)) by lra.
    replace 3000000 with (3000000 * 1) by ring. apply Rmult_le_compat; try lra. apply Rabs_pos. }
  destruct (fdiv_val (fsub e s) (n_of_Z (A:=B64) n) FS Fn) as [Fd Vd]; [lra|rewrite VS, Vn; apply big_trillion; lra|].
  rewrite VS, Vn in Vd. change (n_of_Z (A:=B64) n) with (n_of_Z (A:=B64) n) in *.
  set (dl := fdiv (fsub e s) (n_of_Z (A:=B64) n)) in *.
  assert (Ed : Rabs (fval dl - S / IZR n) <= 5000000 * uu).
  { apply near_trans with (rnd S / IZR n) (3000000 * uu) (2000000 * uu); [rewrite Vd; apply rnd_rel; [exact Bd|lra]| |lra].
    replace (rnd S / IZR n - S / IZR n) with ((rnd S - S) * / IZR n) by (field; lra).
    rewrite Rabs_mult, (Rabs_pos_eq (/ IZR n)) by lra.
    replace (2000000 * uu) with (2000000 * uu * 1) by ring. apply Rmult_le_compat; try lra. apply Rabs_pos. }
  assert (BSn : Rabs (S / IZR n) <= 2000000).
  { unfold Rdiv. rewrite Rabs_mult, (Rabs_pos_eq (/ IZR n)) by lra.
    replace 2000000 with (2000000 * 1) by ring. apply Rmult_le_compat; try lra. apply Rabs_pos. }
  destruct Fs as [F1 B1]. destruct Fe as [F2 B2]. apply Rabs_le_both in B1, B2.
  destruct (fadd_val e dl F2 Fd) as [Fa Va].
  { apply big_trillion. apply Rabs_le_both in Ed, BSn. apply Rabs_le. lra. }
  set (se := fadd e dl) in *. change (@n_add B64) with fadd. fold se.
  assert (Ea : Rabs (fval se - (fval e + S / IZR n)) <= 9000000 * uu).
  { apply near_trans with (fval e + fval dl) (4000000 * uu) (5000000 * uu); [rewrite Va; apply rnd_rel; [|lra]| |lra].
    - apply Rabs_le_both in Ed, BSn. apply Rabs_le. lra.
    - replace (fval e + fval dl - (fval e + S / IZR n)) with (fval dl - S / IZR n) by ring. exact Ed. }
  do 4 eexists. split; [reflexivity|].
  (* the progress *)
  unfold step_temp. change (@n_sub B64) with fsub. rewrite span_div. cbn [bind].
  destruct (fdiv_val (fsub z zmin) (fsub zmax zmin) FW FD) as [Fp Vp].
  { rewrite VD. lra. }
  { rewrite VW, VD. fold q. apply big_trillion. rewrite Rabs_pos_eq; lra. }
  rewrite VW, VD in Vp. fold q in Vp. set (p := fdiv (fsub z zmin) (fsub zmax zmin)) in *.
  assert (Ep : Rabs (fval p - q) <= uu).
  { rewrite Vp. replace uu with (1 * uu) at 1 by ring. apply rnd_rel; [rewrite Rabs_pos_eq; lra|lra]. }
  change (@n_mul B64) with fmul. rewrite (Dv _ _ Fk) by lra. cbn [bind].
  assert (Bp : Rabs (fval p * (IZR n + 1)) <= 2 * (IZR n + 1)).
  { rewrite Rabs_mult, (Rabs_pos_eq (IZR n + 1)) by lra. apply Rmult_le_compat_r; [lra|].
    apply Rabs_le_both in Ep. apply Rabs_le. lra. }
  destruct (fmul_val p (n_of_Z (A:=B64) (n + 1)) Fp Fk) as [Fm Vm].
  { rewrite Vk. apply big_trillion. lra. }
  rewrite Vk in Vm. set (pn := fmul p (n_of_Z (A:=B64) (n + 1))) in *.
  assert (Em : Rabs (fval pn / (IZR n + 1) - fval p) <= 2 * uu).
  { replace (fval pn / (IZR n + 1) - fval p) with ((fval pn - fval p * (IZR n + 1)) * / (IZR n + 1)) by (field; lra).
    rewrite Rabs_mult, (Rabs_pos_eq (/ (IZR n + 1))) by (left; apply Rinv_0_lt_compat; lra).
    apply Rle_trans with (2 * (IZR n + 1) * uu * / (IZR n + 1)).
    - apply Rmult_le_compat_r; [left; apply Rinv_0_lt_compat; lra|]. rewrite Vm. apply rnd_rel; [exact Bp|lra].
    - apply Req_le. field. lra. }
  assert (Bm : Rabs (fval pn / (IZR n + 1)) <= 2).
  { apply Rabs_le_both in Em, Ep. apply Rabs_le. lra. }
  destruct (fdiv_val pn (n_of_Z (A:=B64) (n + 1)) Fm Fk) as [Fr Vr]; [lra|rewrite Vk; apply big_trillion; lra|].
  rewrite Vk in Vr. set (pr := fdiv pn (n_of_Z (A:=B64) (n + 1))) in *.
  assert (Er : Rabs (fval pr - fval pn / (IZR n + 1)) <= 2 * uu) by (rewrite Vr; apply rnd_rel; [exact Bm|lra]).
  assert (Epr : Rabs (fval pr - W / D) <= 8 * uu).
  { apply Rabs_le_both in Er, Em, Ep, Eq. apply Rabs_le. lra. }
  assert (HWD : 0 <= W / D <= 1).
  { destruct (progress_range (fval zmin) (fval zmax) (fval z) ltac:(lra) Hz) as [P1 P2]. split; assumption. }
  assert (Bpr : Rabs (fval pr) <= 2).
  { apply Rabs_le_both in Epr. apply Rabs_le. lra. }
  (* the change *)
  destruct (fsub_val se s Fa F1) as [Fg Vg].
  { apply big_trillion. apply Rabs_le_both in Ea, BSn. apply Rabs_le. lra. }
  set (gg := fsub se s) in *.
  assert (Eg : Rabs (fval gg - (1 + / IZR n) * S) <= 14000000 * uu).
  { replace ((1 + / IZR n) * S) with (fval e + S / IZR n - fval s) by (unfold S, Rdiv; ring).
    apply near_trans with (fval se - fval s) (5000000 * uu) (9000000 * uu); [rewrite Vg; apply rnd_rel; [|lra]| |lra].
    - apply Rabs_le_both in Ea, BSn. apply Rabs_le. lra.
    - replace (fval se - fval s - (fval e + S / IZR n - fval s)) with (fval se - (fval e + S / IZR n)) by ring. exact Ea. }
  assert (BG : Rabs ((1 + / IZR n) * S) <= 4000000).
  { rewrite Rabs_mult, (Rabs_pos_eq (1 + / IZR n)) by lra. replace 4000000 with (2 * 2000000) by ring.
    apply Rmult_le_compat; try lra. apply Rabs_pos. }
  assert (Ex : Rabs (fval pr * fval gg - W / D * ((1 + / IZR n) * S)) <= 2 * (14000000 * uu) + 8 * uu * 4000000).
  { apply near_mul; assumption. }
  assert (Bx0 : Rabs (W / D * ((1 + / IZR n) * S)) <= 4000000).
  { rewrite Rabs_mult, (Rabs_pos_eq (W / D)) by lra. replace 4000000 with (1 * 4000000) by ring.
    apply Rmult_le_compat; try lra. apply Rabs_pos. }
  assert (Bx : Rabs (fval pr * fval gg) <= 5000000) by (apply (near_size _ _ _ _ _ Ex Bx0); lra).
  destruct (fmul_val pr gg Fr Fg) as [Fx Vx]; [apply big_trillion; lra|].
  set (pg := fmul pr gg) in *.
  assert (Exr : Rabs (fval pg - fval pr * fval gg) <= 5000000 * uu) by (rewrite Vx; apply rnd_rel; [exact Bx|lra]).
  assert (Bpg : Rabs (fval pg) <= 6000000) by (apply (near_size _ _ _ _ _ Exr Bx); lra).
  assert (Bt : Rabs (fval s + fval pg) <= 7000000) by (apply Rabs_le_both in Bpg; apply Rabs_le; lra).
  change (@n_add B64) with fadd. destruct (fadd_val s pg F1 Fx) as [Ft Vt]; [apply big_trillion; lra|].
  set (t := fadd s pg) in *.
  assert (Et : Rabs (fval t - (fval s + fval pg)) <= 7000000 * uu) by (rewrite Vt; apply rnd_rel; [exact Bt|lra]).
  (* cut at the higher end *)
  split; [reflexivity|].
  assert (Fmx : fin (n_max (A:=B64) e s) /\ fval (n_max (A:=B64) e s) = Rmax (fval s) (fval e)).
  { unfold n_max. change (@n_ltb B64) with SFltb. destruct (SFltb e s) eqn:El.
    - apply (fltb_val _ _ F2 F1) in El. split; [exact F1|]. rewrite Rmax_left; [reflexivity|lra].
    - split; [exact F2|]. rewrite Rmax_right; [reflexivity|]. apply Rnot_lt_le. intros H.
      apply (fltb_val _ _ F2 F1) in H. congruence. }
  destruct Fmx as [Fmx Vmx]. set (mx := n_max (A:=B64) e s) in *.
  assert (Fmn : fin (n_min (A:=B64) mx t) /\ fval (n_min (A:=B64) mx t) = Rmin (fval mx) (fval t)).
  { unfold n_min. change (@n_ltb B64) with SFltb. destruct (SFltb t mx) eqn:El.
    - apply (fltb_val _ _ Ft Fmx) in El. split; [exact Ft|]. rewrite Rmin_right; [reflexivity|lra].
    - split; [exact Fmx|]. rewrite Rmin_left; [reflexivity|]. apply Rnot_lt_le. intros H.
      apply (fltb_val _ _ Ft Fmx) in H. congruence. }
  destruct Fmn as [Fmn Vmn]. split; [exact Fmn|]. match goal with |- Rabs (fval ?a - _) <= _ => change a with (n_min (A:=B64) mx t) end. rewrite Vmn, Vmx. cbn [target]. unfold steeper.
  change (fval z - fval zmin) with W. change (fval zmax - fval zmin) with D. change (fval e - fval s) with S.
  assert (Efin : Rabs (fval t - (fval s + (1 + / IZR n) * S * (W / D))) <= / 10 ^ 7).
  { replace ((1 + / IZR n) * S * (W / D)) with (W / D * ((1 + / IZR n) * S)) by ring.
    apply Rabs_le_both in Et, Exr, Ex. apply Rabs_le. unfold uu in *. lra. }
  apply Rabs_le_both in Efin. apply Rabs_le. unfold Rmin.
  repeat match goal with |- context [Rle_dec ?a ?b] => destruct (Rle_dec a b) end; lra.
Qed.

End Temps.

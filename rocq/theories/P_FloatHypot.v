(** * P_FloatHypot: square roots, lengths and plane vectors with doubles *)
From Coq Require Import List Ascii String ZArith NArith Bool Lia Reals Lra Psatz Floats.SpecFloat.
From Flocq Require Import Core Round Relative BinarySingleNaN.
From Verif Require Import PyBase Arith ArithR ArithB64 SpecBinary64 Stretch P_Measure P_Float P_FloatText P_FloatTrack.
Import ListNotations.
Local Open Scope R_scope.

Local Existing Instance Hprec.
Local Existing Instance Hmax.

(** ** Square root *)

Lemma fsqrt_equiv : forall x : binary_float prec emax, fsqrt (B2SF x) = B2SF (Bsqrt mode_NE x).
Proof.
  intros [sx|sx| |sx mx ex Bx]; try reflexivity.
  - destruct sx; reflexivity.
  - cbn. destruct sx; [reflexivity|]. rewrite B2SF_SF2B. set (melz := SFsqrt_core_binary _ _ _ _). destruct melz as [[mz ez] lz].
    apply binary_round_aux_equiv.
Qed.

Lemma fsqrt_val : forall a, fin a -> 0 <= fval a -> fin (fsqrt a) /\ fval (fsqrt a) = rnd (sqrt (fval a)).
Proof.
  intros a Ha H. apply fin_B in Ha as (x & -> & Fx & Ex). rewrite Ex in *. rewrite fsqrt_equiv.
  destruct (Bsqrt_correct prec emax Hprec Hmax mode_NE x) as (K1 & K2 & _).
  assert (Hf : is_finite (Bsqrt mode_NE x) = true).
  { rewrite K2. destruct x as [s|s| |s m e B]; cbn in *; try discriminate Fx; [reflexivity|]. destruct s; [|reflexivity].
    exfalso. unfold F2R in H. cbn in H. pose proof (bpow_gt_0 radix2 e). pose proof (IZR_lt _ _ (Pos2Z.neg_is_neg m)). nra. }
  destruct (B_fin _ Hf) as [F V]. split; [exact F|]. rewrite V, K1. reflexivity.
Qed.

(** ** Magnitudes *)

(** the double is a number of at most 2^k *)
Definition bnd (k : Z) (x : num B64) : Prop := fin x /\ Rabs (fval x) <= bpow radix2 k.
Definition bnd2 (k : Z) (p : num B64 * num B64) : Prop := bnd k (fst p) /\ bnd k (snd p).

Lemma rnd_le : forall x y, x <= y -> rnd x <= rnd y.
Proof. intros x y H. apply round_le; [apply fexp_correct; reflexivity|apply valid_rnd_N|exact H]. Qed.

Lemma rnd_bpow : forall k, (-1074 <= k <= 1000)%Z -> rnd (bpow radix2 k) = bpow radix2 k.
Proof.
  intros k H. apply round_generic; [apply valid_rnd_N|]. apply generic_format_bpow. unfold SpecFloat.fexp, SpecFloat.emin, prec, emax. lia.
Qed.

Lemma rnd_opp : forall x, rnd (- x) = - rnd x.
Proof. intros x. apply round_NE_opp. Qed.

Lemma rnd_abs : forall x y, Rabs x <= y -> rnd y = y -> Rabs (rnd x) <= y.
Proof.
  intros x y H E. apply Rabs_le_both in H. apply Rabs_le. rewrite <- E. rewrite <- rnd_opp. split; apply rnd_le; lra.
Qed.

Lemma rnd_bnd : forall k x, (-1074 <= k <= 1000)%Z -> Rabs x <= bpow radix2 k -> Rabs (rnd x) <= bpow radix2 k.
Proof. intros k x Hk H. apply rnd_abs; [exact H|apply rnd_bpow, Hk]. Qed.

Lemma rnd_nonneg : forall x, 0 <= x -> 0 <= rnd x.
Proof. intros x H. rewrite <- rnd_0. apply rnd_le, H. Qed.

Lemma bpow_big : forall k x, (k <= 1000)%Z -> Rabs x <= bpow radix2 k -> Rabs x <= big.
Proof. intros k x Hk H. eapply Rle_trans; [exact H|]. apply bpow_le, Hk. Qed.

Lemma bnd_weak : forall j k x, (j <= k)%Z -> bnd j x -> bnd k x.
Proof. intros j k x H [F B]. split; [exact F|]. eapply Rle_trans; [exact B|apply bpow_le, H]. Qed.
Lemma bnd2_weak : forall j k p, (j <= k)%Z -> bnd2 j p -> bnd2 k p.
Proof. intros j k p H [H1 H2]. split; eapply bnd_weak; eassumption. Qed.

Lemma bpow_S : forall k, bpow radix2 (k + 1) = 2 * bpow radix2 k.
Proof. intros k. rewrite bpow_plus. change (bpow radix2 1) with 2. apply Rmult_comm. Qed.

Lemma add_bnd : forall k a b, (-1074 <= k < 1000)%Z -> bnd k a -> bnd k b ->
  bnd (k + 1) (fadd a b) /\ fval (fadd a b) = rnd (fval a + fval b).
Proof.
  intros k a b Hk [Fa Ba] [Fb Bb].
  assert (H : Rabs (fval a + fval b) <= bpow radix2 (k + 1)).
  { rewrite bpow_S. pose proof (Rabs_triang (fval a) (fval b)). lra. }
  destruct (fadd_val a b Fa Fb (bpow_big (k + 1) _ ltac:(lia) H)) as [F V]. split; [|exact V]. split; [exact F|].
  rewrite V. apply rnd_bnd; [lia|exact H].
Qed.
Lemma sub_bnd : forall k a b, (-1074 <= k < 1000)%Z -> bnd k a -> bnd k b ->
  bnd (k + 1) (fsub a b) /\ fval (fsub a b) = rnd (fval a - fval b).
Proof.
  intros k a b Hk [Fa Ba] [Fb Bb].
  assert (H : Rabs (fval a - fval b) <= bpow radix2 (k + 1)).
  { rewrite bpow_S. apply Rabs_le_both in Ba, Bb. apply Rabs_le. lra. }
  destruct (fsub_val a b Fa Fb (bpow_big (k + 1) _ ltac:(lia) H)) as [F V]. split; [|exact V]. split; [exact F|].
  rewrite V. apply rnd_bnd; [lia|exact H].
Qed.
Lemma mul_bnd : forall j k a b, (-1074 <= j + k <= 1000)%Z -> bnd j a -> bnd k b ->
  bnd (j + k) (fmul a b) /\ fval (fmul a b) = rnd (fval a * fval b).
Proof.
  intros j k a b Hk [Fa Ba] [Fb Bb].
  assert (H : Rabs (fval a * fval b) <= bpow radix2 (j + k)).
  { rewrite bpow_plus, Rabs_mult. apply Rmult_le_compat; try apply Rabs_pos; assumption. }
  destruct (fmul_val a b Fa Fb (bpow_big (j + k) _ ltac:(lia) H)) as [F V]. split; [|exact V]. split; [exact F|].
  rewrite V. apply rnd_bnd; [lia|exact H].
Qed.
Lemma div_bnd : forall j k a b, (-1074 <= k - j <= 1000)%Z -> bnd k a -> fin b -> bpow radix2 j <= Rabs (fval b) ->
  bnd (k - j) (fdiv a b) /\ fval (fdiv a b) = rnd (fval a / fval b).
Proof.
  intros j k a b Hk [Fa Ba] Fb Bb. pose proof (bpow_gt_0 radix2 j) as Hj.
  assert (Hz : fval b <> 0) by (intros E; rewrite E, Rabs_R0 in Bb; lra).
  assert (H : Rabs (fval a / fval b) <= bpow radix2 (k - j)).
  { unfold Rdiv, Zminus. rewrite bpow_plus, bpow_opp, Rabs_mult, Rabs_inv. apply Rmult_le_compat; try apply Rabs_pos; [|exact Ba|].
    - apply Rlt_le, Rinv_0_lt_compat. lra.
    - apply Rinv_le_contravar; assumption. }
  destruct (fdiv_val a b Fa Fb Hz (bpow_big (k - j) _ ltac:(lia) H)) as [F V]. split; [|exact V]. split; [exact F|].
  rewrite V. apply rnd_bnd; [lia|exact H].
Qed.
(** a quotient of known size *)
Lemma div_ratio : forall k a b, (-1074 <= k <= 1000)%Z -> fin a -> fin b -> fval b <> 0 ->
  Rabs (fval a) <= bpow radix2 k * Rabs (fval b) ->
  bnd k (fdiv a b) /\ fval (fdiv a b) = rnd (fval a / fval b).
Proof.
  intros k a b Hk Fa Fb Hz Hr.
  assert (H : Rabs (fval a / fval b) <= bpow radix2 k).
  { unfold Rdiv. rewrite Rabs_mult, Rabs_inv. pose proof (Rabs_pos_lt _ Hz) as Hp.
    apply Rmult_le_reg_r with (Rabs (fval b)); [exact Hp|]. rewrite Rmult_assoc, Rinv_l, Rmult_1_r by lra. exact Hr. }
  destruct (fdiv_val a b Fa Fb Hz (bpow_big k _ ltac:(lia) H)) as [F V]. split; [|exact V]. split; [exact F|].
  rewrite V. apply rnd_bnd; [lia|exact H].
Qed.
Lemma opp_bnd : forall k a, bnd k a -> bnd k (SFopp a).
Proof.
  intros k a [F B]. apply fin_B in F as (x & -> & Fx & Ex). rewrite Ex in B.
  assert (E : SFopp (B2SF x) = B2SF (Bopp x)) by (destruct x; reflexivity). rewrite E.
  assert (Hf : is_finite (Bopp x) = true) by (rewrite is_finite_Bopp; exact Fx).
  destruct (B_fin _ Hf) as [F V]. split; [exact F|]. rewrite V, B2R_Bopp, Rabs_Ropp. exact B.
Qed.

Lemma zero_bnd : forall k, bnd k (n0 (A:=B64)).
Proof. intros k. destruct n0_fin as [F V]. split; [exact F|]. rewrite V, Rabs_R0. apply bpow_ge_0. Qed.
Lemma one_bnd : bnd 0 (n1 (A:=B64)) /\ fval (n1 (A:=B64)) = 1.
Proof.
  assert (E : dval false 1 0 = bpow radix2 0) by (unfold dval; cbn; lra).
  assert (V : fval (n1 (A:=B64)) = 1).
  { destruct (f_of_dec_val false 1 0) as [_ V].
    - rewrite E. rewrite Rabs_pos_eq by apply bpow_ge_0. apply bpow_le. lia.
    - unfold n1, lit. change (n_of_dec (a:=B64) false 1 0) with (f_of_dec false 1 0). rewrite V, E. apply rnd_bpow. lia. }
  split; [|exact V]. split; [split; vm_compute; reflexivity|]. rewrite V, Rabs_R1. cbn. lra.
Qed.

(** ** Vectors *)

Lemma c_sub_bnd : forall k p q, (-1074 <= k < 1000)%Z -> bnd2 k p -> bnd2 k q -> bnd2 (k + 1) (c_sub (A:=B64) p q).
Proof. intros k p q Hk [P1 P2] [Q1 Q2]. split; cbn [c_sub fst snd]; apply sub_bnd; assumption. Qed.
Lemma c_add_bnd : forall k p q, (-1074 <= k < 1000)%Z -> bnd2 k p -> bnd2 k q -> bnd2 (k + 1) (c_add (A:=B64) p q).
Proof. intros k p q Hk [P1 P2] [Q1 Q2]. split; cbn [c_add fst snd]; apply add_bnd; assumption. Qed.

Lemma mul_zero : forall k x, (-1074 <= k <= 1000)%Z -> bnd k x -> fin (fmul x (n0 (A:=B64))) /\ fval (fmul x (n0 (A:=B64))) = 0.
Proof.
  intros k x Hk H. destruct n0_fin as [F0 V0]. destruct H as [F B].
  destruct (fmul_val x _ F F0) as [F1 V1]. { rewrite V0, Rmult_0_r, Rabs_R0. apply bpow_ge_0. }
  split; [exact F1|]. rewrite V1, V0, Rmult_0_r. apply rnd_0.
Qed.

Lemma rnd_rnd : forall x, rnd (rnd x) = rnd x.
Proof. intros x. apply round_generic; [apply valid_rnd_N|]. apply generic_format_round; [apply fexp_correct; reflexivity|apply valid_rnd_N]. Qed.

Lemma c_scale_bnd : forall j k p x, (-1074 <= j <= 1000)%Z -> (-1074 <= j + k < 1000)%Z -> bnd2 j p -> bnd k x ->
  bnd2 (j + k) (c_scale (A:=B64) p x) /\
  fval (fst (c_scale (A:=B64) p x)) = rnd (fval (fst p) * fval x) /\
  fval (snd (c_scale (A:=B64) p x)) = rnd (fval (snd p) * fval x).
Proof.
  intros j k p x Hj Hk [P1 P2] Hx. cbn [c_scale fst snd].
  destruct (mul_bnd j k _ _ ltac:(lia) P1 Hx) as [A1 V1]. destruct (mul_bnd j k _ _ ltac:(lia) P2 Hx) as [A2 V2].
  destruct (mul_zero _ _ Hj P1) as [Z1 W1]. destruct (mul_zero _ _ Hj P2) as [Z2 W2].
  assert (B1 : bnd (j + k) (fmul (fst p) (n0 (A:=B64)))) by (split; [exact Z1|rewrite W1, Rabs_R0; apply bpow_ge_0]).
  assert (B2 : bnd (j + k) (fmul (snd p) (n0 (A:=B64)))) by (split; [exact Z2|rewrite W2, Rabs_R0; apply bpow_ge_0]).
  destruct (sub_bnd (j + k) _ _ ltac:(lia) A1 B2) as [[F3 _] V3]. destruct (add_bnd (j + k) _ _ ltac:(lia) B1 A2) as [[F4 _] V4].
  rewrite W2, Rminus_0_r, V1, rnd_rnd in V3. rewrite W1, Rplus_0_l, V2, rnd_rnd in V4.
  split; [|split; [exact V3|exact V4]]. destruct A1 as [_ A1], A2 as [_ A2]. rewrite V1 in A1. rewrite V2 in A2.
  split; (split; [assumption|]); cbn [fst snd]; [change (Rabs (fval (fsub (fmul (fst p) x) (fmul (snd p) (n0 (A:=B64))))) <= bpow radix2 (j + k)); rewrite V3|change (Rabs (fval (fadd (fmul (fst p) (n0 (A:=B64))) (fmul (snd p) x))) <= bpow radix2 (j + k)); rewrite V4]; assumption.
Qed.

(** dividing by a number: Python's complex division by a float *)
Lemma c_div_val : forall j k p x r, (-1074 <= j < 999)%Z -> (-1074 <= k <= 1000)%Z -> bnd2 j p -> fin x ->
  Rabs (fval (fst p)) <= bpow radix2 k * Rabs (fval x) -> Rabs (fval (snd p)) <= bpow radix2 k * Rabs (fval x) ->
  Rabs (fval x) <= bpow radix2 999 ->
  c_div (A:=B64) p x = Ok r ->
  fval x <> 0 /\ bnd2 k r /\ fval (fst r) = rnd (fval (fst p) / fval x) /\ fval (snd r) = rnd (fval (snd p) / fval x).
Proof.
  intros j k p x r Hj Hk [P1 P2] Fx R1 R2 Hbig H. unfold c_div in H. destruct n0_fin as [F0 V0].
  destruct (n_eqb (a:=B64) x n0) eqn:E; [discriminate H|].
  assert (Hz : fval x <> 0).
  { intros Z. assert (T : SFeqb x (n0 (A:=B64)) = true) by (apply feqb_val; [exact Fx|exact F0|congruence]).
    change (n_eqb (a:=B64) x n0) with (SFeqb x (n0 (A:=B64))) in E. congruence. }
  split; [exact Hz|].
  destruct (div_ratio 0 (n0 (A:=B64)) x ltac:(lia) F0 Fx Hz) as [Br Vr].
  { rewrite V0, Rabs_R0. pose proof (Rabs_pos (fval x)). cbn [bpow]. lra. }
  assert (V0' : fval (fdiv (n0 (A:=B64)) x) = 0) by (rewrite Vr, V0; unfold Rdiv; rewrite Rmult_0_l; apply rnd_0).
  assert (Hr : forall y, fin y -> fin (fmul y (fdiv (n0 (A:=B64)) x)) /\ fval (fmul y (fdiv (n0 (A:=B64)) x)) = 0).
  { intros y Fy. destruct (fmul_val y _ Fy (proj1 Br)) as [F V]. { rewrite V0', Rmult_0_r, Rabs_R0. apply bpow_ge_0. }
    split; [exact F|]. rewrite V, V0', Rmult_0_r. apply rnd_0. }
  destruct (Hr _ F0) as [FD VD].
  assert (BD : bnd 999 (fmul (n0 (A:=B64)) (fdiv (n0 (A:=B64)) x))) by (split; [exact FD|rewrite VD, Rabs_R0; apply bpow_ge_0]).
  destruct (add_bnd 999 x _ ltac:(lia) (conj Fx Hbig) BD) as [[FE _] VE]. rewrite VD, Rplus_0_r, (rnd_fin _ Fx) in VE.
  destruct (Hr _ (proj1 P2)) as [F1 V1]. destruct (Hr _ (proj1 P1)) as [F2 V2].
  assert (B1 : bnd j (fmul (snd p) (fdiv (n0 (A:=B64)) x))) by (split; [exact F1|rewrite V1, Rabs_R0; apply bpow_ge_0]).
  assert (B2 : bnd j (fmul (fst p) (fdiv (n0 (A:=B64)) x))) by (split; [exact F2|rewrite V2, Rabs_R0; apply bpow_ge_0]).
  destruct (add_bnd j _ _ ltac:(lia) P1 B1) as [[F3 _] V3]. destruct (sub_bnd j _ _ ltac:(lia) P2 B2) as [[F4 _] V4].
  rewrite V1, Rplus_0_r, (rnd_fin _ (proj1 P1)) in V3. rewrite V2, Rminus_0_r, (rnd_fin _ (proj1 P2)) in V4.
  apply ok_inj in H. subst r.
  change (n_div (a:=B64)) with fdiv. change (n_add (a:=B64)) with fadd. change (n_sub (a:=B64)) with fsub. change (n_mul (a:=B64)) with fmul.
  cbn [fst snd]. unfold bnd2. cbn [fst snd].
  destruct (div_ratio k _ _ Hk F3 FE) as [K1 K2]; [congruence|rewrite V3, VE; exact R1|].
  destruct (div_ratio k _ _ Hk F4 FE) as [K3 K4]; [congruence|rewrite V4, VE; exact R2|].
  rewrite V3, VE in K2. rewrite V4, VE in K4. auto.
Qed.

(** ** Lengths *)

Lemma sqrt_bpow : forall k, sqrt (bpow radix2 (2 * k)) = bpow radix2 k.
Proof. intros k. replace (2 * k)%Z with (k + k)%Z by lia. rewrite bpow_plus. apply sqrt_square, bpow_ge_0. Qed.

Lemma abs_bnd : forall k p, (-500 <= k < 490)%Z -> bnd2 k p ->
  let a := fval (fst p) in let b := fval (snd p) in
  bnd (k + 1) (c_abs (A:=B64) p) /\ 0 <= fval (c_abs (A:=B64) p) /\
  fval (c_abs (A:=B64) p) = rnd (sqrt (rnd (rnd (a * a) + rnd (b * b)))).
Proof.
  intros k p Hk [P1 P2] a b. unfold c_abs. change (n_hypot (a:=B64) (fst p) (snd p)) with (fsqrt (fadd (fmul (fst p) (fst p)) (fmul (snd p) (snd p)))).
  destruct (mul_bnd k k _ _ ltac:(lia) P1 P1) as [A1 V1]. destruct (mul_bnd k k _ _ ltac:(lia) P2 P2) as [A2 V2].
  destruct (add_bnd (k + k) _ _ ltac:(lia) A1 A2) as [[F3 B3] V3]. fold a in V1. fold b in V2. rewrite V1, V2 in V3.
  assert (N1 : 0 <= rnd (a * a)) by (apply rnd_nonneg; nra). assert (N2 : 0 <= rnd (b * b)) by (apply rnd_nonneg; nra).
  assert (N3 : 0 <= fval (fadd (fmul (fst p) (fst p)) (fmul (snd p) (snd p)))) by (rewrite V3; apply rnd_nonneg; lra).
  destruct (fsqrt_val _ F3 N3) as [F4 V4].
  assert (N4 : 0 <= fval (fsqrt (fadd (fmul (fst p) (fst p)) (fmul (snd p) (snd p))))) by (rewrite V4; apply rnd_nonneg, sqrt_pos).
  split; [split; [exact F4|]|split; [exact N4|]].
  - rewrite V4. apply rnd_bnd; [lia|]. rewrite Rabs_pos_eq by apply sqrt_pos. rewrite <- sqrt_bpow. apply sqrt_le_1_alt.
    rewrite Rabs_pos_eq in B3 by exact N3. eapply Rle_trans; [exact B3|]. apply bpow_le. lia.
  - rewrite V4, V3. reflexivity.
Qed.

Lemma fin_least : forall x, fin x -> 0 < fval x -> bpow radix2 (-1074) <= fval x.
Proof.
  intros x F H. apply fin_B in F as (b & -> & Fb & E). rewrite E in *.
  rewrite <- (Rabs_pos_eq (B2R b)) by lra. apply (abs_B2R_ge_emin prec emax b).
  destruct b as [s|s| |s m e B]; cbn in *; try discriminate; try lra; reflexivity.
Qed.

Lemma tiny_least : tiny + tiny = bpow radix2 (-1074).
Proof. unfold tiny. replace (-1074)%Z with (-1075 + 1)%Z by lia. rewrite bpow_S. lra. Qed.

Lemma sq_abs : forall x, Rabs x * Rabs x = x * x.
Proof. intros x. rewrite <- Rabs_mult. apply Rabs_pos_eq. nra. Qed.

(** a square is hardly less after rounding *)
Lemma rnd_below : forall x, 0 <= x -> x * (1 - ulp1) - tiny <= rnd x /\ rnd x <= x * (1 + ulp1) + tiny.
Proof. intros x H. pose proof (rnd_err x) as K. rewrite (Rabs_pos_eq x H) in K. apply Rabs_le_both in K. lra. Qed.

(** a length that is not 0 is not much less than the components *)
Lemma abs_low : forall k p, (-500 <= k < 490)%Z -> bnd2 k p -> 0 < fval (c_abs (A:=B64) p) ->
  Rabs (fval (fst p)) <= 2 * fval (c_abs (A:=B64) p) /\ Rabs (fval (snd p)) <= 2 * fval (c_abs (A:=B64) p).
Proof.
  intros k p Hk Hp Hpos. destruct (abs_bnd k p Hk Hp) as (_ & _ & V). cbv zeta in V. destruct Hp as [P1 P2].
  destruct (mul_bnd k k _ _ ltac:(lia) P1 P1) as [A1 V1]. destruct (mul_bnd k k _ _ ltac:(lia) P2 P2) as [A2 V2].
  destruct (add_bnd (k + k) _ _ ltac:(lia) A1 A2) as [[F3 _] V3]. rewrite V1, V2 in V3. rewrite <- V3 in V.
  set (a := fval (fst p)) in *. set (b := fval (snd p)) in *. set (s := fval (fadd _ _)) in *. set (len := fval (c_abs p)) in *.
  destruct (rnd_below (a * a) ltac:(nra)) as [La _]. destruct (rnd_below (b * b) ltac:(nra)) as [Lb _].
  assert (Na : 0 <= rnd (a * a)) by (apply rnd_nonneg; nra). assert (Nb : 0 <= rnd (b * b)) by (apply rnd_nonneg; nra).
  destruct (rnd_below (rnd (a * a) + rnd (b * b)) ltac:(lra)) as [Ls _]. rewrite <- V3 in Ls.
  assert (Ns : 0 <= s) by (rewrite V3; apply rnd_nonneg; lra).
  assert (Ps : 0 < s).
  { destruct Ns as [Ns|Ns]; [exact Ns|]. exfalso. rewrite V, <- Ns, sqrt_0, rnd_0 in Hpos. lra. }
  pose proof (fin_least _ F3 Ps) as Hs. fold s in Hs. rewrite <- tiny_least in Hs.
  pose proof ulp1_small as U. pose proof ulp1_pos as U0.
  pose proof (sqrt_pos s) as S0. pose proof (sqrt_sqrt s Ns) as SS.
  destruct (rnd_below (sqrt s) S0) as [Ll _]. rewrite <- V in Ll.
  assert (Hq : tiny <= ulp1 * sqrt s).
  { assert (T1 : bpow radix2 (-537) <= sqrt s).
    { rewrite <- sqrt_bpow. apply sqrt_le_1_alt. change (2 * -537)%Z with (-1074)%Z. rewrite <- tiny_least. lra. }
    apply Rle_trans with (ulp1 * bpow radix2 (-537)); [|apply Rmult_le_compat_l; lra].
    unfold ulp1, tiny. rewrite <- bpow_plus. apply bpow_le. lia. }
  assert (T0 : 0 < tiny) by apply bpow_gt_0.
  assert (Hl : sqrt s * (9 / 10) <= len) by nra.
  assert (Hab : rnd (a * a) + rnd (b * b) <= 2 * s) by nra.
  assert (Ha : a * a <= 3 * s) by nra. assert (Hb : b * b <= 3 * s) by nra.
  assert (Hll : s * (8 / 10) <= len * len) by nra.
  assert (K : forall x, x * x <= 3 * s -> Rabs x <= 2 * len).
  { intros x Hx. apply Rsqr_incr_0_var; [|lra]. unfold Rsqr. rewrite sq_abs. lra. }
  split; apply K; assumption.
Qed.

Lemma mul_le : forall a b c, 0 <= c -> a <= b -> a * c <= b * c.
Proof. intros. apply Rmult_le_compat_r; assumption. Qed.
Lemma acc_core : forall u t c m s q len, 0 < u -> u <= / 9000000000000000 -> 0 < t -> t <= / 10000000000000000000000000000000000000000 ->
  0 <= c -> 0 <= m -> 0 <= s -> 0 <= q -> q * q = s -> 0 <= len ->
  c * (1 - u) - 2 * t <= m -> m <= c * (1 + u) + 2 * t ->
  m * (1 - u) - t <= s -> s <= m * (1 + u) + t ->
  q * (1 - u) - t <= len -> len <= q * (1 + u) + t ->
  c <= (len * len) * (1 + / 100000000000000) + / 1000000000000000000000000000000 /\
  len * len <= c * (1 + / 100000000000000) + / 1000000000000000000000000000000.
Proof.
  intros u t c m s q len U0 U T0 T Nc Nm Ns Nq E Nl Lm Um Ls Us Ll Ul.
  assert (E1 : c * (1 - 3 * u) - 4 * t <= s).
  { pose proof (mul_le _ _ (1 - u) ltac:(lra) Lm). pose proof (Rmult_le_pos _ _ Nc (Rlt_le _ _ U0)). pose proof (Rmult_le_pos _ _ (Rmult_le_pos _ _ Nc (Rlt_le _ _ U0)) (Rlt_le _ _ U0)).
    assert (t * u <= t) by (rewrite <- (Rmult_1_r t) at 2; apply Rmult_le_compat_l; lra). assert (0 <= t * u) by (apply Rmult_le_pos; lra). lra. }
  assert (E2 : s <= c * (1 + 3 * u) + 4 * t).
  { pose proof (mul_le _ _ (1 + u) ltac:(lra) Um). pose proof (Rmult_le_pos _ _ Nc (Rlt_le _ _ U0)).
    assert (c * u * u <= c * u) by (rewrite <- (Rmult_1_r (c * u)) at 2; apply Rmult_le_compat_l; lra).
    assert (t * u <= t / 9) by (unfold Rdiv; apply Rmult_le_compat_l; lra). lra. }
  assert (E3 : q <= 1 + s) by nra.
  assert (Hu : 0 <= s * u) by (apply Rmult_le_pos; lra).
  assert (Hu2 : s * u * u <= s * u) by (rewrite <- (Rmult_1_r (s * u)) at 2; apply Rmult_le_compat_l; lra).
  assert (Hu3 : 0 <= s * u * u) by (apply Rmult_le_pos; lra).
  assert (Hqt : t * q <= t * (1 + s)) by (apply Rmult_le_compat_l; lra).
  assert (Hqt0 : 0 <= t * q) by (apply Rmult_le_pos; lra).
  assert (Hqu : t * q * u <= t * q) by (rewrite <- (Rmult_1_r (t * q)) at 2; apply Rmult_le_compat_l; lra).
  assert (Hqu0 : 0 <= t * q * u) by (apply Rmult_le_pos; lra).
  assert (Htt : t * t <= t) by (rewrite <- (Rmult_1_r t) at 3; apply Rmult_le_compat_l; lra).
  assert (Htt0 : 0 <= t * t) by (apply Rmult_le_pos; lra).
  assert (Hts : 0 <= t * s) by (apply Rmult_le_pos; lra).
  assert (Q1 : s * (1 - 3 * u) - 5 * (t * (1 + s)) <= len * len).
  { destruct (Rle_dec 0 (q * (1 - u) - t)) as [P|P].
    - assert ((q * (1 - u) - t) * (q * (1 - u) - t) <= len * len) by (apply Rmult_le_compat; assumption).
      replace ((q * (1 - u) - t) * (q * (1 - u) - t)) with (s - 2 * (s * u) + s * u * u - 2 * (t * q) + 2 * (t * q * u) + t * t) in H by (rewrite <- E; ring). lra.
    - assert (0 <= len * len) by (apply Rmult_le_pos; assumption). apply Rnot_le_lt in P. assert (q * u <= q * / 9000000000000000) by (apply Rmult_le_compat_l; lra). assert (q <= 2 * t) by lra.
      assert (q * q <= q * (2 * t)) by (apply Rmult_le_compat_l; lra). lra. }
  assert (Q2 : len * len <= s * (1 + 3 * u) + 5 * (t * (1 + s))).
  { assert (len * len <= (q * (1 + u) + t) * (q * (1 + u) + t)) by (apply Rmult_le_compat; assumption).
    replace ((q * (1 + u) + t) * (q * (1 + u) + t)) with (s + 2 * (s * u) + s * u * u + 2 * (t * q) + 2 * (t * q * u) + t * t) in H by (rewrite <- E; ring). lra. }
  assert (Sc : s <= 2 * c + 5 * t) by (pose proof (mul_le _ _ c Nc U); lra).
  assert (F1 : s * u <= s * / 9000000000000000) by (apply Rmult_le_compat_l; lra).
  assert (F2 : c * u <= c * / 9000000000000000) by (apply Rmult_le_compat_l; lra).
  assert (F3 : t * s <= / 10000000000000000000000000000000000000000 * s) by (apply mul_le; lra).
  split.
  - assert (c <= 2 * s + 10 * t) by lra. assert (s <= 2 * (len * len) + 11 * t) by lra. lra.
  - lra.
Qed.

Lemma tiny_smaller : tiny <= / 10000000000000000000000000000000000000000.
Proof.
  apply Rle_trans with (bpow radix2 (-200)); [apply bpow_le; lia|]. cbn [bpow].
  apply Rinv_le_contravar; [lra|]. apply IZR_le. vm_compute. discriminate.
Qed.

(** the length is right, up to rounding *)
Lemma abs_acc : forall k p, (-500 <= k < 490)%Z -> bnd2 k p ->
  let a := fval (fst p) in let b := fval (snd p) in let len := fval (c_abs (A:=B64) p) in
  a * a + b * b <= (len * len) * (1 + / 100000000000000) + / 1000000000000000000000000000000 /\
  len * len <= (a * a + b * b) * (1 + / 100000000000000) + / 1000000000000000000000000000000.
Proof.
  intros k p Hk Hp a b len. destruct (abs_bnd k p Hk Hp) as (_ & N & V). cbv zeta in V.
  fold a in V. fold b in V. fold len in V. fold len in N.
  destruct (rnd_below (a * a) ltac:(nra)) as [La Ua]. destruct (rnd_below (b * b) ltac:(nra)) as [Lb Ub].
  assert (Na : 0 <= rnd (a * a)) by (apply rnd_nonneg; nra). assert (Nb : 0 <= rnd (b * b)) by (apply rnd_nonneg; nra).
  destruct (rnd_below (rnd (a * a) + rnd (b * b)) ltac:(lra)) as [Ls Us].
  assert (Ns : 0 <= rnd (rnd (a * a) + rnd (b * b))) by (apply rnd_nonneg; lra).
  pose proof (sqrt_pos (rnd (rnd (a * a) + rnd (b * b)))) as S0. pose proof (sqrt_sqrt _ Ns) as SS.
  destruct (rnd_below _ S0) as [Ll Ul]. rewrite <- V in Ll, Ul.
  apply (acc_core ulp1 tiny _ (rnd (a * a) + rnd (b * b)) (rnd (rnd (a * a) + rnd (b * b))) (sqrt (rnd (rnd (a * a) + rnd (b * b)))));
    [exact ulp1_pos|exact ulp1_small|apply bpow_gt_0|exact tiny_smaller|nra|lra|exact Ns|exact S0|exact SS|exact N|lra|lra|exact Ls|exact Us|exact Ll|exact Ul].
Qed.

(** * P_Float: binary64 as rounded real arithmetic

    The operations of [ArithB64] on finite numbers are the real operations,
    rounded to the nearest double, ties to even (IEEE 754); read decimals are
    rounded in the same way, printed decimals are the nearest ones.  The proofs
    rest on Flocq's, whose operations are those of the standard library's
    [SpecFloat]. *)
From Coq Require Import List String ZArith NArith Bool Reals Lra Lia Floats.SpecFloat.
From Flocq Require Import Core Round Relative BinarySingleNaN.
From Verif Require Import PyBase Arith ArithR ArithB64 SpecBinary64.
Local Open Scope R_scope.

Local Instance Hprec : FLX.Prec_gt_0 prec := eq_refl _.
Local Instance Hmax : Prec_lt_emax prec emax := eq_refl _.

(** ** The operations are Flocq's *)

Lemma round_nearest_even_equiv s m l : round_nearest_even m l = choice_mode mode_NE s m l.
Proof.
  destruct l as [|c]; [reflexivity|]. destruct c; [|reflexivity..].
  cbn. unfold Round.cond_incr. destruct (Z.even m); reflexivity.
Qed.

Lemma binary_round_aux_equiv sx mx ex lx :
  SpecFloat.binary_round_aux prec emax sx mx ex lx = binary_round_aux prec emax mode_NE sx mx ex lx.
Proof.
  unfold SpecFloat.binary_round_aux, binary_round_aux. set (mrse' := shr_fexp _ _ _ _ _).
  destruct mrse' as [mrs' e']. now rewrite (round_nearest_even_equiv sx).
Qed.

Lemma binary_round_equiv s m e :
  SpecFloat.binary_round prec emax s m e = binary_round prec emax mode_NE s m e.
Proof.
  unfold SpecFloat.binary_round, binary_round, shl_align_fexp.
  set (mez := shl_align _ _ _). destruct mez as [mz ez]. apply binary_round_aux_equiv.
Qed.

Lemma binary_normalize_equiv m e szero :
  SpecFloat.binary_normalize prec emax m e szero = B2SF (binary_normalize prec emax Hprec Hmax mode_NE m e szero).
Proof.
  destruct m as [|p|p]; [reflexivity| |]; cbn; rewrite B2SF_SF2B; apply binary_round_equiv.
Qed.

Lemma fadd_equiv : forall x y : binary_float prec emax, fadd (B2SF x) (B2SF y) = B2SF (Bplus mode_NE x y).
Proof.
  intros [sx|sx| |sx mx ex Bx] [sy|sy| |sy my ey By]; try reflexivity;
    try (cbn; destruct (Bool.eqb sx sy); reflexivity).
  apply binary_normalize_equiv.
Qed.

Lemma fsub_equiv : forall x y : binary_float prec emax, fsub (B2SF x) (B2SF y) = B2SF (Bminus mode_NE x y).
Proof.
  intros [sx|sx| |sx mx ex Bx] [sy|sy| |sy my ey By]; try reflexivity;
    try (cbn; destruct (Bool.eqb sx (negb sy)); reflexivity).
  cbn. unfold Zminus. rewrite <- cond_Zopp_negb. apply binary_normalize_equiv.
Qed.

Lemma fmul_equiv : forall x y : binary_float prec emax, fmul (B2SF x) (B2SF y) = B2SF (Bmult mode_NE x y).
Proof.
  intros [sx|sx| |sx mx ex Bx] [sy|sy| |sy my ey By]; try reflexivity.
  cbn. rewrite B2SF_SF2B. apply binary_round_aux_equiv.
Qed.

Lemma fdiv_equiv : forall x y : binary_float prec emax, fdiv (B2SF x) (B2SF y) = B2SF (Bdiv mode_NE x y).
Proof.
  intros [sx|sx| |sx mx ex Bx] [sy|sy| |sy my ey By]; try reflexivity.
  cbn. rewrite B2SF_SF2B. set (melz := SFdiv_core_binary _ _ _ _ _ _). destruct melz as [[mz ez] lz].
  apply binary_round_aux_equiv.
Qed.

Lemma fin_B : forall x, fin x -> exists b : binary_float prec emax, x = B2SF b /\ is_finite b = true /\ fval x = B2R b.
Proof.
  intros x [H1 H2]. exists (SF2B x H1). rewrite B2SF_SF2B, is_finite_SF2B. split; [reflexivity|]. split; [exact H2|].
  symmetry. apply B2R_SF2B.
Qed.
Lemma B_fin : forall b : binary_float prec emax, is_finite b = true -> fin (B2SF b) /\ fval (B2SF b) = B2R b.
Proof.
  intros b H. split; [split|].
  - apply valid_binary_B2SF.
  - rewrite is_finite_SF_B2SF. exact H.
  - apply SF2R_B2SF.
Qed.

(** a bound below which nothing overflows *)
Definition big : R := bpow radix2 1000.

Lemma rnd_small : forall x, Rabs x <= big -> Rlt_bool (Rabs (rnd x)) (bpow radix2 emax) = true.
Proof.
  intros x H. apply Rlt_bool_true. apply Rle_lt_trans with big.
  - apply abs_round_le_generic; [apply fexp_correct; reflexivity|apply valid_rnd_N| |exact H].
    apply generic_format_bpow. vm_compute. discriminate.
  - apply bpow_lt. reflexivity.
Qed.

Lemma fadd_val : forall a b, fin a -> fin b -> Rabs (fval a + fval b) <= big ->
  fin (fadd a b) /\ fval (fadd a b) = rnd (fval a + fval b).
Proof.
  intros a b Ha Hb H. apply fin_B in Ha as (x & -> & Fx & Ex). apply fin_B in Hb as (y & -> & Fy & Ey).
  rewrite Ex, Ey in *. rewrite fadd_equiv. pose proof (Bplus_correct prec emax Hprec Hmax mode_NE x y Fx Fy) as K.
  change (round radix2 (SpecFloat.fexp prec emax) (round_mode mode_NE) (B2R x + B2R y)) with (rnd (B2R x + B2R y)) in K.
  rewrite (rnd_small _ H) in K. destruct K as (K1 & K2 & _). destruct (B_fin _ K2) as [F V]. split; [exact F|]. congruence.
Qed.

Lemma fsub_val : forall a b, fin a -> fin b -> Rabs (fval a - fval b) <= big ->
  fin (fsub a b) /\ fval (fsub a b) = rnd (fval a - fval b).
Proof.
  intros a b Ha Hb H. apply fin_B in Ha as (x & -> & Fx & Ex). apply fin_B in Hb as (y & -> & Fy & Ey).
  rewrite Ex, Ey in *. rewrite fsub_equiv. pose proof (Bminus_correct prec emax Hprec Hmax mode_NE x y Fx Fy) as K.
  change (round radix2 (SpecFloat.fexp prec emax) (round_mode mode_NE) (B2R x - B2R y)) with (rnd (B2R x - B2R y)) in K.
  rewrite (rnd_small _ H) in K. destruct K as (K1 & K2 & _). destruct (B_fin _ K2) as [F V]. split; [exact F|]. congruence.
Qed.

Lemma fmul_val : forall a b, fin a -> fin b -> Rabs (fval a * fval b) <= big ->
  fin (fmul a b) /\ fval (fmul a b) = rnd (fval a * fval b).
Proof.
  intros a b Ha Hb H. apply fin_B in Ha as (x & -> & Fx & Ex). apply fin_B in Hb as (y & -> & Fy & Ey).
  rewrite Ex, Ey in *. rewrite fmul_equiv. pose proof (Bmult_correct prec emax Hprec Hmax mode_NE x y) as K.
  change (round radix2 (SpecFloat.fexp prec emax) (round_mode mode_NE) (B2R x * B2R y)) with (rnd (B2R x * B2R y)) in K.
  rewrite (rnd_small _ H) in K. destruct K as (K1 & K2 & _). rewrite Fx, Fy in K2.
  destruct (B_fin _ K2) as [F V]. split; [exact F|]. congruence.
Qed.

Lemma fdiv_val : forall a b, fin a -> fin b -> fval b <> 0 -> Rabs (fval a / fval b) <= big ->
  fin (fdiv a b) /\ fval (fdiv a b) = rnd (fval a / fval b).
Proof.
  intros a b Ha Hb Hz H. apply fin_B in Ha as (x & -> & Fx & Ex). apply fin_B in Hb as (y & -> & Fy & Ey).
  rewrite Ex, Ey in *. rewrite fdiv_equiv. pose proof (Bdiv_correct prec emax Hprec Hmax mode_NE x y Hz) as K.
  change (round radix2 (SpecFloat.fexp prec emax) (round_mode mode_NE) (B2R x / B2R y)) with (rnd (B2R x / B2R y)) in K.
  rewrite (rnd_small _ H) in K. destruct K as (K1 & K2 & _). rewrite Fx in K2.
  destruct (B_fin _ K2) as [F V]. split; [exact F|]. congruence.
Qed.

(** ** Comparisons *)

Lemma fltb_val : forall a b, fin a -> fin b -> (SFltb a b = true <-> fval a < fval b).
Proof.
  intros a b Ha Hb. apply fin_B in Ha as (x & -> & Fx & ->). apply fin_B in Hb as (y & -> & Fy & ->).
  change (SFltb (B2SF x) (B2SF y)) with (Bltb x y). rewrite (Bltb_correct _ _ x y Fx Fy).
  split; [|apply Rlt_bool_true]. destruct (Rlt_bool_spec (B2R x) (B2R y)); [auto|discriminate].
Qed.
Lemma fleb_val : forall a b, fin a -> fin b -> (SFleb a b = true <-> fval a <= fval b).
Proof.
  intros a b Ha Hb. apply fin_B in Ha as (x & -> & Fx & ->). apply fin_B in Hb as (y & -> & Fy & ->).
  change (SFleb (B2SF x) (B2SF y)) with (Bleb x y). rewrite (Bleb_correct _ _ x y Fx Fy).
  split; [|apply Rle_bool_true]. destruct (Rle_bool_spec (B2R x) (B2R y)); [auto|discriminate].
Qed.
Lemma feqb_val : forall a b, fin a -> fin b -> (SFeqb a b = true <-> fval a = fval b).
Proof.
  intros a b Ha Hb. apply fin_B in Ha as (x & -> & Fx & ->). apply fin_B in Hb as (y & -> & Fy & ->).
  change (SFeqb (B2SF x) (B2SF y)) with (Beqb x y). rewrite (Beqb_correct _ _ x y Fx Fy).
  split; [|apply Req_bool_true]. destruct (Req_bool_spec (B2R x) (B2R y)); [auto|discriminate].
Qed.

(** ** Reading decimals *)

(** the number a sign, digits and a number of decimals stand for *)
Definition dval (neg : bool) (m : N) (k : nat) : R := (if neg then -1 else 1) * (IZR (Z.of_N m) / 10 ^ k).

Lemma rnd_0 : rnd 0 = 0.
Proof. apply round_0. apply valid_rnd_N. Qed.

Lemma f_of_dec_val : forall neg m k, Rabs (dval neg m k) <= big ->
  fin (f_of_dec neg m k) /\ fval (f_of_dec neg m k) = rnd (dval neg m k).
Proof.
  intros neg m k H.
  assert (Hz : m = 0%N -> rnd (dval neg m k) = 0).
  { intros ->. unfold dval. cbn [Z.of_N]. replace ((if neg then -1 else 1) * (0 / 10 ^ k)) with 0; [apply rnd_0|].
    unfold Rdiv. rewrite Rmult_0_l, Rmult_0_r. reflexivity. }
  destruct m as [|p].
  { rewrite (Hz eq_refl). destruct k; cbn; (split; [split; reflexivity|reflexivity]). }
  clear Hz. destruct k as [|k].
  - cbn [f_of_dec f_of_Z].
    pose proof (binary_round_correct prec emax Hprec Hmax mode_NE neg p 0) as [V K]. cbv zeta in K.
    assert (Ex : F2R (Float radix2 (cond_Zopp neg (Zpos p)) 0) = dval neg (Npos p) 0).
    { unfold F2R, dval. cbn [Fnum Fexp bpow pow Z.of_N]. destruct neg; cbn [cond_Zopp]; [change (Z.neg p) with (- Z.pos p)%Z; rewrite opp_IZR|]; field. }
    change (round radix2 (SpecFloat.fexp prec emax) (round_mode mode_NE)) with rnd in K. rewrite Ex in K.
    rewrite (rnd_small _ H) in K. destruct K as (K1 & K2 & _).
    assert (Eq : SpecFloat.binary_normalize prec emax (if neg then Z.neg p else Z.pos p) 0 neg = binary_round prec emax mode_NE neg p 0).
    { destruct neg; cbn; apply binary_round_equiv. }
    rewrite Eq. split; [split; assumption|exact K1].
  - assert (Hp : exists q, (10 ^ N.of_nat (S k))%N = Npos q /\ IZR (Zpos q) = 10 ^ S k).
    { destruct (10 ^ N.of_nat (S k))%N as [|q] eqn:Eq.
      - exfalso. apply (N.pow_nonzero 10 (N.of_nat (S k))); [discriminate|exact Eq].
      - exists q. split; [reflexivity|]. change (Zpos q) with (Z.of_N (Npos q)). rewrite <- Eq, N2Z.inj_pow, nat_N_Z.
        change (Z.of_N 10) with 10%Z. rewrite (pow_IZR 10 (S k)). reflexivity. }
    destruct Hp as (q & Eq & Hq). unfold f_of_dec. rewrite Eq.
    pose proof (Bdiv_correct_aux prec emax Hprec Hmax mode_NE neg p 0 false q 0) as [V K].
    assert (Ez : SFdiv prec emax (S754_finite neg p 0) (S754_finite false q 0) =
      (let '(mz, ez, lz) := SFdiv_core_binary prec emax (Zpos p) 0 (Zpos q) 0 in
       binary_round_aux prec emax mode_NE (xorb neg false) mz ez lz)).
    { cbn [SFdiv]. destruct (SFdiv_core_binary prec emax (Z.pos p) 0 (Z.pos q) 0) as [[mz ez] lz]. apply binary_round_aux_equiv. }
    rewrite Ez. cbv zeta in K.
    assert (Ex : F2R (Float radix2 (cond_Zopp neg (Zpos p)) 0) / F2R (Float radix2 (cond_Zopp false (Zpos q)) 0) = dval neg (Npos p) (S k)).
    { unfold F2R, dval. cbn [Fnum Fexp bpow Z.of_N]. cbn [cond_Zopp]. rewrite Hq.
      assert (10 ^ S k <> 0) by (apply pow_nonzero; lra).
      destruct neg; cbn [cond_Zopp]; [change (Z.neg p) with (- Z.pos p)%Z; rewrite opp_IZR|]; field; assumption. }
    change (round radix2 (SpecFloat.fexp prec emax) (round_mode mode_NE)) with rnd in K. rewrite Ex in K.
    rewrite (rnd_small _ H) in K. destruct K as (K1 & K2 & _). split; [split; assumption|exact K1].
Qed.

(** ** Writing decimals *)

Lemma near_div_spec : forall n d, (0 < d)%Z -> (Z.abs (2 * (near_div n d * d - n)) <= d)%Z.
Proof.
  intros n d Hd. unfold near_div. pose proof (Z.div_mod n d ltac:(lia)) as H1. pose proof (Z.mod_pos_bound n d Hd) as H2.
  set (q := (n / d)%Z) in *. set (r := (n mod d)%Z) in *.
  destruct (2 * r <? d)%Z eqn:E1; [apply Z.ltb_lt in E1; nia|apply Z.ltb_ge in E1].
  destruct (d <? 2 * r)%Z eqn:E2; [apply Z.ltb_lt in E2; nia|apply Z.ltb_ge in E2].
  destruct (Z.even q); nia.
Qed.
Lemma near_div_nonneg : forall n d, (0 < d)%Z -> (0 <= n)%Z -> (0 <= near_div n d)%Z.
Proof.
  intros n d Hd Hn. unfold near_div. pose proof (Z.div_pos n d Hn Hd).
  destruct (_ <? _)%Z; [|destruct (_ <? _)%Z; [|destruct (Z.even _)]]; lia.
Qed.

Lemma f_dec_val : forall d x, fin x -> exists neg m, f_dec d x = DFin neg m /\
  (fval x < 0 -> neg = true) /\ (0 < fval x -> neg = false) /\
  Rabs (IZR (Z.of_N m) - Rabs (fval x) * 10 ^ d) <= / 2.
Proof.
  intros d x [Hv Hf]. destruct x as [s|s| |s m e]; try discriminate Hf.
  - exists s, 0%N. split; [reflexivity|]. unfold fval. cbn [SF2R]. split; [lra|]. split; [lra|].
    cbn [Z.of_N]. rewrite Rabs_R0. replace (0 - 0 * 10 ^ d) with 0 by ring. rewrite Rabs_R0. lra.
  - cbn [f_dec]. eexists s, _. split; [reflexivity|]. unfold fval. cbn [SF2R].
    assert (Hp : 0 < F2R (Float radix2 (Zpos m) e)) by (apply F2R_gt_0; reflexivity).
    rewrite F2R_cond_Zopp. split; [|split].
    + destruct s; [reflexivity|]. cbn [cond_Ropp]. lra.
    + destruct s; [|reflexivity]. cbn [cond_Ropp]. lra.
    + rewrite abs_cond_Ropp, (Rabs_pos_eq (F2R (Float radix2 (Zpos m) e))) by lra.
      assert (H10 : IZR (10 ^ Z.of_nat d) = 10 ^ d) by (rewrite (pow_IZR 10 d); reflexivity).
      rewrite <- H10. unfold F2R. cbn [Fnum Fexp]. destruct (0 <=? e)%Z eqn:E.
      * apply Z.leb_le in E. rewrite Z2N.id by (apply Z.mul_nonneg_nonneg; [apply Z.mul_nonneg_nonneg|]; try lia; apply Z.pow_nonneg; lia).
        rewrite !mult_IZR. replace (bpow radix2 e) with (IZR (2 ^ e)) by (rewrite <- (IZR_Zpower radix2) by exact E; reflexivity).
        match goal with |- Rabs ?t <= _ => replace t with 0 by ring end. rewrite Rabs_R0. lra.
      * apply Z.leb_gt in E. assert (Hd : (0 < 2 ^ (- e))%Z) by (apply Z.pow_pos_nonneg; lia).
        rewrite Z2N.id by (apply near_div_nonneg; [exact Hd|]; apply Z.mul_nonneg_nonneg; [lia|apply Z.pow_nonneg; lia]).
        set (n := (Z.pos m * 10 ^ Z.of_nat d)%Z). pose proof (near_div_spec n _ Hd) as K.
        assert (Eb : bpow radix2 e = / IZR (2 ^ (- e))).
        { rewrite <- (Z.opp_involutive e) at 1. rewrite bpow_opp. f_equal. rewrite <- (IZR_Zpower radix2) by lia. reflexivity. }
        rewrite Eb. set (D := (2 ^ - e)%Z) in *. assert (HD : 0 < IZR D) by (apply IZR_lt; exact Hd).
        replace (IZR (near_div n D) - IZR (Z.pos m) * / IZR D * IZR (10 ^ Z.of_nat d))
          with ((IZR (near_div n D) * IZR D - IZR n) / IZR D) by (unfold n; rewrite mult_IZR; field; lra).
        apply IZR_le in K. rewrite abs_IZR, mult_IZR, minus_IZR, mult_IZR in K.
        rewrite Rabs_mult, (Rabs_pos_eq 2) in K by lra.
        unfold Rdiv. rewrite Rabs_mult, (Rabs_pos_eq (/ IZR D)) by (left; apply Rinv_0_lt_compat; exact HD).
        apply Rmult_le_reg_r with (IZR D); [exact HD|]. rewrite Rmult_assoc, Rinv_l, Rmult_1_r by lra. lra.
Qed.

(** ** Rounding errors *)

Definition ulp1 : R := bpow radix2 (-53).
Definition tiny : R := bpow radix2 (-1075).

Lemma rnd_err : forall x, Rabs (rnd x - x) <= ulp1 * Rabs x + tiny.
Proof.
  intros x. destruct (error_N_FLT radix2 (-1074) 53 ltac:(reflexivity) (fun z => negb (Z.even z)) x) as (eps & eta & H1 & H2 & H3 & H4).
  assert (Hr : rnd x = x * (1 + eps) + eta) by (rewrite <- H4; unfold rnd; apply round_ext; intros z; reflexivity).
  rewrite Hr.
  replace (x * (1 + eps) + eta - x) with (x * eps + eta) by ring.
  eapply Rle_trans; [apply Rabs_triang|]. rewrite Rabs_mult. apply Rplus_le_compat.
  - rewrite Rmult_comm. apply Rmult_le_compat_r; [apply Rabs_pos|].
    eapply Rle_trans; [exact H1|]. apply Req_le. unfold ulp1. change (/ 2) with (bpow radix2 (-1)). rewrite <- bpow_plus. reflexivity.
  - eapply Rle_trans; [exact H2|]. apply Req_le. unfold tiny. change (/ 2) with (bpow radix2 (-1)). rewrite <- bpow_plus. reflexivity.
Qed.

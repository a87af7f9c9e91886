(** * P_FloatTempcal: temperatures and stable texts with doubles (C40, C42, C101) *)
From Coq Require Import List Ascii String ZArith NArith Bool Lia Reals Lra Floats.SpecFloat.
From Flocq Require Import Core Round BinarySingleNaN.
From Verif Require Import PyBase Arith ArithQ ArithR ArithB64 Gcoder Tempcal SpecText SpecLoad SpecMachine SpecTempcal SpecEqual SpecMeasure SpecBinary64.
From Verif Require Import P_Text P_Machine P_Format P_Tempcal P_Float P_FloatText.
Import ListNotations.
Local Open Scope list_scope.
Local Open Scope R_scope.

(** ** Reading any decimal: a number, or an infinity *)

Lemma f_of_dec_any : forall neg m k,
  (exists s, f_of_dec neg m k = S754_infinity s) \/
  fin (f_of_dec neg m k) /\ fval (f_of_dec neg m k) = rnd (dval neg m k).
Proof.
  intros neg m k. destruct (Rle_or_lt (Rabs (dval neg m k)) big) as [H|_].
  { right. apply (f_of_dec_val _ _ _ H). }
  assert (Hz : m = 0%N -> rnd (dval neg m k) = 0).
  { intros ->. unfold dval. cbn [Z.of_N]. replace ((if neg then -1 else 1) * (0 / 10 ^ k)) with 0; [apply rnd_0|].
    unfold Rdiv. rewrite Rmult_0_l, Rmult_0_r. reflexivity. }
  destruct m as [|p]; [right; rewrite (Hz eq_refl); destruct k; cbn; (split; [split; reflexivity|reflexivity])|].
  clear Hz.
  assert (Ho : forall s x r, valid_binary prec emax x = true ->
    (SF2R radix2 x = r /\ is_finite_SF x = true \/ x = binary_overflow prec emax mode_NE s) ->
    (exists b, x = S754_infinity b) \/ fin x /\ fval x = r).
  { intros s x r V [[F1 F]|F]; [right; split; [split; assumption|exact F1]|]. left. exists s. rewrite F. reflexivity. }
  destruct k as [|k].
  - cbn [f_of_dec f_of_Z].
    pose proof (binary_round_correct prec emax Hprec Hmax mode_NE neg p 0) as [V K]. cbv zeta in K.
    assert (Ex : F2R (Float radix2 (cond_Zopp neg (Zpos p)) 0) = dval neg (Npos p) 0).
    { unfold F2R, dval. cbn [Fnum Fexp bpow pow Z.of_N]. destruct neg; cbn [cond_Zopp]; [change (Z.neg p) with (- Z.pos p)%Z; rewrite opp_IZR|]; field. }
    change (round radix2 (SpecFloat.fexp prec emax) (round_mode mode_NE)) with rnd in K. rewrite Ex in K.
    assert (Eq : SpecFloat.binary_normalize prec emax (if neg then Z.neg p else Z.pos p) 0 neg = binary_round prec emax mode_NE neg p 0).
    { destruct neg; cbn; apply binary_round_equiv. }
    rewrite Eq. destruct (Rlt_bool _ _) in K.
    + destruct K as (K1 & K & _). apply (Ho neg _ _ V). now left.
    + apply (Ho neg _ _ V). now right.
  - assert (Hp : exists q, (10 ^ N.of_nat (S k))%N = Npos q /\ IZR (Zpos q) = 10 ^ S k).
    { destruct (10 ^ N.of_nat (S k))%N as [|q] eqn:Eq.
      - exfalso. apply (N.pow_nonzero 10 (N.of_nat (S k))); [discriminate|exact Eq].
      - exists q. split; [reflexivity|]. change (Zpos q) with (Z.of_N (Npos q)). rewrite <- Eq, N2Z.inj_pow, nat_N_Z.
        change (Z.of_N 10) with 10%Z. rewrite (pow_IZR 10 (S k)). reflexivity. }
    destruct Hp as (q & Eq & Hq). unfold f_of_dec. rewrite Eq.
    pose proof (Bdiv_correct_aux prec emax Hprec Hmax mode_NE neg p 0 false q 0) as [V K].
    assert (Ez : SFdiv prec emax (S754_finite neg p 0) (S754_finite false q 0) =
      (let '(mz, ez, lz) := SFdiv_core_binary prec emax (Zpos p) 0 (Zpos q) 0 in
       binary_round_aux prec emax mode_NE (xorb neg false) mz ez lz)).
    { cbn [SFdiv]. destruct (SFdiv_core_binary prec emax (Z.pos p) 0 (Z.pos q) 0) as [[mz ez] lz]. apply binary_round_aux_equiv. }
    rewrite Ez. cbv zeta in K.
    assert (Ex : F2R (Float radix2 (cond_Zopp neg (Zpos p)) 0) / F2R (Float radix2 (cond_Zopp false (Zpos q)) 0) = dval neg (Npos p) (S k)).
    { unfold F2R, dval. cbn [Fnum Fexp bpow Z.of_N]. cbn [cond_Zopp]. rewrite Hq.
      assert (10 ^ S k <> 0) by (apply pow_nonzero; lra).
      destruct neg; cbn [cond_Zopp]; [change (Z.neg p) with (- Z.pos p)%Z; rewrite opp_IZR|]; field; assumption. }
    change (round radix2 (SpecFloat.fexp prec emax) (round_mode mode_NE)) with rnd in K. rewrite Ex in K.
    destruct (Rlt_bool _ _) in K.
    + destruct K as (K1 & K & _). apply (Ho neg _ _ V). now left.
    + apply (Ho (xorb neg false) _ _ V). now right.
Qed.

Lemma py_round_any : forall d (x : num B64), fin (py_round d x) \/ is_finite_SF (py_round (A:=B64) d x) = false.
Proof.
  intros d x. unfold py_round. change (n_dec d x) with (f_dec d x). destruct x as [s|s| |s m e]; cbn [f_dec].
  - destruct (f_of_dec_any s 0 d) as [[b H]|H]; [right; change (@n_of_dec B64) with f_of_dec; rewrite H; reflexivity|left; apply H].
  - right. reflexivity.
  - right. reflexivity.
  - match goal with |- context [n_of_dec s ?n d] => destruct (f_of_dec_any s n d) as [[b H]|H];
      [right; change (@n_of_dec B64) with f_of_dec; rewrite H; reflexivity|left; apply H] end.
Qed.

(** ** Temperatures *)

Lemma fin_lit : forall m, (m <= 3000000)%N -> fin (lit (A:=B64) m 0) /\ fval (lit (A:=B64) m 0) = rnd (IZR (Z.of_N m)).
Proof.
  intros m H. assert (Hd : dval false m 0 = IZR (Z.of_N m)) by (unfold dval; cbn [pow]; field).
  rewrite <- Hd. apply f_of_dec_val. rewrite Hd. apply million_big. rewrite Rabs_pos_eq by (apply IZR_le; lia).
  apply IZR_le. lia.
Qed.

Lemma min_temp : fin (min_temperature (A:=B64)) /\ fval (min_temperature (A:=B64)) = 150.
Proof. split; [split; reflexivity|]. unfold fval. vm_compute SF2R. cbn. unfold F2R. cbn. lra. Qed.
Lemma max_temp : fin (max_temperature (A:=B64)) /\ fval (max_temperature (A:=B64)) = 250.
Proof. split; [split; reflexivity|]. unfold fval. vm_compute SF2R. cbn. unfold F2R. cbn. lra. Qed.

Lemma temperature_B64 : forall t : num B64, fin t \/ is_finite_SF t = false ->
  temperature_gcode t = EmptyString \/
  (fin t /\ 150 <= fval t <= 250 /\ exists m : N, f_dec 1 t = DFin false m /\ (1500 <= m <= 2500)%N /\
     Rabs (IZR (Z.of_N m) - fval t * 10) <= / 2 /\
     temperature_gcode t = ("M104 S" ++ tenths m)%string).
Proof.
  intros t Ht. unfold temperature_gcode.
  destruct (n_leb min_temperature t && n_leb t max_temperature) eqn:Eb; [|now left]. right.
  apply andb_prop in Eb as [E1 E2].
  destruct Ht as [F|F].
  - destruct min_temp as [F1 V1], max_temp as [F2 V2].
    apply (fleb_val _ _ F1 F) in E1. apply (fleb_val _ _ F F2) in E2. rewrite V1 in E1. rewrite V2 in E2.
    split; [exact F|]. split; [lra|]. destruct (f_dec_val 1 t F) as (neg & m & Hd & _ & Hp & He).
    rewrite (Hp ltac:(lra)) in Hd. rewrite (Rabs_pos_eq (fval t)) in He by lra. cbn [pow] in He.
    exists m. split; [exact Hd|].
    assert (Hm : (1500 <= m <= 2500)%N).
    { apply Rabs_le_both in He.
      assert (1499 < IZR (Z.of_N m)) by lra. assert (IZR (Z.of_N m) < 2501) by lra.
      assert (1499 < Z.of_N m)%Z by (apply lt_IZR; assumption). assert (Z.of_N m < 2501)%Z by (apply lt_IZR; assumption). lia. }
    split; [exact Hm|]. split; [rewrite Rmult_1_r in He; exact He|].
    unfold fmt. change (n_dec 1 t) with (f_dec 1 t). rewrite Hd. unfold dec_string, tenths. f_equal.
    change (pow10 1) with 10%N. cbn [String.append].
    assert (Hs : digits_fixed 1 (m mod 10) = N_to_string (m mod 10)).
    { pose proof (N.mod_lt m 10 ltac:(lia)) as Hl. set (u := (m mod 10)%N) in *. clearbody u. clear - Hl.
      destruct u as [|u]; [reflexivity|]. do 4 (destruct u as [u|u|]; try reflexivity; try lia). }
    rewrite Hs. reflexivity.
  - exfalso. destruct t as [s|s| |s m e]; try discriminate F; [|discriminate E1]. destruct s; [discriminate E1|discriminate E2].
Qed.

Lemma tempcal_safe_B64 : forall gr s e mz (g : gcode B64) out x, tempcal gr s e mz g = (out, x) ->
  Forall (fun l => l = EmptyString \/ safe_line l) (added out).
Proof.
  intros gr s e mz g out x H. destruct (tempcal_targets _ _ _ _ _ _ _ H) as (xs & -> & _).
  apply Forall_forall. intros l Hl. apply in_map_iff in Hl as (u & <- & _).
  destruct (temperature_B64 _ (py_round_any 1 u)) as [->|(_ & _ & m & _ & Hm & _ & ->)]; [now left|].
  right. exists m. auto.
Qed.

(** ** Printing what was printed *)

Lemma dval_abs : forall neg m k, Rabs (dval neg m k) = IZR (Z.of_N m) / 10 ^ k.
Proof.
  intros neg m k. unfold dval. rewrite Rabs_mult.
  replace (Rabs (if neg then -1 else 1)) with 1 by (destruct neg; [rewrite Rabs_left; lra|rewrite Rabs_R1; reflexivity]).
  rewrite Rmult_1_l. apply Rabs_pos_eq. apply Rmult_le_pos; [apply IZR_le; lia|].
  left. apply Rinv_0_lt_compat, pow_lt. lra.
Qed.

Lemma f_of_dec_sign : forall neg m k, fin (f_of_dec neg m k) -> fval (f_of_dec neg m k) = 0 -> f_of_dec neg m k = S754_zero neg.
Proof.
  intros neg m k [V F] H. destruct (f_of_dec neg m k) as [s|s| |s p e] eqn:Ex; try discriminate F.
  - f_equal. destruct m as [|p]; [destruct k; cbn in Ex; congruence|]. destruct k as [|k].
    + cbn [f_of_dec f_of_Z] in Ex.
      pose proof (binary_round_correct prec emax Hprec Hmax mode_NE neg p 0) as [_ K]. cbv zeta in K.
      assert (Eq : SpecFloat.binary_normalize prec emax (if neg then Z.neg p else Z.pos p) 0 neg = binary_round prec emax mode_NE neg p 0).
      { destruct neg; cbn; apply binary_round_equiv. }
      rewrite <- Eq, Ex in K. destruct (Rlt_bool _ _) in K; [destruct K as (_ & _ & K); exact K|discriminate K].
    + assert (Hp : exists q, (10 ^ N.of_nat (S k))%N = Npos q).
      { destruct (10 ^ N.of_nat (S k))%N as [|q] eqn:Eq; [|eauto].
        exfalso. apply (N.pow_nonzero 10 (N.of_nat (S k))); [discriminate|exact Eq]. }
      destruct Hp as (q & Eq). unfold f_of_dec in Ex. rewrite Eq in Ex.
      pose proof (Bdiv_correct_aux prec emax Hprec Hmax mode_NE neg p 0 false q 0) as [_ K].
      assert (Ez : SFdiv prec emax (S754_finite neg p 0) (S754_finite false q 0) =
        (let '(mz, ez, lz) := SFdiv_core_binary prec emax (Zpos p) 0 (Zpos q) 0 in
         binary_round_aux prec emax mode_NE (xorb neg false) mz ez lz)).
      { cbn [SFdiv]. destruct (SFdiv_core_binary prec emax (Z.pos p) 0 (Z.pos q) 0) as [[mz ez] lz]. apply binary_round_aux_equiv. }
      rewrite <- Ez, Ex in K. cbv zeta in K. destruct (Rlt_bool _ _) in K; [destruct K as (_ & _ & K)|discriminate K].
      cbn in K. rewrite xorb_false_r in K. exact K.
  - exfalso. unfold fval in H. cbn [SF2R] in H. apply eq_0_F2R in H. destruct s; discriminate H.
Qed.

(** reading a decimal that is not too long and printing it with the same number
    of decimals gives it back *)
Lemma f_dec_of_dec : forall d neg m, (d <= 15)%nat -> IZR (Z.of_N m) <= IZR (2 ^ 51) -> f_dec d (f_of_dec neg m d) = DFin neg m.
Proof.
  intros d neg m Hd15 Hm. assert (H10 : 1 <= 10 ^ d) by (apply pow_R1_Rle; lra).
  assert (Hi : 0 < / 10 ^ d) by (apply Rinv_0_lt_compat; lra).
  assert (Hm0 : 0 <= IZR (Z.of_N m)) by (apply IZR_le; lia).
  assert (Ha : Rabs (dval neg m d) <= IZR (2 ^ 51)).
  { rewrite dval_abs. apply Rle_trans with (IZR (Z.of_N m)); [|exact Hm].
    apply Rmult_le_reg_r with (10 ^ d); [lra|]. unfold Rdiv. rewrite Rmult_assoc, Rinv_l, Rmult_1_r by lra.
    rewrite <- (Rmult_1_r (IZR (Z.of_N m))) at 1. apply Rmult_le_compat_l; lra. }
  destruct (f_of_dec_val neg m d) as [F V].
  { eapply Rle_trans; [exact Ha|]. replace (IZR (2 ^ 51)) with (bpow radix2 51) by reflexivity. apply bpow_le. lia. }
  destruct (f_dec_val d _ F) as (neg' & m' & Hd & Hn & Hp & He). rewrite Hd.
  pose proof (rnd_err (dval neg m d)) as Hr. rewrite <- V in Hr.
  assert (Hmm : m' = m).
  { assert (Hx : Rabs (Rabs (fval (f_of_dec neg m d)) * 10 ^ d - IZR (Z.of_N m)) < / 2).
    { replace (IZR (Z.of_N m)) with (Rabs (dval neg m d) * 10 ^ d) by (rewrite dval_abs; field; lra).
      rewrite <- Rmult_minus_distr_r, Rabs_mult, (Rabs_pos_eq (10 ^ d)) by lra.
      apply Rle_lt_trans with (Rabs (fval (f_of_dec neg m d) - dval neg m d) * 10 ^ d).
      { apply Rmult_le_compat_r; [lra|]. apply Rabs_triang_inv2. }
      apply Rle_lt_trans with ((ulp1 * Rabs (dval neg m d) + tiny) * 10 ^ d); [apply Rmult_le_compat_r; [lra|exact Hr]|].
      rewrite Rmult_plus_distr_r, Rmult_assoc.
      replace (Rabs (dval neg m d) * 10 ^ d) with (IZR (Z.of_N m)) by (rewrite dval_abs; field; lra).
      assert (ulp1 * IZR (Z.of_N m) <= / 4).
      { apply Rle_trans with (ulp1 * IZR (2 ^ 51)); [apply Rmult_le_compat_l; [apply bpow_ge_0|exact Hm]|].
        replace (IZR (2 ^ 51)) with (bpow radix2 51) by reflexivity. unfold ulp1. rewrite <- bpow_plus. cbn. lra. }
      assert (tiny * 10 ^ d < / 4); [|lra].
      assert (10 ^ d <= 10 ^ 15) by (apply Rle_pow; [lra|exact Hd15]).
      pose proof tiny_small' as T. assert (0 <= tiny) by apply bpow_ge_0.
      apply Rle_lt_trans with (/ 100000000000000000000 * 10 ^ 15); [apply Rmult_le_compat; lra|cbn [pow]; lra]. }
    apply Rabs_def2 in Hx. apply Rabs_le_both in He.
    assert (-1 < IZR (Z.of_N m') - IZR (Z.of_N m) < 1) by lra. rewrite <- minus_IZR in H.
    destruct H as [Ha1 Ha2]. apply lt_IZR in Ha1. apply lt_IZR in Ha2. lia. }
  subst m'. f_equal.
  destruct (Req_dec (fval (f_of_dec neg m d)) 0) as [Hz|Hz].
  - rewrite (f_of_dec_sign neg m d F Hz) in Hd. cbn [f_dec] in Hd. injection Hd as Hd _. congruence.
  - assert (Hs : (neg = true -> fval (f_of_dec neg m d) <= 0) /\ (neg = false -> 0 <= fval (f_of_dec neg m d))).
    { assert (Hq : 0 <= IZR (Z.of_N m) / 10 ^ d) by (apply Rmult_le_pos; lra).
      rewrite V. split; intros Hneg; subst neg; unfold dval.
      - replace 0 with (rnd 0) by apply rnd_0. apply round_le; [apply fexp_correct; reflexivity|apply valid_rnd_N|lra].
      - replace 0 with (rnd 0) by apply rnd_0. apply round_le; [apply fexp_correct; reflexivity|apply valid_rnd_N|lra]. }
    destruct Hs as [Hs1 Hs2]. destruct neg.
    + apply Hn. specialize (Hs1 eq_refl). lra.
    + apply Hp. specialize (Hs2 eq_refl). lra.
Qed.

(** ** No temperature twice *)

Lemma tenths_inj : forall m k, tenths m = tenths k -> m = k.
Proof.
  intros m k H. rewrite !tenths_dec in H.
  assert (D : forall n : N, exists neg : bool, py_float (A:=RA) (dec_string 1 n) = Some (n_of_dec false n 1)).
  { intros n. exists false.
    assert (Hx : exists x : num RA, n_dec (a:=RA) 1 x = DFin false n).
    { destruct (val_dec RA exactR 1 (n_of_dec false n 1)) as (neg & m' & Hd & Hn & He).
      exists (n_of_dec false n 1). rewrite (val_of_dec RA exactR) in Hn, He. rewrite Hd.
      assert (H0 : 0 <= IZR (Z.of_N n)) by (apply IZR_le; lia).
      assert (neg = false).
      { destruct neg; [|reflexivity]. exfalso. assert (Hl : 1 * (IZR (Z.of_N n) / 10 ^ 1) < 0) by (apply Hn; reflexivity).
        cbn [pow] in Hl. lra. }
      subst neg. f_equal. rewrite (Rabs_pos_eq (1 * (IZR (Z.of_N n) / 10 ^ 1))) in He by (cbn [pow]; lra).
      apply Rabs_le_both in He. cbn [pow] in He.
      assert (Hr : -1 < IZR (Z.of_N m') - IZR (Z.of_N n) < 1) by lra. rewrite <- minus_IZR in Hr. destruct Hr as [R1 R2].
      apply lt_IZR in R1. apply lt_IZR in R2. lia. }
    destruct Hx as [x Hx]. pose proof (fmt_float 0 x false n Hx) as Hf. unfold fmt in Hf. rewrite Hx in Hf. exact Hf. }
  destruct (D m) as [_ D1], (D k) as [_ D2]. rewrite H, D2 in D1.
  assert (D0 : val exactR (n_of_dec false k 1) = val exactR (n_of_dec false m 1)) by (f_equal; congruence). clear D1.
  rewrite !(val_of_dec RA exactR) in D0. cbn [pow] in D0. assert (D4 : IZR (Z.of_N k) = IZR (Z.of_N m)) by lra. apply eq_IZR in D4. lia.
Qed.

Lemma round_shown : forall u m, fin (py_round (A:=B64) 1 u) -> fval (py_round (A:=B64) 1 u) <= 250 ->
  -250 <= fval (py_round (A:=B64) 1 u) -> f_dec 1 (py_round (A:=B64) 1 u) = DFin false m ->
  py_round (A:=B64) 1 u = f_of_dec false m 1.
Proof.
  intros u m F H H' Hd. unfold py_round in *. change (n_dec 1 u) with (f_dec 1 u) in *.
  destruct (f_dec 1 u) as [neg n|s|] eqn:Eu.
  - change (@n_of_dec B64) with f_of_dec in *.
    assert (Hn : IZR (Z.of_N n) <= IZR (2 ^ 51)).
    { destruct (Rle_or_lt (IZR (Z.of_N n)) (IZR (2 ^ 51))) as [Hn|Hn]; [exact Hn|]. exfalso.
      destruct (f_of_dec_any neg n 1) as [[b Hb]|[_ V]].
      - rewrite Hb in F. destruct F as [_ F]. discriminate F.
      - rewrite V in H, H'.
        assert (Hg : forall x, bpow radix2 40 <= x -> bpow radix2 40 <= rnd x).
        { intros x Hx. apply round_ge_generic; [apply fexp_correct; reflexivity|apply valid_rnd_N| |exact Hx].
          apply generic_format_bpow. vm_compute. discriminate. }
        assert (Hl : forall x, x <= - bpow radix2 40 -> rnd x <= - bpow radix2 40).
        { intros x Hx. apply round_le_generic; [apply fexp_correct; reflexivity|apply valid_rnd_N| |exact Hx].
          apply generic_format_opp, generic_format_bpow. vm_compute. discriminate. }
        assert (E40 : bpow radix2 40 = 1099511627776) by reflexivity.
        change (IZR (2 ^ 51)) with 2251799813685248 in Hn.
        unfold dval in *. cbn [pow] in *. destruct neg.
        + specialize (Hl (-1 * (IZR (Z.of_N n) / (10 * 1))) ltac:(lra)). lra.
        + specialize (Hg (1 * (IZR (Z.of_N n) / (10 * 1))) ltac:(lra)). lra. }
    rewrite (f_dec_of_dec 1 neg n ltac:(lia) Hn) in Hd. injection Hd as -> ->. reflexivity.
  - exfalso. destruct u; try discriminate Eu. destruct F as [_ F]. discriminate F.
  - exfalso. destruct u; try discriminate Eu. destruct F as [_ F]. discriminate F.
Qed.

Lemma tempcal_differ_B64 : forall gr s e mz (g : gcode B64) out x, tempcal gr s e mz g = (out, x) ->
  forall i a b, nth_error (added out) i = Some a -> nth_error (added out) (S i) = Some b ->
    a <> b \/ a = EmptyString /\ b = EmptyString.
Proof.
  intros gr s e mz g out x H i a b Ha Hb. destruct (tempcal_targets _ _ _ _ _ _ _ H) as (xs & Hx & Hd).
  rewrite Hx in Ha, Hb. apply nth_map in Ha as (u & Hu & ->). apply nth_map in Hb as (w & Hw & ->).
  assert (Hne : n_eqb (a:=B64) (py_round 1 w) (py_round 1 u) = false).
  { clear - Hd Hu Hw. remember (@None (num B64)) as last eqn:El. clear El. revert i last Hd Hu Hw.
    induction xs as [|y ys IH]; intros i last Hd Hu Hw; [destruct i; discriminate Hu|].
    cbn [map differ] in Hd. destruct Hd as [_ Hd]. destruct i as [|i].
    - cbn in Hu, Hw. injection Hu as ->. destruct ys as [|v ys]; [discriminate Hw|]. injection Hw as ->.
      cbn [map differ opt_eqb] in Hd. apply Hd.
    - exact (IH i _ Hd Hu Hw). }
  destruct (temperature_B64 _ (py_round_any 1 u)) as [Eu|(Fu & Vu & m & Du & Bu & _ & Eu)];
  destruct (temperature_B64 _ (py_round_any 1 w)) as [Ew|(Fw & Vw & k & Dw & Bw & _ & Ew)]; rewrite Eu, Ew.
  - right. split; reflexivity.
  - left. discriminate.
  - left. discriminate.
  - left. intros Heq. cbn [String.append] in Heq. injection Heq as Heq. apply tenths_inj in Heq. subst k.
    pose proof (round_shown u m Fu ltac:(lra) ltac:(lra) Du) as Ru.
    pose proof (round_shown w m Fw ltac:(lra) ltac:(lra) Dw) as Rw. rewrite Ru in Hne, Fu. rewrite Rw in Hne.
    assert (Ht : n_eqb (a:=B64) (f_of_dec false m 1) (f_of_dec false m 1) = true) by (apply (feqb_val _ _ Fu Fu); reflexivity).
    congruence.
Qed.

(** ** Stable texts *)

(** a number within the range in which doubles are printed faithfully *)
Lemma fmt_stable : forall d (x : num B64), (d <= 5)%nat -> fin x -> Rabs (fval x) <= 10 ^ 9 ->
  fmt d (py_round d x) = fmt d x.
Proof.
  intros d x Hd F Hx. destruct (f_dec_val d x F) as (neg & m & Hm & _ & _ & He).
  unfold py_round, fmt. change (n_dec d x) with (f_dec d x). rewrite Hm.
  change (@n_of_dec B64) with f_of_dec. change (@n_dec B64) with f_dec. rewrite f_dec_of_dec; [reflexivity|lia|].
  assert (H10 : 10 ^ d <= 10 ^ 5) by (apply Rle_pow; [lra|exact Hd]). assert (0 < 10 ^ d) by (apply pow_lt; lra).
  apply Rabs_le_both in He.
  assert (Rabs (fval x) * 10 ^ d <= 10 ^ 9 * 10 ^ 5) by (apply Rmult_le_compat; try assumption; [apply Rabs_pos|lra]).
  change (IZR (2 ^ 51)) with 2251799813685248. cbn [pow] in *. lra.
Qed.

Lemma unsplit_stable : forall s c (a : args B64) (m : mstate B64), command_name s = Some c ->
  first_is "G" c = true -> c <> "G20"%string -> m_imperial m = false ->
  (forall k x, get_arg k a = Some x -> fin x /\ Rabs (fval x) <= 10 ^ 9) ->
  exists m' l', motion_step m (new_line (unsplit_text c a)) = Ok (m', l') /\
    command l' = Some c /\ unsplit_text c (largs l') = unsplit_text c a.
Proof.
  intros s c a m H1 H2 H3 H4 H5.
  assert (Hf : finite_args a) by (apply all_fin_finite; intros k x Hk; apply (H5 k x Hk)).
  destruct (unsplit_reads s c a m H1 H2 H3 H4 Hf) as (m' & l' & G1 & G2 & _ & G4).
  exists m', l'. split; [exact G1|]. split; [exact G2|]. rewrite G4. unfold unsplit_text. f_equal. f_equal.
  apply map_ext. intros k. unfold word_text. rewrite get_rounded. destruct (get_arg k a) as [x|] eqn:Ek; [|reflexivity].
  cbn [option_map]. destruct (H5 k x Ek) as [F B]. rewrite fmt_stable; [reflexivity| |exact F|exact B].
  destruct k; cbn; lia.
Qed.

(** ** Lines whose numbers are modest *)

Definition modest_word (v : string) : bool :=
  match py_float (A:=QA) v with
  | Some q => n_leb q (n_of_dec false 1000000 0) && n_leb (n_of_dec true 1000000 0) q
  | None => true
  end.
Definition modestb (s : string) : bool := forallb (fun w => modest_word (snd w)) (words s).

Lemma modestb_ok : forall s, modestb s = true -> modest s.
Proof.
  intros s H k v Hv. unfold modestb in H. rewrite forallb_forall in H. revert Hv.
  induction (words s) as [|[c w] ws IH]; cbn [number_of]; [discriminate|].
  destruct (number_of (letter_code k) ws) as [x|] eqn:En.
  - intros Hv. apply IH; [|exact Hv]. intros t Ht. apply H. right. exact Ht.
  - destruct (String.eqb c (letter_code k) && negb (is_empty w)); [|discriminate]. intros Hv.
    specialize (H (c, w) (or_introl eq_refl)). cbn [snd] in H. unfold modest_word in H.
    pose proof (py_float_val exactQ w) as Hw. destruct (py_float (A:=QA) w) as [q|]; cbn [option_map] in Hw; [|congruence].
    apply andb_prop in H as [H1 H2]. apply (val_leb QA exactQ) in H1, H2. rewrite (val_of_dec QA exactQ) in H1, H2.
    rewrite Hv in Hw. injection Hw as Hw. rewrite <- Hw.
    assert (E6 : 10 ^ 6 = 1000000) by (cbn [pow]; lra). rewrite E6.
    cbn in H1, H2. apply Rabs_le. cbn. lra.
Qed.

Lemma modest_all : forall ss, forallb modestb ss = true -> Forall modest ss.
Proof. intros ss H. apply Forall_forall. intros s Hs. apply modestb_ok. rewrite forallb_forall in H. apply H, Hs. Qed.

(** ** Numbers within a bound *)

Definition fwithin (b x : num B64) : bool :=
  valid_binary prec emax x && is_finite_SF x && SFleb x b && SFleb (SFopp b) x.

Lemma fwithin_ok : forall b x, fin b -> fwithin b x = true -> fin x /\ Rabs (fval x) <= fval b.
Proof.
  intros b x Hb H. unfold fwithin in H. apply andb_prop in H as [H H4]. apply andb_prop in H as [H H3].
  apply andb_prop in H as [H1 H2]. assert (Hx : fin x) by (split; assumption). split; [exact Hx|].
  assert (Hb' : fin (SFopp b)) by (destruct Hb as [V F]; destruct b; try discriminate F; split; [exact V|exact F|exact V|exact F]).
  apply (fleb_val _ _ Hx Hb) in H3. apply (fleb_val _ _ Hb' Hx) in H4.
  assert (Ho : fval (SFopp b) = - fval b).
  { destruct b as [s|s| |s m e]; try (cbn; lra). unfold fval, SFopp, SF2R. destruct s; cbn [negb cond_Zopp].
    - change (Z.neg m) with (- Z.pos m)%Z. rewrite F2R_Zopp. lra.
    - change (Z.neg m) with (- Z.pos m)%Z. rewrite F2R_Zopp. lra. }
  rewrite Ho in H4. apply Rabs_le. lra.
Qed.

Lemma modest_shift_num : forall x : num B64, fwithin (lit 1000000 0) x = true -> modest_shift (Some x).
Proof.
  intros x H. assert (Hb : fin (lit (A:=B64) 1000000 0)) by (split; vm_compute; reflexivity).
  destruct (fwithin_ok _ _ Hb H) as [Hx Hv]. split; [exact Hx|].
  replace (10 ^ 6) with (fval (lit (A:=B64) 1000000 0)); [exact Hv|].
  replace (lit (A:=B64) 1000000 0) with (S754_finite false 8589934592000000 (-33)) by (vm_compute; reflexivity).
  unfold fval, SF2R, F2R. cbn [Fnum Fexp cond_Zopp]. change (bpow radix2 (-33)) with (/ 8589934592).
  cbn [pow]. lra.
Qed.

Lemma fwithin_billion : forall x : num B64, fwithin (lit 1000000000 0) x = true -> fin x /\ Rabs (fval x) <= 10 ^ 9.
Proof.
  intros x H. assert (Hb : fin (lit (A:=B64) 1000000000 0)) by (split; vm_compute; reflexivity).
  destruct (fwithin_ok _ _ Hb H) as [Hx Hv]. split; [exact Hx|].
  replace (10 ^ 9) with (fval (lit (A:=B64) 1000000000 0)); [exact Hv|].
  replace (lit (A:=B64) 1000000000 0) with (S754_finite false 8388608000000000 (-23)) by (vm_compute; reflexivity).
  unfold fval, SF2R, F2R. cbn [Fnum Fexp cond_Zopp]. change (bpow radix2 (-23)) with (/ 8388608).
  cbn [pow]. lra.
Qed.

(** the arguments of "G1 X(0.1 + 0.2) E-2.000005" *)
Definition some_args : args B64 :=
  Args (Some (n_add (lit 1 1) (lit 2 1))) None None (Some (n_of_dec true 2000005 6)) None None None.

Lemma some_args_fine : forall k x, get_arg k some_args = Some x -> fin x /\ Rabs (fval x) <= 10 ^ 9.
Proof.
  intros k x H. apply fwithin_billion. destruct k; try discriminate H; injection H as <-; vm_compute; reflexivity.
Qed.

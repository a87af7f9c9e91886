(** * ArithQ: exact rational arithmetic, used for computable examples

    Square roots and angles are rational approximations here (they carry no
    law in [exact] beyond non-negativity of [n_hypot]). *)
From Coq Require Import List ZArith NArith QArith Qreals Reals Bool Lra Lia Qround Qabs.
From Verif Require Import PyBase Arith.
Local Open Scope Q_scope.

(** nearest integer to [n/d], ties to even ([n >= 0]) *)
Definition div_half_even (n d : Z) : Z :=
  let q := (n / d)%Z in
  let r := (2 * (n mod d))%Z in
  if (r <? d)%Z then q
  else if (d <? r)%Z then (q + 1)%Z
  else if Z.even q then q else (q + 1)%Z.

Definition q_of_dec (neg : bool) (m : N) (k : nat) : Q :=
  let q := Qred (Z.of_N m # Z.to_pos (10 ^ Z.of_nat k)) in
  if neg then Qred (- q) else q.

Definition q_dec (d : nat) (x : Q) : dec :=
  DFin (Qnum x <? 0)%Z
       (Z.to_N (div_half_even (Z.abs (Qnum x) * 10 ^ Z.of_nat d) (Zpos (Qden x)))).

(** rational approximation of the square root, 9 decimals *)
Definition q_sqrt (x : Q) : Q :=
  Qred (Z.sqrt (Qfloor (x * (10 ^ 18 # 1))) # 10 ^ 9).

Definition q_mod (a b : Q) : Q := Qred (a - b * inject_Z (Qfloor (a / b))).

Definition q_trunc (x : Q) : Z :=
  if (Qnum x <? 0)%Z then (- Qfloor (- x))%Z else Qfloor x.

Definition QA : arith := {|
  num := Q;
  n_of_dec := q_of_dec;
  n_dec := q_dec;
  n_add := fun a b => Qred (a + b);
  n_sub := fun a b => Qred (a - b);
  n_mul := fun a b => Qred (a * b);
  n_div := fun a b => Qred (a / b);
  n_mod := q_mod;
  n_opp := fun a => Qred (- a);
  n_abs := fun a => Qred (Qabs a);
  n_sqrt := q_sqrt;
  n_hypot := fun a b => q_sqrt (a * a + b * b);
  n_phase := fun _ _ => 0;
  n_sin := fun x => x;
  n_pi := 314159265 # 100000000;
  n_ltb := fun a b => negb (Qle_bool b a);
  n_leb := Qle_bool;
  n_eqb := Qeq_bool;
  n_trunc := q_trunc
|}.

Lemma div_half_even_spec : forall n d, (0 <= n)%Z -> (0 < d)%Z ->
  (2 * Z.abs (div_half_even n d * d - n) <= d)%Z /\ (0 <= div_half_even n d)%Z.
Proof.
  intros n d Hn Hd. unfold div_half_even.
  pose proof (Z.div_mod n d ltac:(lia)) as Hdm.
  pose proof (Z.mod_pos_bound n d Hd) as Hb.
  assert (Hq : (0 <= n / d)%Z) by (apply Z.div_pos; lia).
  set (q := (n / d)%Z) in *. set (r := (n mod d)%Z) in *.
  assert (E1 : (q * d - n = - r)%Z) by nia.
  assert (E2 : ((q + 1) * d - n = d - r)%Z) by nia.
  destruct (Z.ltb_spec (2 * r) d); [rewrite E1; lia|].
  destruct (Z.ltb_spec d (2 * r)); [rewrite E2; lia|].
  destruct (Z.even q); [rewrite E1|rewrite E2]; lia.
Qed.

Lemma Q2R_red : forall q, Q2R (Qred q) = Q2R q.
Proof. intros q. apply Qeq_eqR, Qred_correct. Qed.

Lemma IZR_pow10 : forall k, IZR (10 ^ Z.of_nat k) = (10 ^ k)%R.
Proof.
  intros k. rewrite <- pow_IZR. reflexivity.
Qed.

Lemma pow10_posR : forall k, (0 < 10 ^ k)%R.
Proof. intros k. apply pow_lt. lra. Qed.

Lemma q_val_of_dec : forall neg m k,
  Q2R (q_of_dec neg m k) =
  ((if neg then -1 else 1) * (IZR (Z.of_N m) / 10 ^ k))%R.
Proof.
  intros neg m k. unfold q_of_dec.
  assert (H : Q2R (Qred (Z.of_N m # Z.to_pos (10 ^ Z.of_nat k))) =
              (IZR (Z.of_N m) / 10 ^ k)%R).
  { rewrite Q2R_red. unfold Q2R. cbn [Qnum Qden].
    rewrite Z2Pos.id by (apply Z.pow_pos_nonneg; lia).
    rewrite IZR_pow10. reflexivity. }
  destruct neg; [rewrite Q2R_red, Q2R_opp|]; rewrite H; lra.
Qed.

Lemma q_val_dec : forall d a, exists neg m,
  q_dec d a = DFin neg m /\
  (neg = true <-> (Q2R a < 0)%R) /\
  (Rabs (IZR (Z.of_N m) - Rabs (Q2R a) * 10 ^ d) <= / 2)%R.
Proof.
  intros d a. unfold q_dec.
  exists (Qnum a <? 0)%Z, (Z.to_N (div_half_even (Z.abs (Qnum a) * 10 ^ Z.of_nat d) (Zpos (Qden a)))).
  split; [reflexivity|split].
  - rewrite Z.ltb_lt. unfold Q2R.
    assert (Hd : (0 < / IZR (Zpos (Qden a)))%R)
      by (apply Rinv_0_lt_compat, IZR_lt; lia).
    split; intros H.
    + apply IZR_lt in H. nra.
    + apply lt_IZR. nra.
  - set (n := (Z.abs (Qnum a) * 10 ^ Z.of_nat d)%Z). set (dd := Zpos (Qden a)).
    assert (Hn : (0 <= n)%Z) by (unfold n; apply Z.mul_nonneg_nonneg; [lia|apply Z.pow_nonneg; lia]).
    assert (Hdd : (0 < dd)%Z) by (unfold dd; lia).
    destruct (div_half_even_spec n dd Hn Hdd) as [H1 H2].
    rewrite Z2N.id by exact H2.
    assert (HD : (0 < IZR dd)%R) by (apply IZR_lt; exact Hdd).
    assert (Habs : (Rabs (Q2R a) * 10 ^ d = IZR n / IZR dd)%R).
    { unfold Q2R, n. fold dd. rewrite Rabs_mult, <- abs_IZR, (Rabs_pos_eq (/ _)).
      - rewrite mult_IZR, IZR_pow10. field. lra.
      - left. apply Rinv_0_lt_compat. exact HD. }
    rewrite Habs.
    apply IZR_le in H1. rewrite mult_IZR, abs_IZR, minus_IZR, mult_IZR in H1.
    replace (IZR (div_half_even n dd) - IZR n / IZR dd)%R
      with ((IZR (div_half_even n dd) * IZR dd - IZR n) * / IZR dd)%R by (field; lra).
    rewrite Rabs_mult, (Rabs_pos_eq (/ IZR dd)) by (left; apply Rinv_0_lt_compat; exact HD).
    apply Rmult_le_reg_r with (IZR dd); [exact HD|].
    rewrite Rmult_assoc, Rinv_l by lra. lra.
Qed.

Lemma q_hypot_nonneg : forall x, (0 <= Q2R (q_sqrt x))%R.
Proof.
  intros x. unfold q_sqrt. rewrite Q2R_red. unfold Q2R. cbn [Qnum Qden].
  apply Rmult_le_pos; [apply IZR_le, Z.sqrt_nonneg|].
  left. apply Rinv_0_lt_compat, IZR_lt. lia.
Qed.

Definition exactQ : exact QA.
Proof.
  refine {| val := (Q2R : num QA -> R) |};
  cbn [num n_of_dec n_dec n_add n_sub n_mul n_div n_opp n_abs n_hypot n_ltb n_leb n_eqb QA].
  - exact q_val_of_dec.
  - intros a b. rewrite Q2R_red. apply Q2R_plus.
  - intros a b. rewrite Q2R_red. apply Q2R_minus.
  - intros a b. rewrite Q2R_red. apply Q2R_mult.
  - intros a b Hb. rewrite Q2R_red. apply Q2R_div.
    intros H. apply Hb. rewrite (Qeq_eqR _ _ H). unfold Q2R; simpl; lra.
  - intros a. rewrite Q2R_red. apply Q2R_opp.
  - intros a. rewrite Q2R_red. unfold Qabs, Q2R. destruct a as [n d]. cbn [Qnum Qden].
    rewrite Rabs_mult, <- abs_IZR, (Rabs_pos_eq (/ _)); [reflexivity|].
    left. apply Rinv_0_lt_compat, IZR_lt. lia.
  - intros a b. rewrite Bool.negb_true_iff. split; intros H.
    + apply Qlt_Rlt. apply Qnot_le_lt. intros Hle.
      apply Qle_bool_iff in Hle. rewrite Hle in H. discriminate H.
    + destruct (Qle_bool b a) eqn:E; [|reflexivity].
      apply Qle_bool_iff, Qle_Rle in E. lra.
  - intros a b. rewrite Qle_bool_iff. split; intros H;
      [apply Qle_Rle|apply Rle_Qle]; exact H.
  - intros a b. rewrite Qeq_bool_iff. split; intros H;
      [apply Qeq_eqR|apply eqR_Qeq]; exact H.
  - exact q_val_dec.
  - intros a b. apply q_hypot_nonneg.
Defined.

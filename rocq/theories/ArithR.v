(** * ArithR: exact real arithmetic, used for the geometric theorems *)
From Coq Require Import List ZArith NArith Reals Bool Lra Lia.
From Verif Require Import PyBase Arith.
Local Open Scope R_scope.

(** decidable comparisons *)
Definition r_ltb (a b : R) : bool := if Rlt_dec a b then true else false.
Definition r_leb (a b : R) : bool := if Rle_dec a b then true else false.
Definition r_eqb (a b : R) : bool := if Req_EM_T a b then true else false.

Lemma r_ltb_iff : forall a b, r_ltb a b = true <-> a < b.
Proof. intros a b. unfold r_ltb. destruct (Rlt_dec a b); split; intros H; try lra; discriminate H. Qed.
Lemma r_leb_iff : forall a b, r_leb a b = true <-> a <= b.
Proof. intros a b. unfold r_leb. destruct (Rle_dec a b); split; intros H; try lra; discriminate H. Qed.
Lemma r_eqb_iff : forall a b, r_eqb a b = true <-> a = b.
Proof. intros a b. unfold r_eqb. destruct (Req_EM_T a b); split; intros H; try lra; discriminate H. Qed.

(** floor *)
Definition r_floor (x : R) : Z := (up x - 1)%Z.

Lemma r_floor_spec : forall x, IZR (r_floor x) <= x < IZR (r_floor x) + 1.
Proof.
  intros x. unfold r_floor. destruct (archimed x) as [H1 H2].
  rewrite minus_IZR. lra.
Qed.

(** nearest integer, ties to even *)
Definition r_near (x : R) : Z :=
  let k := r_floor x in
  let f := x - IZR k in
  if r_ltb f (/2) then k
  else if r_ltb (/2) f then (k + 1)%Z
  else if Z.even k then k else (k + 1)%Z.

Lemma r_near_spec : forall x, Rabs (IZR (r_near x) - x) <= / 2.
Proof.
  intros x. unfold r_near. pose proof (r_floor_spec x) as H.
  set (k := r_floor x) in *.
  destruct (r_ltb (x - IZR k) (/2)) eqn:E1.
  - apply r_ltb_iff in E1. apply Rabs_le. lra.
  - assert (H1 : ~ x - IZR k < /2) by (rewrite <- r_ltb_iff, E1; discriminate).
    destruct (r_ltb (/2) (x - IZR k)) eqn:E2.
    + apply r_ltb_iff in E2. rewrite plus_IZR. apply Rabs_le. lra.
    + assert (H2 : ~ / 2 < x - IZR k) by (rewrite <- r_ltb_iff, E2; discriminate).
      destruct (Z.even k); rewrite ?plus_IZR; apply Rabs_le; lra.
Qed.

Lemma Rabs_def2_le : forall x a, Rabs x <= a -> - a <= x <= a.
Proof. intros x a H. unfold Rabs in H. destruct (Rcase_abs x); lra. Qed.

Lemma r_near_nonneg : forall x, 0 <= x -> (0 <= r_near x)%Z.
Proof.
  intros x Hx. pose proof (r_near_spec x) as H. apply Rabs_def2_le in H.
  assert (H1 : -1 < IZR (r_near x)) by lra.
  apply lt_IZR in H1. lia.
Qed.

(** [cmath.phase(complex(x, y))] on the reals *)
Definition r_phase (x y : R) : R :=
  if r_ltb 0 x then atan (y / x)
  else if r_ltb x 0 then (if r_leb 0 y then atan (y / x) + PI else atan (y / x) - PI)
  else if r_ltb 0 y then PI / 2
  else if r_ltb y 0 then - (PI / 2)
  else 0.

Definition r_trunc (x : R) : Z :=
  if r_ltb x 0 then (- r_floor (- x))%Z else r_floor x.

Definition RA : arith := {|
  num := R;
  n_of_dec := fun neg m k => (if neg then -1 else 1) * (IZR (Z.of_N m) / 10 ^ k);
  n_dec := fun d x => DFin (r_ltb x 0) (Z.to_N (r_near (Rabs x * 10 ^ d)));
  n_add := Rplus;
  n_sub := Rminus;
  n_mul := Rmult;
  n_div := Rdiv;
  n_mod := fun a b => a - b * IZR (r_floor (a / b));
  n_opp := Ropp;
  n_abs := Rabs;
  n_sqrt := sqrt;
  n_hypot := fun a b => sqrt (a * a + b * b);
  n_phase := r_phase;
  n_sin := sin;
  n_pi := PI;
  n_ltb := r_ltb;
  n_leb := r_leb;
  n_eqb := r_eqb;
  n_trunc := r_trunc
|}.

Definition exactR : exact RA.
Proof.
  refine {| val := ((fun x => x) : num RA -> R) |}; cbn; try reflexivity.
  - exact r_ltb_iff.
  - exact r_leb_iff.
  - exact r_eqb_iff.
  - intros d a. exists (r_ltb a 0), (Z.to_N (r_near (Rabs a * 10 ^ d))).
    split; [reflexivity|split; [apply r_ltb_iff|]].
    assert (Hp : 0 <= Rabs a * 10 ^ d)
      by (apply Rmult_le_pos; [apply Rabs_pos|left; apply pow_lt; lra]).
    rewrite Z2N.id by (apply r_near_nonneg; exact Hp).
    apply r_near_spec.
  - intros a b. apply sqrt_pos.
Defined.

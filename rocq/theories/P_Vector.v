(** * P_Vector: the laws of vectors over the reals (C66, C67) *)
From Coq Require Import List String ZArith Bool Reals Lra Lia Psatz.
From Coq Require Import Floats.SpecFloat.
From Verif Require Import PyBase Arith ArithR ArithB64 Vector SpecVector.
Local Open Scope R_scope.

Ltac vec := intros; repeat match goal with v : vec _ |- _ => destruct v end;
  unfold distance_squared, reflect, cross, magnitude_squared, v_add, v_sub, v_scale, v_neg, v_dot, origin in *;
  cbn [vx vy vz RA num n_add n_sub n_mul n_opp n_sqrt] in *.

Lemma n0_R : n0 (A:=RA) = 0.
Proof. unfold n0, lit. cbn. lra. Qed.
Lemma n2_R : n2 (A:=RA) = 2.
Proof. unfold n2, lit. cbn. lra. Qed.

Lemma vec_eq : forall a b c a' b' c' : R, a = a' -> b = b' -> c = c' -> Vec (A:=RA) a b c = Vec (A:=RA) a' b' c'.
Proof. now intros; subst. Qed.
Ltac ve := apply vec_eq; rewrite ?n0_R, ?n2_R; try ring.

(** ** Vector space *)

Lemma add_comm : forall a b : vec RA, v_add a b = v_add b a.
Proof. vec. ve. Qed.
Lemma add_assoc : forall a b c : vec RA, v_add a (v_add b c) = v_add (v_add a b) c.
Proof. vec. ve. Qed.
Lemma add_origin : forall a : vec RA, v_add a origin = a.
Proof. vec. ve. Qed.
Lemma add_neg : forall a : vec RA, v_add a (v_neg a) = origin.
Proof. vec. ve. Qed.
Lemma sub_neg : forall a b : vec RA, v_sub a b = v_add a (v_neg b).
Proof. vec. ve. Qed.
Lemma scale_1 : forall a : vec RA, v_scale a 1 = a.
Proof. vec. ve. Qed.
Lemma scale_scale : forall (a : vec RA) (j k : R), v_scale (v_scale a j) k = v_scale a (j * k).
Proof. vec. ve. Qed.
Lemma scale_add : forall (a b : vec RA) (k : R), v_scale (v_add a b) k = v_add (v_scale a k) (v_scale b k).
Proof. vec. ve. Qed.
Lemma scale_sum : forall (a : vec RA) (j k : R), v_scale a (j + k) = v_add (v_scale a j) (v_scale a k).
Proof. vec. ve. Qed.

Lemma div_by : forall (a : vec RA) (k : R),
  v_div a k = if r_eqb k 0 then Err ZeroDivisionError else Ok (v_scale a (/ k)).
Proof.
  intros a k. unfold v_div, py_div. rewrite n0_R. cbn [RA n_eqb]. destruct (r_eqb k 0); reflexivity.
Qed.

Lemma div_nonzero : forall (a : vec RA) (k : R), k <> 0 -> v_div a k = Ok (v_scale a (/ k)).
Proof.
  intros a k Hk. rewrite div_by. destruct (r_eqb k 0) eqn:E; [apply r_eqb_iff in E; contradiction|reflexivity].
Qed.

(** ** Products *)

Lemma cross_left : forall a b : vec RA, v_dot a (cross a b) = 0.
Proof. vec. ring. Qed.
Lemma cross_right : forall a b : vec RA, v_dot b (cross a b) = 0.
Proof. vec. ring. Qed.
Lemma cross_anti : forall a b : vec RA, cross b a = v_neg (cross a b).
Proof. vec. ve. Qed.
Lemma cross_length : forall a b : vec RA,
  magnitude_squared (cross a b) = magnitude_squared a * magnitude_squared b - v_dot a b * v_dot a b.
Proof. vec. ring. Qed.

Lemma squares : forall a : vec RA, 0 <= v_dot a a.
Proof. vec. nra. Qed.
Lemma magnitude_sq : forall a : vec RA, magnitude a * magnitude a = v_dot a a.
Proof. intros a. unfold magnitude. cbn [RA n_sqrt]. apply sqrt_sqrt. apply squares. Qed.
Lemma magnitude_pos : forall a : vec RA, 0 <= magnitude a.
Proof. intros a. unfold magnitude. cbn [RA n_sqrt]. apply sqrt_pos. Qed.

Lemma zero_vec : forall a : vec RA, v_dot a a = 0 -> a = origin.
Proof.
  intros [x y z]. unfold v_dot, origin. cbn [vx vy vz RA n_add n_mul]. intros H. rewrite n0_R.
  apply vec_eq; nra.
Qed.

Lemma magnitude_zero : forall a : vec RA, magnitude a = 0 <-> a = origin.
Proof.
  intros a. split.
  - intros H. apply zero_vec. rewrite <- magnitude_sq, H. exact (Rmult_0_l 0).
  - intros ->. unfold magnitude, magnitude_squared, origin. cbn [vx vy vz RA n_add n_mul n_sqrt]. rewrite n0_R.
    replace (0 * 0 + 0 * 0 + 0 * 0) with 0 by ring. apply sqrt_0.
Qed.

Lemma magnitude_scale : forall (a : vec RA) (k : R), magnitude (v_scale a k) = Rabs k * magnitude a.
Proof.
  intros a k. unfold magnitude. cbn [RA n_sqrt].
  replace (magnitude_squared (v_scale a k)) with ((k * k) * magnitude_squared a) by (vec; ring).
  rewrite sqrt_mult_alt by nra. f_equal. apply sqrt_Rsqr_abs.
Qed.

Lemma cauchy : forall a b : vec RA, v_dot a b * v_dot a b <= v_dot a a * v_dot b b.
Proof.
  intros a b. pose proof (cross_length a b) as H. pose proof (squares (cross a b)) as H1.
  unfold magnitude_squared in H. unfold v_dot in *. lra.
Qed.

Lemma triangle : forall a b : vec RA, magnitude (v_add a b) <= magnitude a + magnitude b.
Proof.
  intros a b.
  pose proof (magnitude_pos a) as Pa. pose proof (magnitude_pos b) as Pb.
  pose proof (magnitude_sq a) as Sa. pose proof (magnitude_sq b) as Sb.
  pose proof (magnitude_sq (v_add a b)) as Sab. pose proof (magnitude_pos (v_add a b)) as Pab.
  pose proof (cauchy a b) as C.
  assert (D : v_dot a b <= magnitude a * magnitude b).
  { apply Rnot_lt_le. intros L. rewrite <- Sa, <- Sb in C.
    assert (0 <= magnitude a * magnitude b) by nra. nra. }
  assert (E : v_dot (v_add a b) (v_add a b) = v_dot a a + 2 * v_dot a b + v_dot b b) by (clear; vec; ring).
  apply Rsqr_incr_0_var; [unfold Rsqr; nra|lra].
Qed.

(** ** Distance *)

Lemma distance_def : forall a b : vec RA, distance a b = magnitude (v_sub a b).
Proof. reflexivity. Qed.

Lemma sub_zero : forall a b : vec RA, v_sub a b = origin <-> a = b.
Proof.
  intros [x y z] [x' y' z']. unfold v_sub, origin. cbn [vx vy vz RA n_sub]. rewrite n0_R. split.
  - intros H. injection H as H1 H2 H3. apply vec_eq; lra.
  - intros H. injection H as H1 H2 H3. apply vec_eq; lra.
Qed.

Lemma distance_pos : forall a b : vec RA, 0 <= distance a b.
Proof. intros. apply magnitude_pos. Qed.
Lemma distance_zero : forall a b : vec RA, distance a b = 0 <-> a = b.
Proof. intros. rewrite distance_def, magnitude_zero. apply sub_zero. Qed.
Lemma distance_sym : forall a b : vec RA, distance a b = distance b a.
Proof.
  intros a b. rewrite !distance_def. unfold magnitude. cbn [RA n_sqrt]. f_equal. vec. ring.
Qed.
Lemma distance_triangle : forall a b c : vec RA, distance a c <= distance a b + distance b c.
Proof.
  intros a b c. rewrite !distance_def.
  replace (v_sub a c) with (v_add (v_sub a b) (v_sub b c)) by (vec; ve). apply triangle.
Qed.

(** ** Reflection *)

Lemma reflect_dot : forall a n t : vec RA, v_dot (reflect a n) t = v_dot a t - 2 * v_dot a n * v_dot t n.
Proof. vec. rewrite n2_R. ring. Qed.

Lemma reflect_normal : forall a n : vec RA, v_dot n n = 1 -> v_dot (reflect a n) n = - v_dot a n.
Proof. intros a n H. rewrite reflect_dot, H. cbn [num RA]. ring. Qed.

Lemma reflect_twice : forall a n : vec RA, v_dot n n = 1 -> reflect (reflect a n) n = a.
Proof.
  intros a n H. pose proof (reflect_normal a n H) as R. unfold reflect at 1. rewrite R, n2_R.
  clear. vec. rewrite n2_R. apply vec_eq; ring.
Qed.

Lemma reflect_length : forall a n : vec RA, v_dot n n = 1 -> magnitude (reflect a n) = magnitude a.
Proof.
  intros a n H. unfold magnitude. cbn [RA n_sqrt]. f_equal.
  replace (magnitude_squared (reflect a n)) with
    (magnitude_squared a + 4 * (v_dot a n * v_dot a n) * (v_dot n n - 1)).
  - rewrite H. lra.
  - clear. vec. rewrite n2_R. ring.
Qed.

(** what is orthogonal to the normal is kept *)
Lemma reflect_tangent : forall a n t : vec RA, v_dot t n = 0 -> v_dot (reflect a n) t = v_dot a t.
Proof. intros a n t H. rewrite reflect_dot, H. cbn [num RA]. ring. Qed.

(** ** Normalisation *)

Lemma normalized_unit : forall a : vec RA, a <> origin ->
  exists u, normalized a = Ok u /\ magnitude u = 1 /\ v_scale u (magnitude a) = a.
Proof.
  intros a Ha. assert (Hm : magnitude a <> 0) by (rewrite magnitude_zero; exact Ha).
  exists (v_scale a (/ magnitude a)). unfold normalized. rewrite n0_R. cbn [RA n_eqb].
  destruct (r_eqb (magnitude a) 0) eqn:E; [apply r_eqb_iff in E; contradiction|].
  split; [now apply div_nonzero|]. split.
  - rewrite magnitude_scale, Rabs_inv, (Rabs_pos_eq (magnitude a)) by apply magnitude_pos. now apply Rinv_l.
  - rewrite scale_scale. replace (/ magnitude a * magnitude a) with 1 by (symmetry; now apply Rinv_l). apply scale_1.
Qed.

Lemma normalized_origin : normalized (A:=RA) origin = Ok origin.
Proof.
  unfold normalized. rewrite n0_R. cbn [RA n_eqb]. rewrite (proj2 (magnitude_zero origin) eq_refl).
  destruct (r_eqb 0 0) eqn:E; [reflexivity|]. assert (r_eqb 0 0 = true) by now apply r_eqb_iff. congruence.
Qed.

Lemma normalize_agrees : forall (A : arith) (a : vec A), normalize a = normalized a.
Proof. intros A a. unfold normalize, normalized. now destruct (n_eqb (magnitude a) n0). Qed.

Lemma default_iff : forall a : vec RA, is_default a = true <-> a = origin.
Proof.
  intros [x y z]. unfold is_default, origin. cbn [vx vy vz RA n_eqb]. rewrite n0_R. split.
  - destruct (r_eqb x 0) eqn:E1; [|discriminate]. destruct (r_eqb y 0) eqn:E2; [|discriminate]. cbn [negb]. intros E3.
    apply r_eqb_iff in E1, E2, E3. now subst.
  - intros H. injection H as -> -> ->. assert (E : r_eqb 0 0 = true) by now apply r_eqb_iff. rewrite E. reflexivity.
Qed.

Lemma eqb_iff : forall a b : vec RA, v_eqb a b = true <-> a = b.
Proof.
  intros [x y z] [x' y' z']. unfold v_eqb. cbn [vx vy vz RA n_eqb].
  rewrite !andb_true_iff, !r_eqb_iff. split; [intros [[-> ->] ->]; reflexivity|].
  intros H. injection H as -> -> ->. auto.
Qed.

(** ** Bounds *)

Lemma r_max_spec : forall p q r : R, n_max (A:=RA) p q <= r <-> p <= r /\ q <= r.
Proof.
  intros p q r. unfold n_max. cbn [RA n_ltb]. destruct (r_ltb p q) eqn:E.
  - apply r_ltb_iff in E. split; [split|]; lra.
  - assert (~ p < q) by (rewrite <- r_ltb_iff, E; discriminate). split; [split|]; lra.
Qed.
Lemma r_min_spec : forall p q r : R, r <= n_min (A:=RA) p q <-> r <= p /\ r <= q.
Proof.
  intros p q r. unfold n_min. cbn [RA n_ltb]. destruct (r_ltb q p) eqn:E.
  - apply r_ltb_iff in E. split; [split|]; lra.
  - assert (~ q < p) by (rewrite <- r_ltb_iff, E; discriminate). split; [split|]; lra.
Qed.

Lemma maximize_least : forall a b c : vec RA, below (maximize a b) c <-> below a c /\ below b c.
Proof.
  intros a b c. unfold below, maximize. cbn [vx vy vz]. rewrite !r_max_spec. tauto.
Qed.
Lemma minimize_greatest : forall a b c : vec RA, below c (minimize a b) <-> below c a /\ below c b.
Proof.
  intros a b c. unfold below, minimize. cbn [vx vy vz]. rewrite !r_min_spec. tauto.
Qed.

(** ** Hashes *)

Lemma hash_equal : forall show hash_text (a b : vec RA), v_eqb a b = true -> hash show hash_text a = hash show hash_text b.
Proof. intros show h a b H. apply eqb_iff in H. now subst. Qed.

Lemma float_eqb : forall x y : spec_float, SFeqb x y = true -> SFeqb x (S754_zero false) = false -> x = y.
Proof.
  intros [s|s| |s m e] [s'|s'| |s' m' e'] H H0; try destruct s; try destruct s'; try reflexivity;
    try discriminate H; try discriminate H0;
    unfold SFeqb, SFcompare in H;
    (destruct (Z.compare e e') eqn:E; try discriminate H); apply Z.compare_eq in E; subst;
    (destruct (Pos.compare_cont Eq m m') eqn:E; try discriminate H); apply Pos.compare_eq in E; now subst.
Qed.

Lemma hash_nonzero : forall show hash_text (a b : vec B64),
  n_eqb (vx a) n0 = false -> n_eqb (vy a) n0 = false -> n_eqb (vz a) n0 = false ->
  v_eqb a b = true -> hash show hash_text a = hash show hash_text b.
Proof.
  intros show h [x y z] [x' y' z'] Hx Hy Hz H. unfold v_eqb in H. cbn [vx vy vz] in *.
  apply andb_true_iff in H as [H H3]. apply andb_true_iff in H as [H1 H2].
  apply float_eqb in H1; [|exact Hx]. apply float_eqb in H2; [|exact Hy]. apply float_eqb in H3; [|exact Hz].
  now subst.
Qed.

Lemma hash_zeros : forall (show : num B64 -> string) (hash_text : string -> Z),
  show (S754_zero false) = "0.0"%string -> show (S754_zero true) = "-0.0"%string ->
  hash_text "(0.0, 0.0, 0.0)"%string <> hash_text "(-0.0, 0.0, 0.0)"%string ->
  exists a b : vec B64, v_eqb a b = true /\ hash show hash_text a <> hash show hash_text b.
Proof.
  intros show h H0 H1 H. exists (Vec (A:=B64) (S754_zero false) (S754_zero false) (S754_zero false)),
    (Vec (A:=B64) (S754_zero true) (S754_zero false) (S754_zero false)).
  split; [reflexivity|]. unfold hash, repr. cbn [vx vy vz]. rewrite H0, H1. exact H.
Qed.

(** ** As stated *)

Lemma origin_R : origin = Vec (A:=RA) 0 0 0.
Proof. unfold origin. now rewrite n0_R. Qed.

Lemma space : forall (a b c : vec RA) (j k : R),
  v_add a b = v_add b a /\ v_add a (v_add b c) = v_add (v_add a b) c /\
  v_add a (Vec (A:=RA) 0 0 0) = a /\ v_add a (v_neg a) = Vec (A:=RA) 0 0 0 /\ v_sub a b = v_add a (v_neg b) /\
  v_scale a 1 = a /\ v_scale (v_scale a j) k = v_scale a (j * k) /\
  v_scale (v_add a b) k = v_add (v_scale a k) (v_scale b k) /\
  v_scale a (j + k) = v_add (v_scale a j) (v_scale a k).
Proof.
  intros a b c j k. rewrite <- origin_R.
  exact (conj (add_comm a b) (conj (add_assoc a b c) (conj (add_origin a) (conj (add_neg a) (conj (sub_neg a b)
    (conj (scale_1 a) (conj (scale_scale a j k) (conj (scale_add a b k) (scale_sum a j k))))))))).
Qed.

Lemma components : forall (a b : vec RA) (k : R),
  vx (v_add a b) = vx a + vx b /\ vy (v_add a b) = vy a + vy b /\ vz (v_add a b) = vz a + vz b /\
  vx (v_scale a k) = vx a * k /\ vy (v_scale a k) = vy a * k /\ vz (v_scale a k) = vz a * k /\
  v_dot a b = vx a * vx b + vy a * vy b + vz a * vz b.
Proof. repeat split. Qed.

Lemma div_cases : forall (a : vec RA) (k : R),
  (k <> 0 -> v_div a k = Ok (v_scale a (/ k))) /\ (k = 0 -> v_div a k = Err ZeroDivisionError).
Proof.
  intros a k. split; [apply div_nonzero|]. intros ->. rewrite div_by.
  now rewrite (proj2 (r_eqb_iff 0 0) eq_refl).
Qed.

Lemma cross_laws : forall a b : vec RA,
  v_dot a (cross a b) = 0 /\ v_dot b (cross a b) = 0 /\ cross b a = v_neg (cross a b) /\
  v_dot (cross a b) (cross a b) = v_dot a a * v_dot b b - v_dot a b * v_dot a b /\
  cross (A:=RA) (Vec (A:=RA) 1 0 0) (Vec (A:=RA) 0 1 0) = Vec (A:=RA) 0 0 1.
Proof.
  intros a b. split; [apply cross_left|]. split; [apply cross_right|]. split; [apply cross_anti|].
  split; [apply cross_length|]. unfold cross. cbn [vx vy vz RA n_add n_sub n_mul n_opp]. apply vec_eq; ring.
Qed.

Lemma norm : forall (a b : vec RA) (k : R),
  0 <= magnitude a /\ magnitude a * magnitude a = v_dot a a /\ magnitude_squared a = v_dot a a /\
  (magnitude a = 0 <-> a = Vec (A:=RA) 0 0 0) /\ magnitude (v_scale a k) = Rabs k * magnitude a /\
  magnitude (v_add a b) <= magnitude a + magnitude b.
Proof.
  intros a b k. rewrite <- origin_R. split; [apply magnitude_pos|]. split; [apply magnitude_sq|].
  split; [reflexivity|]. split; [apply magnitude_zero|]. split; [apply magnitude_scale|apply triangle].
Qed.

Lemma metric : forall a b c : vec RA,
  distance a b = magnitude (v_sub a b) /\ 0 <= distance a b /\ (distance a b = 0 <-> a = b) /\
  distance a b = distance b a /\ distance a c <= distance a b + distance b c /\
  distance_squared a b = distance a b * distance a b.
Proof.
  intros a b c. split; [reflexivity|]. split; [apply distance_pos|]. split; [apply distance_zero|].
  split; [apply distance_sym|]. split; [apply distance_triangle|].
  rewrite distance_def, magnitude_sq. reflexivity.
Qed.

Lemma reflection : forall a n : vec RA, v_dot n n = 1 ->
  v_dot (reflect a n) n = - v_dot a n /\
  (forall t, v_dot t n = 0 -> v_dot (reflect a n) t = v_dot a t) /\
  magnitude (reflect a n) = magnitude a /\ reflect (reflect a n) n = a.
Proof.
  intros a n H. split; [now apply reflect_normal|]. split; [apply reflect_tangent|].
  split; [now apply reflect_length|now apply reflect_twice].
Qed.

Lemma normalisation : forall a : vec RA,
  normalize a = normalized a /\
  (a <> Vec (A:=RA) 0 0 0 -> exists u, normalized a = Ok u /\ magnitude u = 1 /\ v_scale u (magnitude a) = a) /\
  normalized (Vec (A:=RA) 0 0 0) = Ok (Vec (A:=RA) 0 0 0).
Proof.
  intros a. rewrite <- origin_R. split; [apply normalize_agrees|]. split; [apply normalized_unit|apply normalized_origin].
Qed.

Lemma order : forall a b c : vec RA,
  (is_default a = true <-> a = Vec (A:=RA) 0 0 0) /\ (v_eqb a b = true <-> a = b) /\
  (below (maximize a b) c <-> below a c /\ below b c) /\ (below c (minimize a b) <-> below c a /\ below c b).
Proof.
  intros a b c. rewrite <- origin_R. split; [apply default_iff|]. split; [apply eqb_iff|].
  split; [apply maximize_least|apply minimize_greatest].
Qed.

Lemma zero_true : is_default (A:=B64) origin = true /\ truth (A:=B64) origin = true.
Proof. split; vm_compute; reflexivity. Qed.

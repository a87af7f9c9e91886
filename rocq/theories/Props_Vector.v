(** * Properties C66, C67, C83: vectors

    Over the reals ([RA]); [v_add], [v_sub], [v_neg], [v_scale], [v_div] are the
    operators + - - * / of the class. *)
From Coq Require Import List String ZArith Bool Reals Lra.
From Verif Require Import PyBase Arith ArithR ArithB64 Vector SpecVector P_Vector.
Local Open Scope R_scope.

(** C66: vectors form a vector space... *)
Theorem C66_space : forall (a b c : vec RA) (j k : R),
  v_add a b = v_add b a /\ v_add a (v_add b c) = v_add (v_add a b) c /\
  v_add a (Vec (A:=RA) 0 0 0) = a /\ v_add a (v_neg a) = Vec (A:=RA) 0 0 0 /\ v_sub a b = v_add a (v_neg b) /\
  v_scale a 1 = a /\ v_scale (v_scale a j) k = v_scale a (j * k) /\
  v_scale (v_add a b) k = v_add (v_scale a k) (v_scale b k) /\
  v_scale a (j + k) = v_add (v_scale a j) (v_scale a k).
Proof. exact space. Qed.
Print Assumptions C66_space.

(** ... over their components... *)
Theorem C66_components : forall (a b : vec RA) (k : R),
  vx (v_add a b) = vx a + vx b /\ vy (v_add a b) = vy a + vy b /\ vz (v_add a b) = vz a + vz b /\
  vx (v_scale a k) = vx a * k /\ vy (v_scale a k) = vy a * k /\ vz (v_scale a k) = vz a * k /\
  v_dot a b = vx a * vx b + vy a * vy b + vz a * vz b.
Proof. exact components. Qed.
Print Assumptions C66_components.

(** ... division is by a number other than 0... *)
Theorem C66_div : forall (a : vec RA) (k : R),
  (k <> 0 -> v_div a k = Ok (v_scale a (/ k))) /\ (k = 0 -> v_div a k = Err ZeroDivisionError).
Proof. exact div_cases. Qed.
Print Assumptions C66_div.

(** ... the cross product is orthogonal to both factors, anticommutes and has the
    length of the parallelogram; it follows the right hand... *)
Theorem C66_cross : forall a b : vec RA,
  v_dot a (cross a b) = 0 /\ v_dot b (cross a b) = 0 /\ cross b a = v_neg (cross a b) /\
  v_dot (cross a b) (cross a b) = v_dot a a * v_dot b b - v_dot a b * v_dot a b /\
  cross (A:=RA) (Vec (A:=RA) 1 0 0) (Vec (A:=RA) 0 1 0) = Vec (A:=RA) 0 0 1.
Proof. exact cross_laws. Qed.
Print Assumptions C66_cross.

(** ... the magnitude is the root of a.a, a norm... *)
Theorem C66_magnitude : forall (a b : vec RA) (k : R),
  0 <= magnitude a /\ magnitude a * magnitude a = v_dot a a /\ magnitude_squared a = v_dot a a /\
  (magnitude a = 0 <-> a = Vec (A:=RA) 0 0 0) /\ magnitude (v_scale a k) = Rabs k * magnitude a /\
  magnitude (v_add a b) <= magnitude a + magnitude b.
Proof. exact norm. Qed.
Print Assumptions C66_magnitude.

(** ... the distance is its metric... *)
Theorem C66_distance : forall a b c : vec RA,
  distance a b = magnitude (v_sub a b) /\ 0 <= distance a b /\ (distance a b = 0 <-> a = b) /\
  distance a b = distance b a /\ distance a c <= distance a b + distance b c /\
  distance_squared a b = distance a b * distance a b.
Proof. exact metric. Qed.
Print Assumptions C66_distance.

(** ... reflecting with a unit normal negates what is along the normal, keeps what
    is orthogonal to it, and so keeps lengths and undoes itself... *)
Theorem C66_reflect : forall a n : vec RA, v_dot n n = 1 ->
  v_dot (reflect a n) n = - v_dot a n /\
  (forall t, v_dot t n = 0 -> v_dot (reflect a n) t = v_dot a t) /\
  magnitude (reflect a n) = magnitude a /\ reflect (reflect a n) n = a.
Proof. exact reflection. Qed.
Print Assumptions C66_reflect.

Example C66_reflect_example :
  v_dot (Vec (A:=RA) (3 / 5) 0 (4 / 5)) (Vec (A:=RA) (3 / 5) 0 (4 / 5)) = 1.
Proof. cbn. lra. Qed.

(** ... and normalising keeps the direction and makes the magnitude 1, except that
    it keeps the zero vector; [normalize] does the same in place. *)
Theorem C66_normalized : forall a : vec RA,
  normalize a = normalized a /\
  (a <> Vec (A:=RA) 0 0 0 -> exists u, normalized a = Ok u /\ magnitude u = 1 /\ v_scale u (magnitude a) = a) /\
  normalized (Vec (A:=RA) 0 0 0) = Ok (Vec (A:=RA) 0 0 0).
Proof. exact normalisation. Qed.
Print Assumptions C66_normalized.

(** [getIsDefault] and == are what they say; [maximize] and [minimize] are the
    bounds of the box around two points. *)
Theorem C66_order : forall a b c : vec RA,
  (is_default a = true <-> a = Vec (A:=RA) 0 0 0) /\ (v_eqb a b = true <-> a = b) /\
  (below (maximize a b) c <-> below a c /\ below b c) /\ (below c (minimize a b) <-> below c a /\ below c b).
Proof. exact order. Qed.
Print Assumptions C66_order.

(** C67: equal vectors have the same hash if no component is zero (binary64,
    any way to write floats and any hash of texts)... *)
Theorem C67_nonzero_partial : forall show hash_text (a b : vec B64),
  n_eqb (vx a) n0 = false -> n_eqb (vy a) n0 = false -> n_eqb (vz a) n0 = false ->
  v_eqb a b = true -> hash show hash_text a = hash show hash_text b.
Proof. exact hash_nonzero. Qed.
Print Assumptions C67_nonzero_partial.

Example C67_example :
  let a := Vec (A:=B64) (lit 1 1) (lit 2 1) (lit 3 1) in
  n_eqb (vx a) n0 = false /\ n_eqb (vy a) n0 = false /\ n_eqb (vz a) n0 = false /\ v_eqb a a = true.
Proof. vm_compute. repeat split. Qed.

(** ... but not for the two zeros, which are written differently: 0.0 and -0.0. *)
Theorem C67_zeros_refuted : forall (show : num B64 -> string) (hash_text : string -> Z),
  show n0 = "0.0"%string -> show (n_opp n0) = "-0.0"%string ->
  hash_text "(0.0, 0.0, 0.0)"%string <> hash_text "(-0.0, 0.0, 0.0)"%string ->
  exists a b : vec B64, v_eqb a b = true /\ hash show hash_text a <> hash show hash_text b.
Proof. exact hash_zeros. Qed.
Print Assumptions C67_zeros_refuted.

(** C83: with Python 3 the zero vector is true. *)
Theorem C83_truth_refuted : is_default (A:=B64) origin = true /\ truth (A:=B64) origin = true.
Proof. exact zero_true. Qed.
Print Assumptions C83_truth_refuted.

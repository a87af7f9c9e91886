(** * Vector: model of gcodeutils/stretch/vector3.py

    Components are floats.  A method that changes its vector returns the new
    one here; the same methods on objects, floor division and the attribute
    accessors are in VectorObj.  Left out: the comment 277-337, and [__div__],
    [__idiv__], [__rdiv__] and [__nonzero__] in their Python 2 roles: Python 3
    does not call them. *)
From Coq Require Import List Ascii String ZArith NArith Bool.
From Verif Require Import PyBase Arith.
Import ListNotations.
Local Open Scope list_scope.

Section Vector.
Context {A : arith}.
Notation num := (num A).

(** vector3.py 43-50 *)
Record vec := Vec { vx : num; vy : num; vz : num }.

(** vector3.py 47 [Vector3()] *)
Definition origin : vec := Vec n0 n0 n0.

(** vector3.py 235-237 [magnitudeSquared] *)
Definition magnitude_squared (a : vec) : num :=
  n_add (n_add (n_mul (vx a) (vx a)) (n_mul (vy a) (vy a))) (n_mul (vz a) (vz a)).

(** vector3.py 52-56 [__abs__], [magnitude] *)
Definition magnitude (a : vec) : num := n_sqrt (magnitude_squared a).

(** vector3.py 58-60 [__add__]; 90-95 [__iadd__] *)
Definition v_add (a b : vec) : vec := Vec (n_add (vx a) (vx b)) (n_add (vy a) (vy b)) (n_add (vz a) (vz b)).

(** vector3.py 167-169 [__sub__]; 118-123 [__isub__] *)
Definition v_sub (a b : vec) : vec := Vec (n_sub (vx a) (vx b)) (n_sub (vy a) (vy b)) (n_sub (vz a) (vz b)).

(** vector3.py 132-134 [__mul__], 158-160 [__rmul__], 111-116 [__imul__] *)
Definition v_scale (a : vec) (k : num) : vec := Vec (n_mul (vx a) k) (n_mul (vy a) k) (n_mul (vz a) k).

(** vector3.py 140-141 [__neg__] *)
Definition v_neg (a : vec) : vec := Vec (n_opp (vx a)) (n_opp (vy a)) (n_opp (vz a)).

(** vector3.py 171-174 [__truediv__], 125-130 [__itruediv__] *)
Definition v_div (a : vec) (k : num) : res vec :=
  do x <- py_div (vx a) k; do y <- py_div (vy a) k; do z <- py_div (vz a) k; Ok (Vec x y z).

(** vector3.py 162-165 [__rtruediv__] *)
Definition v_rdiv (k : num) (a : vec) : res vec :=
  do x <- py_div k (vx a); do y <- py_div k (vy a); do z <- py_div k (vz a); Ok (Vec x y z).

(** vector3.py 74-80 [__eq__] for two vectors; 136-138 [__ne__] *)
Definition v_eqb (a b : vec) : bool := n_eqb (vx a) (vx b) && n_eqb (vy a) (vy b) && n_eqb (vz a) (vz b).
Definition v_neb (a b : vec) : bool := negb (v_eqb a b).

(** vector3.py 187-190 [cross] *)
Definition cross (a b : vec) : vec :=
  Vec (n_sub (n_mul (vy a) (vz b)) (n_mul (vz a) (vy b)))
      (n_add (n_mul (n_opp (vx a)) (vz b)) (n_mul (vz a) (vx b)))
      (n_sub (n_mul (vx a) (vy b)) (n_mul (vy a) (vx b))).

(** vector3.py 196-201 [distanceSquared], 192-194 [distance] *)
Definition distance_squared (a b : vec) : num := magnitude_squared (v_sub a b).
Definition distance (a b : vec) : num := n_sqrt (distance_squared a b).

(** vector3.py 203-205 [dot] *)
Definition v_dot (a b : vec) : num :=
  n_add (n_add (n_mul (vx a) (vx b)) (n_mul (vy a) (vy b))) (n_mul (vz a) (vz b)).

(** vector3.py 207-214 [dropAxis]; None for another axis *)
Definition drop (a : vec) (which : nat) : option (num * num) :=
  match which with
  | 0 => Some (vy a, vz a)
  | 1 => Some (vx a, vz a)
  | 2 => Some (vx a, vy a)
  | _ => None
  end.

(** vector3.py 220-226 [getIsDefault] *)
Definition is_default (a : vec) : bool :=
  if negb (n_eqb (vx a) n0) then false
  else if negb (n_eqb (vy a) n0) then false
  else n_eqb (vz a) n0.

(** vector3.py 228-233 [getNormalized]; 251-255 [normalize] *)
Definition normalized (a : vec) : res vec :=
  let m := magnitude a in if n_eqb m n0 then Ok a else v_div a m.
Definition normalize (a : vec) : res vec :=
  let m := magnitude a in if negb (n_eqb m n0) then v_div a m else Ok a.

(** vector3.py 239-243 [maximize], 245-249 [minimize]: Python's [max(p, q)] is
    [p] unless [q] is greater *)
Definition maximize (a b : vec) : vec := Vec (n_max (vx b) (vx a)) (n_max (vy b) (vy a)) (n_max (vz b) (vz a)).
Definition minimize (a b : vec) : vec := Vec (n_min (vx b) (vx a)) (n_min (vy b) (vy a)) (n_min (vz b) (vz a)).

(** vector3.py 257-260 [reflect] *)
Definition reflect (a n : vec) : vec :=
  let d := n_mul n2 (v_dot a n) in
  Vec (n_sub (vx a) (n_mul d (vx n))) (n_sub (vy a) (n_mul d (vy n))) (n_sub (vz a) (n_mul d (vz n))).

(** [bool(v)]: the class has [__nonzero__] (143-144), which Python 3 does not
    call, and neither [__bool__] nor [__len__] *)
Definition truth (a : vec) : bool := true.

Section Hash.
(** [str] of a float and [hash] of a text *)
Variable show : num -> string.
Variable hash_text : string -> Z.

(** vector3.py 150-152 [__repr__] *)
Definition repr (a : vec) : string :=
  ("(" ++ show (vx a) ++ ", " ++ show (vy a) ++ ", " ++ show (vz a) ++ ")")%string.

(** vector3.py 86-88 [__hash__] *)
Definition hash (a : vec) : Z := hash_text (repr a).
End Hash.
End Vector.
Arguments vec A : clear implicits.

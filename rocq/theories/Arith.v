(** * Arith: the number operations used by the code

    The code computes with Python floats.  The model is written once, over an
    arbitrary record [arith] of number operations, so that

    - theorems quantified over every [arith] hold for IEEE doubles as well as
      for exact numbers (they do not depend on any arithmetic law);
    - theorems that need arithmetic take the laws of exact arithmetic as the
      hypothesis [exact A] (instances: rationals in [ArithQ], reals in
      [ArithR]);
    - witnesses of defects are computed with binary64 ([ArithB64]), the
      arithmetic of the real code. *)
From Coq Require Import List Ascii String ZArith NArith Bool Reals.
From Verif Require Import PyBase.
Import ListNotations.
Local Open Scope string_scope.

(** Result of rounding a number to [d] decimals: sign and magnitude in units
    of [10^-d] (or a non-number). *)
Inductive dec := DFin (neg : bool) (mag : N) | DInf (neg : bool) | DNan.

Record arith := Arith {
  num : Type;
  n_of_dec : bool -> N -> nat -> num;  (** [float("-12.345")]: sign, 12345, 3 *)
  n_dec : nat -> num -> dec;           (** nearest multiple of [10^-d], ties to even *)
  n_add : num -> num -> num;
  n_sub : num -> num -> num;
  n_mul : num -> num -> num;
  n_div : num -> num -> num;           (** only used with a non-zero divisor *)
  n_mod : num -> num -> num;           (** Python [%] with a positive divisor *)
  n_opp : num -> num;
  n_abs : num -> num;
  n_sqrt : num -> num;
  n_hypot : num -> num -> num;         (** [math.hypot], [abs(complex)] *)
  n_phase : num -> num -> num;         (** [cmath.phase(complex(x, y))] *)
  n_sin : num -> num;
  n_pi : num;
  n_ltb : num -> num -> bool;
  n_leb : num -> num -> bool;
  n_eqb : num -> num -> bool;
  n_trunc : num -> Z                   (** [int(x)] *)
}.

Arguments n_of_dec {a}.  Arguments n_dec {a}.
Arguments n_add {a}.  Arguments n_sub {a}.  Arguments n_mul {a}.
Arguments n_div {a}.  Arguments n_mod {a}.  Arguments n_opp {a}.
Arguments n_abs {a}.  Arguments n_sqrt {a}. Arguments n_hypot {a}.
Arguments n_phase {a}. Arguments n_sin {a}. Arguments n_pi {a}.
Arguments n_ltb {a}.  Arguments n_leb {a}.  Arguments n_eqb {a}.
Arguments n_trunc {a}.

Section Num.
Context {A : arith}.

(** A decimal literal of the source, e.g. [lit 254 1] for [25.4]. *)
Definition lit (m : N) (k : nat) : num A := n_of_dec false m k.
Definition n0 : num A := lit 0 0.
Definition n1 : num A := lit 1 0.
Definition n2 : num A := lit 2 0.
Definition n_of_nat (n : nat) : num A := lit (N.of_nat n) 0.

(** Truth value of a number: [bool(x)]. *)
Definition truthy (x : num A) : bool := negb (n_eqb x n0).

(** [x or 0] for [x] a number or None. *)
Definition or_zero (o : option (num A)) : num A :=
  match o with Some x => if truthy x then x else n0 | None => n0 end.

(** Python's [min(a, b)] and [max(a, b)] on numbers. *)
Definition n_min (a b : num A) : num A := if n_ltb b a then b else a.
Definition n_max (a b : num A) : num A := if n_ltb a b then b else a.

(** Python [a / b]. *)
Definition py_div (a b : num A) : res (num A) :=
  if n_eqb b n0 then Err ZeroDivisionError else Ok (n_div a b).

(** Text of [m] units of [10^-d]: integer part, point, [d] digits. *)
Definition dec_string (d : nat) (m : N) : string :=
  N_to_string (m / pow10 d)%N ++
  match d with
  | O => ""
  | S _ => "." ++ digits_fixed d (m mod pow10 d)%N
  end.

(** ["%.df" % x], ["{:.df}".format(x)] *)
Definition fmt (d : nat) (x : num A) : string :=
  match n_dec d x with
  | DFin neg m => (if neg then "-" else "") ++ dec_string d m
  | DInf neg => if neg then "-inf" else "inf"
  | DNan => "nan"
  end.

(** [round(x, d)] (Python 3: correctly rounded decimal, ties to even, read
    back as a number). *)
Definition py_round (d : nat) (x : num A) : num A :=
  match n_dec d x with
  | DFin neg m => n_of_dec neg m d
  | _ => x
  end.

(** [float(s)] for strings over sign, digits and points.  [None] stands for
    ValueError.  (Exponents, "inf", "nan", blanks and underscores, which
    Python also accepts, cannot occur in the strings the code passes.) *)
Definition py_float (s : string) : option (num A) :=
  let '(neg, s1) :=
    match s with
    | String "-" t => (true, t)
    | String "+" t => (false, t)
    | _ => (false, s)
    end in
  let '(ip, s2) := span is_digit s1 in
  let '(fp, s3) :=
    match s2 with
    | String "." t => span is_digit t
    | _ => (EmptyString, s2)
    end in
  if is_empty s3 && negb (is_empty ip && is_empty fp)
  then Some (n_of_dec neg (digits_val (ip ++ fp)) (String.length fp))
  else None.

(** [int(s)] for strings over sign, digits and points; [None] is ValueError. *)
Definition py_int (s : string) : option Z :=
  let '(neg, s1) :=
    match s with
    | String "-" t => (true, t)
    | String "+" t => (false, t)
    | _ => (false, s)
    end in
  if negb (is_empty s1) && str_all is_digit s1
  then Some (if neg then (- Z.of_N (digits_val s1))%Z else Z.of_N (digits_val s1))
  else None.

(** Python [sorted] on numbers (stable insertion sort by [<]). *)
Fixpoint insert_sorted (x : num A) (l : list (num A)) : list (num A) :=
  match l with
  | [] => [x]
  | y :: t => if n_ltb x y then x :: l else y :: insert_sorted x t
  end.
Definition py_sorted (l : list (num A)) : list (num A) :=
  fold_left (fun acc x => insert_sorted x acc) l [].

(** Python [sum]. *)
Definition py_sum (l : list (num A)) : num A := fold_left n_add l n0.

(** Equality of [float or None] values. *)
Definition opt_eqb (a b : option (num A)) : bool :=
  match a, b with
  | None, None => true
  | Some x, Some y => n_eqb x y
  | _, _ => false
  end.

End Num.

(** ** Laws of exact arithmetic

    [val] reads a number as a real; every operation is the real one and every
    test decides the real relation.  The transcendental operations are not
    constrained here. *)
Record exact (A : arith) := Exact {
  val : num A -> R;
  val_of_dec : forall neg m k,
    val (n_of_dec neg m k) =
      ((if neg then -1 else 1) * (IZR (Z.of_N m) / 10 ^ k))%R;
  val_add : forall a b, val (n_add a b) = (val a + val b)%R;
  val_sub : forall a b, val (n_sub a b) = (val a - val b)%R;
  val_mul : forall a b, val (n_mul a b) = (val a * val b)%R;
  val_div : forall a b, val b <> 0%R -> val (n_div a b) = (val a / val b)%R;
  val_opp : forall a, val (n_opp a) = (- val a)%R;
  val_abs : forall a, val (n_abs a) = Rabs (val a);
  val_ltb : forall a b, n_ltb a b = true <-> (val a < val b)%R;
  val_leb : forall a b, n_leb a b = true <-> (val a <= val b)%R;
  val_eqb : forall a b, n_eqb a b = true <-> val a = val b;
  val_dec : forall d a, exists neg m,
    n_dec d a = DFin neg m /\
    (neg = true <-> (val a < 0)%R) /\
    (Rabs (IZR (Z.of_N m) - Rabs (val a) * 10 ^ d) <= / 2)%R;
  val_hypot_nonneg : forall a b, (0 <= val (n_hypot a b))%R
}.
Arguments val {A} _ _.

(** * ArithB64: IEEE binary64, the arithmetic of Python floats

    Built on the standard library's [SpecFloat] (no axioms).  Decimal reading
    and printing are correctly rounded, as in CPython.  [math.hypot] is
    computed as [sqrt (x*x + y*y)]; [phase] and [sin] are argument-reduced
    series evaluated in binary64: like any libm they are approximations, and
    no theorem depends on their last bits. *)
From Coq Require Import List String ZArith NArith Bool Floats.SpecFloat.
From Verif Require Import PyBase Arith.
Local Open Scope Z_scope.

Definition prec : Z := 53.
Definition emax : Z := 1024.

(** sign and magnitude to float *)
Definition f_of_Z (neg : bool) (m : N) : spec_float :=
  match m with
  | N0 => S754_zero neg
  | Npos p => binary_normalize prec emax (if neg then Zneg p else Zpos p) 0 neg
  end.

(** [m * 10^-k], correctly rounded *)
Definition f_of_dec (neg : bool) (m : N) (k : nat) : spec_float :=
  match k with
  | O => f_of_Z neg m
  | S _ =>
      match m, (10 ^ N.of_nat k)%N with
      | N0, _ => S754_zero neg
      | Npos p, Npos q => SFdiv prec emax (S754_finite neg p 0) (S754_finite false q 0)
      | Npos _, N0 => S754_nan
      end
  end.

(** nearest integer to [n/d], ties to even *)
Definition near_div (n d : Z) : Z :=
  let q := n / d in
  let r := 2 * (n mod d) in
  if r <? d then q else if d <? r then q + 1 else if Z.even q then q else q + 1.

Definition f_dec (d : nat) (x : spec_float) : dec :=
  match x with
  | S754_zero s => DFin s 0
  | S754_infinity s => DInf s
  | S754_nan => DNan
  | S754_finite s m e =>
      let p := 10 ^ Z.of_nat d in
      DFin s (Z.to_N (if 0 <=? e then Zpos m * 2 ^ e * p
                      else near_div (Zpos m * p) (2 ^ (- e))))
  end.

(** Python [%] on floats, positive finite divisor *)
Definition f_mod (x y : spec_float) : spec_float :=
  match x, y with
  | S754_finite sx mx ex, S754_finite sy my ey =>
      let e := Z.min ex ey in
      let X := Zpos mx * 2 ^ (ex - e) in
      let Y := Zpos my * 2 ^ (ey - e) in
      let r := X mod Y in
      if r =? 0 then S754_zero sy
      else
        let fr := binary_normalize prec emax (if sx then - r else r) e sx in
        if Bool.eqb sx sy then fr else SFadd prec emax fr y
  | S754_zero _, S754_finite sy _ _ => S754_zero sy
  | S754_finite sx _ _, S754_infinity sy => if Bool.eqb sx sy then x else y
  | S754_zero _, S754_infinity sy => S754_zero sy
  | _, _ => S754_nan
  end.

Definition fadd := SFadd prec emax.
Definition fsub := SFsub prec emax.
Definition fmul := SFmul prec emax.
Definition fdiv := SFdiv prec emax.
Definition fsqrt := SFsqrt prec emax.
Definition f_lit (n : N) : spec_float := f_of_Z false n.

Definition f_pi : spec_float := f_of_dec false 3141592653589793116 18.

(** [atan] for |x| <= 1 after three half-angle reductions, odd series *)
Fixpoint atan_series (n : nat) (k : N) (x2 : spec_float) : spec_float :=
  match n with
  | O => S754_zero false
  | S n' => fsub (fdiv (f_lit 1) (f_lit k)) (fmul x2 (atan_series n' (k + 2) x2))
  end.
Definition half_tan (x : spec_float) : spec_float :=
  fdiv x (fadd (f_lit 1) (fsqrt (fadd (f_lit 1) (fmul x x)))).
Definition f_atan (x : spec_float) : spec_float :=
  let y := half_tan (half_tan (half_tan x)) in
  fmul (f_lit 8) (fmul y (atan_series 14 1 (fmul y y))).

Definition f_phase (x y : spec_float) : spec_float :=
  let z := S754_zero false in
  if SFltb z x then f_atan (fdiv y x)
  else if SFltb x z then
    (if SFleb z y then fadd (f_atan (fdiv y x)) f_pi else fsub (f_atan (fdiv y x)) f_pi)
  else if SFltb z y then fdiv f_pi (f_lit 2)
  else if SFltb y z then SFopp (fdiv f_pi (f_lit 2))
  else z.

(** [sin] by its series (used for small arguments only) *)
Fixpoint sin_series (n : nat) (k : N) (x2 : spec_float) : spec_float :=
  match n with
  | O => f_lit 1
  | S n' => fsub (f_lit 1)
              (fmul (fdiv x2 (f_lit (k * (k + 1)))) (sin_series n' (k + 2) x2))
  end.
Definition f_sin (x : spec_float) : spec_float :=
  fmul x (sin_series 20 2 (fmul x x)).

(** [int(x)]: truncation (0 for non-finite values, which raise in Python) *)
Definition f_trunc (x : spec_float) : Z :=
  match x with
  | S754_finite s m e =>
      let a := if 0 <=? e then Zpos m * 2 ^ e else Zpos m / 2 ^ (- e) in
      if s then - a else a
  | _ => 0
  end.

Definition B64 : arith := {|
  num := spec_float;
  n_of_dec := f_of_dec;
  n_dec := f_dec;
  n_add := fadd;
  n_sub := fsub;
  n_mul := fmul;
  n_div := fdiv;
  n_mod := f_mod;
  n_opp := SFopp;
  n_abs := SFabs;
  n_sqrt := fsqrt;
  n_hypot := fun a b => fsqrt (fadd (fmul a a) (fmul b b));
  n_phase := f_phase;
  n_sin := f_sin;
  n_pi := f_pi;
  n_ltb := SFltb;
  n_leb := SFleb;
  n_eqb := SFeqb;
  n_trunc := f_trunc
|}.

(** Literals of the other kind: sanity checks (tests, not theorems). *)
Example b64_tenth : f_of_dec false 1 1 = S754_finite false 7205759403792794 (-56).
Proof. vm_compute. reflexivity. Qed.
Example b64_sum : fmt (A:=B64) 17 (n_add (lit 1 1 : num B64) (lit 2 1 : num B64)) = "0.30000000000000004"%string.
Proof. vm_compute. reflexivity. Qed.
Example b64_round : py_round (A:=B64) 2 (lit 2675 3 : num B64) = lit 267 2.
Proof. vm_compute. reflexivity. Qed.
Example b64_phase : fmt (A:=B64) 12 (n_phase (a:=B64) (n_opp (a:=B64) (n1 (A:=B64))) (n1 (A:=B64))) = "2.356194490192"%string.
Proof. vm_compute. reflexivity. Qed.
Example b64_sin : fmt (A:=B64) 12 (n_sin (a:=B64) (n1 (A:=B64))) = "0.841470984808"%string.
Proof. vm_compute. reflexivity. Qed.
Example b64_mod : fmt (A:=B64) 12 (n_mod (a:=B64) (lit 55 1 : num B64) (lit 2 0 : num B64)) = "1.500000000000"%string.
Proof. vm_compute. reflexivity. Qed.

(** * VectorObj: Vector3 as objects that can be changed and shared

    A memory is the list of the vectors made so far; a reference is a position
    in it.  The methods that change a vector are sequences of assignments to
    single components, each of which reads the memory as the earlier ones left
    it.  Components are floats.  Left out: the comment 277-337 of vector3.py, and
    [__div__], [__idiv__], [__rdiv__] and [__nonzero__] in their Python 2 roles:
    Python 3 does not call them. *)
From Coq Require Import List Ascii String ZArith NArith Bool.
From Verif Require Import PyBase Arith Vector.
Import ListNotations.
Local Open Scope list_scope.

Section VectorObj.
Context {A : arith}.
Notation num := (num A).
Notation vec := (vec A).

(** ** Floor division *)

(** [math.floor(x)] as a float, for a number *)
Definition n_floor (x : num) : num :=
  let t := n_trunc x in
  let f z := n_of_dec (Z.ltb z 0) (Z.abs_N z) 0 in
  if n_leb (f t) x then f t else f (t - 1)%Z.

(** Python [a // b].  Simplified: CPython computes [(a - fmod(a, b)) / b] and
    corrects it, which is this for exact numbers. *)
Definition py_floordiv (a b : num) : res num :=
  if n_eqb b n0 then Err ZeroDivisionError else Ok (n_floor (n_div a b)).

(** vector3.py 82-84 [__floordiv__] *)
Definition v_floordiv (a : vec) (k : num) : res vec :=
  do x <- py_floordiv (vx a) k; do y <- py_floordiv (vy a) k; do z <- py_floordiv (vz a) k; Ok (Vec x y z).

(** vector3.py 154-156 [__rfloordiv__] *)
Definition v_rfloordiv (k : num) (a : vec) : res vec :=
  do x <- py_floordiv k (vx a); do y <- py_floordiv k (vy a); do z <- py_floordiv k (vz a); Ok (Vec x y z).

(** vector3.py 216-218 [getFloatList] *)
Definition float_list (a : vec) : list num := [vx a; vy a; vz a].

(** ** Memory *)

Inductive field := FX | FY | FZ.
Definition memory := list vec.
Definition at_ref (r : nat) (h : memory) : vec := nth r h origin.
Definition component (f : field) (a : vec) : num := match f with FX => vx a | FY => vy a | FZ => vz a end.
Definition with_component (f : field) (x : num) (a : vec) : vec :=
  match f with FX => Vec x (vy a) (vz a) | FY => Vec (vx a) x (vz a) | FZ => Vec (vx a) (vy a) x end.

Fixpoint store_at (r : nat) (v : vec) (h : memory) : memory :=
  match h, r with
  | [], _ => []
  | _ :: t, O => v :: t
  | a :: t, S r' => a :: store_at r' v t
  end.

(** [self.f] *)
Definition get_field (f : field) (r : nat) (h : memory) : num := component f (at_ref r h).
(** [self.f = x] *)
Definition put_field (f : field) (r : nat) (x : num) (h : memory) : memory :=
  store_at r (with_component f x (at_ref r h)) h.

(** what a statement leaves: the memory, and the exception it raised *)
Definition outcome := (memory * option exn)%type.

(** [r.f = e]: evaluate, then assign *)
Definition assign (r : nat) (f : field) (e : memory -> res num) (h : memory) : outcome :=
  match e h with Ok x => (put_field f r x h, None) | Err ex => (h, Some ex) end.

Definition then_ (o : outcome) (k : memory -> outcome) : outcome :=
  match o with (h, None) => k h | (h, Some ex) => (h, Some ex) end.

(** the body of an in-place method: x, y and z in turn *)
Definition each (r : nat) (e : field -> memory -> res num) (h : memory) : outcome :=
  then_ (then_ (assign r FX (e FX) h) (assign r FY (e FY))) (assign r FZ (e FZ)).

(** make a new vector *)
Definition make (v : res vec) (h : memory) : outcome :=
  match v with Ok a => (h ++ [a], None) | Err ex => (h, Some ex) end.

(** ** Statements *)

Inductive statement :=
| New (x y z : num)                 (* Vector3(x, y, z) *)
| Copy (r : nat)                    (* r.copy(), copy.copy(r), +r *)
| Neg (r : nat)                     (* -r *)
| Add (r s : nat)                   (* r + s *)
| Sub (r s : nat)                   (* r - s *)
| Mul (r : nat) (k : num)           (* r * k, k * r *)
| Div (r : nat) (k : num)           (* r / k *)
| RDiv (k : num) (r : nat)          (* k / r *)
| FloorDiv (r : nat) (k : num)      (* r // k *)
| RFloorDiv (k : num) (r : nat)     (* k // r *)
| Cross (r s : nat)                 (* r.cross(s) *)
| Reflect (r s : nat)               (* r.reflect(s) *)
| Normalized (r : nat)              (* r.getNormalized() *)
| IAdd (r s : nat)                  (* r += s *)
| ISub (r s : nat)                  (* r -= s *)
| IMul (r : nat) (k : num)          (* r *= k *)
| IDiv (r : nat) (k : num)          (* r /= k *)
| IFloorDiv (r : nat) (k : num)     (* r //= k *)
| Maximize (r s : nat)              (* r.maximize(s) *)
| Minimize (r s : nat)              (* r.minimize(s) *)
| Normalize (r : nat)               (* r.normalize() *)
| SetTo (r s : nat)                 (* r.setToVector3(s) *)
| SetXYZ (r : nat) (x y z : num)    (* r.setToXYZ(x, y, z) *)
| SetAttribute (r : nat) (name : string) (x : num). (* r._setAccessibleAttribute(name, x) *)

(** vector3.py 275-276: the accessible attributes *)
Definition field_named (name : string) : option field :=
  if String.eqb name "x" then Some FX
  else if String.eqb name "y" then Some FY
  else if String.eqb name "z" then Some FZ
  else None.

(** vector3.py 176-180 [_getAccessibleAttribute] *)
Definition get_attribute (r : nat) (name : string) (h : memory) : option num :=
  match field_named name with Some f => Some (get_field f r h) | None => None end.

(** vector3.py 125-130 [__itruediv__] *)
Definition idiv (r : nat) (k : num) : memory -> outcome :=
  each r (fun f h => py_div (get_field f r h) k).

Definition execute (st : statement) (h : memory) : outcome :=
  match st with
  | New x y z => make (Ok (Vec x y z)) h                                    (* 47-50 *)
  | Copy r => make (Ok (Vec (get_field FX r h) (get_field FY r h) (get_field FZ r h))) h (* 62-68 *)
  | Neg r => make (Ok (v_neg (at_ref r h))) h                               (* 140-141 *)
  | Add r s => make (Ok (v_add (at_ref r h) (at_ref s h))) h                (* 58-60 *)
  | Sub r s => make (Ok (v_sub (at_ref r h) (at_ref s h))) h                (* 167-169 *)
  | Mul r k => make (Ok (v_scale (at_ref r h) k)) h                         (* 132-134, 158-160 *)
  | Div r k => make (v_div (at_ref r h) k) h                                (* 171-174 *)
  | RDiv k r => make (v_rdiv k (at_ref r h)) h                              (* 162-165 *)
  | FloorDiv r k => make (v_floordiv (at_ref r h) k) h                      (* 82-84 *)
  | RFloorDiv k r => make (v_rfloordiv k (at_ref r h)) h                    (* 154-156 *)
  | Cross r s => make (Ok (cross (at_ref r h) (at_ref s h))) h              (* 187-190 *)
  | Reflect r s => make (Ok (reflect (at_ref r h) (at_ref s h))) h          (* 257-260 *)
  | Normalized r => make (normalized (at_ref r h)) h                        (* 228-233 *)
  | IAdd r s => each r (fun f h => Ok (n_add (get_field f r h) (get_field f s h))) h     (* 90-95 *)
  | ISub r s => each r (fun f h => Ok (n_sub (get_field f r h) (get_field f s h))) h     (* 118-123 *)
  | IMul r k => each r (fun f h => Ok (n_mul (get_field f r h) k)) h        (* 111-116 *)
  | IDiv r k => idiv r k h                                                  (* 125-130 *)
  | IFloorDiv r k => each r (fun f h => py_floordiv (get_field f r h) k) h  (* 104-109 *)
  | Maximize r s => each r (fun f h => Ok (n_max (get_field f s h) (get_field f r h))) h (* 239-243 *)
  | Minimize r s => each r (fun f h => Ok (n_min (get_field f s h) (get_field f r h))) h (* 245-249 *)
  | Normalize r =>                                                          (* 251-255 *)
      let m := magnitude (at_ref r h) in
      if negb (n_eqb m n0) then idiv r m h else (h, None)
  | SetTo r s => each r (fun f h => Ok (get_field f s h)) h                 (* 262-266 *)
  | SetXYZ r x y z => each r (fun f _ => Ok (match f with FX => x | FY => y | FZ => z end)) h (* 268-272 *)
  | SetAttribute r name x =>                                                (* 182-185 *)
      match field_named name with Some f => (put_field f r x h, None) | None => (h, None) end
  end.

(** one statement after the other, up to the first exception *)
Fixpoint execute_all (sts : list statement) (h : memory) : outcome :=
  match sts with
  | [] => (h, None)
  | st :: t => then_ (execute st h) (execute_all t)
  end.
End VectorObj.
Arguments memory A : clear implicits.
Arguments statement A : clear implicits.
Arguments outcome A : clear implicits.

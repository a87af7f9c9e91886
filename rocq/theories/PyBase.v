(** * PyBase: the fragment of Python the model is written in

    Exceptions are values ([res]); [string] is Coq's string of 8-bit
    characters (the model covers ASCII / Latin-1 text; characters outside the
    letters, digits and punctuation inspected by the code are only copied). *)
From Coq Require Import List Ascii String ZArith NArith Bool.
Import ListNotations.
Local Open Scope string_scope.

(** ** Exceptions *)

(** The Python exceptions the modelled code can raise.  [OutOfFuel] is not a
    Python exception: it marks an unbounded [while] loop that was cut off by
    the explicit fuel argument of the model and is excluded (or exhibited)
    explicitly by the theorems. *)
Inductive exn :=
| ValueError | TypeError | ZeroDivisionError | IndexError
| RuntimeError | AttributeError | StopIteration | OutOfFuel.

Inductive res (T : Type) := Ok (x : T) | Err (e : exn).
Arguments Ok {T} _.
Arguments Err {T} _.

Definition bind {S T} (m : res S) (f : S -> res T) : res T :=
  match m with Ok x => f x | Err e => Err e end.

Notation "'do' x <- m ; k" := (bind m (fun x => k))
  (at level 200, x name, m at level 100, k at level 200, right associativity).
Notation "'do' ' p <- m ; k" := (bind m (fun p => k))
  (at level 200, p strict pattern, m at level 100, k at level 200, right associativity).

(** A [for] loop threading a state, stopping at the first exception. *)
Fixpoint foldM {S X} (f : S -> X -> res S) (l : list X) (s : S) : res S :=
  match l with
  | [] => Ok s
  | x :: t => do s' <- f s x; foldM f t s'
  end.

(** ** Characters *)

Definition nl : ascii := "010"%char.

Definition char_eqb : ascii -> ascii -> bool := Ascii.eqb.

Definition in_chars (c : ascii) (l : list ascii) : bool := existsb (Ascii.eqb c) l.

(** [str.isspace] on the ASCII range: \t \n \v \f \r, the separators
    \x1c-\x1f (Python 3 [str.strip]) and the blank. *)
Definition is_space (c : ascii) : bool :=
  let n := N_of_ascii c in
  ((9 <=? n) && (n <=? 13) || (28 <=? n) && (n <=? 32))%N.

Definition is_digit (c : ascii) : bool :=
  let n := N_of_ascii c in ((48 <=? n) && (n <=? 57))%N.

Definition digit_val (c : ascii) : N := (N_of_ascii c - 48)%N.

(** [str.lower] / [str.upper], ASCII letters only. *)
Definition lower_char (c : ascii) : ascii :=
  let n := N_of_ascii c in
  if ((65 <=? n) && (n <=? 90))%N then ascii_of_N (n + 32) else c.

Definition upper_char (c : ascii) : ascii :=
  let n := N_of_ascii c in
  if ((97 <=? n) && (n <=? 122))%N then ascii_of_N (n - 32) else c.

Fixpoint str_map (f : ascii -> ascii) (s : string) : string :=
  match s with
  | EmptyString => EmptyString
  | String c t => String (f c) (str_map f t)
  end.

Definition lower : string -> string := str_map lower_char.
Definition upper : string -> string := str_map upper_char.

(** ** Strings *)

Definition is_empty (s : string) : bool :=
  match s with EmptyString => true | _ => false end.

Fixpoint lstrip (s : string) : string :=
  match s with
  | EmptyString => EmptyString
  | String c t => if is_space c then lstrip t else s
  end.

Fixpoint rstrip (s : string) : string :=
  match s with
  | EmptyString => EmptyString
  | String c t =>
      match rstrip t with
      | EmptyString => if is_space c then EmptyString else String c EmptyString
      | t' => String c t'
      end
  end.

(** [str.strip()] *)
Definition strip (s : string) : string := rstrip (lstrip s).

(** [s.startswith(p)] *)
Definition startswith (p s : string) : bool := String.prefix p s.

(** [needle in hay] *)
Fixpoint contains (needle hay : string) : bool :=
  String.prefix needle hay ||
  match hay with
  | EmptyString => false
  | String _ t => contains needle t
  end.

(** Maximal prefix of characters satisfying [p], and the rest. *)
Fixpoint span (p : ascii -> bool) (s : string) : string * string :=
  match s with
  | EmptyString => (EmptyString, EmptyString)
  | String c t =>
      if p c then let '(a, b) := span p t in (String c a, b)
      else (EmptyString, s)
  end.

Definition not_nl (c : ascii) : bool := negb (Ascii.eqb c nl).

Fixpoint str_all (p : ascii -> bool) (s : string) : bool :=
  match s with
  | EmptyString => true
  | String c t => p c && str_all p t
  end.

(** Value of a string of decimal digits, most significant first. *)
Fixpoint digits_val_acc (acc : N) (s : string) : N :=
  match s with
  | EmptyString => acc
  | String c t => digits_val_acc (10 * acc + digit_val c)%N t
  end.
Definition digits_val (s : string) : N := digits_val_acc 0 s.

Definition digit_char (n : N) : ascii := ascii_of_N (48 + n).

(** Exactly [k] decimal digits of [n] (zero padded, truncated on the left). *)
Fixpoint digits_fixed (k : nat) (n : N) : string :=
  match k with
  | O => EmptyString
  | S k' => digits_fixed k' (n / 10)%N ++ String (digit_char (n mod 10)%N) EmptyString
  end.

(** Number of decimal digits of [n], at least 1. *)
Fixpoint num_digits_fuel (fuel : nat) (n : N) : nat :=
  match fuel with
  | O => 1
  | S f => if (n <? 10)%N then 1 else S (num_digits_fuel f (n / 10)%N)
  end.
Definition num_digits (n : N) : nat := num_digits_fuel (N.size_nat n) n.

(** Decimal notation of a natural number, no leading zeros. *)
Definition N_to_string (n : N) : string := digits_fixed (num_digits n) n.

Definition Z_to_string (z : Z) : string :=
  (if (z <? 0)%Z then "-" else "") ++ N_to_string (Z.abs_N z).

Definition nat_to_string (n : nat) : string := N_to_string (N.of_nat n).

(** [10^k] as a binary natural. *)
Definition pow10 (k : nat) : N := (10 ^ N.of_nat k)%N.

(** Python [list.insert(i, x)] for [0 <= i]. *)
Definition insert_at {T} (i : nat) (x : T) (l : list T) : list T :=
  firstn i l ++ x :: skipn i l.

(** Python [l[i] = x] for [0 <= i < len(l)]. *)
Fixpoint set_nth {T} (i : nat) (x : T) (l : list T) : list T :=
  match l, i with
  | [], _ => []
  | _ :: t, O => x :: t
  | y :: t, S i' => y :: set_nth i' x t
  end.

(** Python [l.index(x)] for a boolean equality test; [None] is ValueError. *)
Fixpoint find_index {T} (p : T -> bool) (l : list T) : option nat :=
  match l with
  | [] => None
  | x :: t => if p x then Some O else option_map S (find_index p t)
  end.

Definition is_some {T} (o : option T) : bool :=
  match o with Some _ => true | None => false end.

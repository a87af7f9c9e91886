(** * SpecEqual: when two programs say the same thing *)
From Coq Require Import List String Bool Reals.
From Verif Require Import PyBase Arith Gcoder SpecMeasure.
Import ListNotations.

(** decimals written for each argument *)
Definition decimals (k : letter) : nat := match k with LE => 5 | _ => 3 end.

(** all arguments are finite numbers *)
Definition finite_args {A : arith} (a : args A) : Prop :=
  forall k x, get_arg k a = Some x -> exists neg m, n_dec (decimals k) x = DFin neg m.

Section Equal.
Context {A : arith} (E : exact A).

(** same command, same words present, values within a thousandth *)
Definition alike (a b : line A) : Prop :=
  command a = command b /\
  forall k, match get_arg k (largs a), get_arg k (largs b) with
            | None, None => True
            | Some x, Some y => (Rabs (val E x - val E y) <= / 1000)%R
            | _, _ => False
            end.

(** the lines of a program that carry a command, in order *)
Definition commands_of (g : gcode A) : list (line A) :=
  filter (fun l => match command l with Some _ => true | None => false end)
    (List.concat (map ly_lines (g_layers g))).

(** [a] and [b] first disagree after [n] lines, which are [x] and [y] *)
Definition first_difference (n : nat) (x y : line A) (a b : list (line A)) : Prop :=
  Forall2 alike (firstn n a) (firstn n b) /\ nth_error a n = Some x /\ nth_error b n = Some y /\
  ~ alike x y.

End Equal.

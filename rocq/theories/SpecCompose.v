(** * SpecCompose: when two lines ask for the same *)
From Coq Require Import List Ascii String Reals.
From Verif Require Import PyBase Arith SpecText SpecMachine.
Import ListNotations.
Local Open Scope list_scope.
Local Open Scope R_scope.

(** both are missing, or they differ by at most [d] *)
Definition within (d : R) (o p : option R) : Prop :=
  match o, p with
  | None, None => True
  | Some x, Some y => Rabs (x - y) <= d
  | _, _ => False
  end.

(** The two lines have the same command and the same words of the letters the
    parser knows, with numbers that differ by at most [n] halves of the last
    place written: five places for E, three for the others. *)
Definition agrees (n : nat) (s s' : string) : Prop :=
  command_name s' = command_name s /\
  (forall c, In c ["x"; "y"; "z"; "f"; "i"; "j"]%string ->
     within (INR n / 2000) (number_of c (words s')) (number_of c (words s))) /\
  within (INR n / 200000) (number_of "e" (words s')) (number_of "e" (words s)).

(** * SpecBox: where a program prints *)
From Coq Require Import List Ascii String Reals.
From Verif Require Import PyBase Arith SpecText SpecMachine SpecFilter.
Import ListNotations.
Local Open Scope list_scope.
Local Open Scope R_scope.

(** the extruder advances during line [i] *)
Definition prints (ss : list string) (k : machine) (i : nat) : Prop :=
  extruder (run (firstn i ss) k) < extruder (run (firstn (S i) ss) k).

(** Every line that moves the extruder moves it by more than what the last
    written place of E can tell apart. *)
Definition sharp (ss : list string) (k : machine) : Prop :=
  forall i s, nth_error ss i = Some s -> feeds s = true ->
    / 100000 < Rabs (extruder (run (firstn (S i) ss) k) - extruder (run (firstn i ss) k)).

(** Whenever something is printed, X and Y have been moved since the last
    homing. *)
Definition placed (ss : list string) (k : machine) : Prop :=
  forall i, prints ss k i -> forall a, a <> Z ->
    exists p, t_run a Homed (firstn (S i) ss) = Some p /\ moved p = true.

(** * SpecArcBox: extrusion in relative mode (C123) *)
From Coq Require Import List String.
From Verif Require Import PyBase Arith SpecText SpecMachine SpecFilter.
Import ListNotations.

(** Whenever a move feeds the extruder, extrusion is in relative mode. *)
Definition fed_relatively (ss : list string) : Prop :=
  forall a s b, ss = (a ++ s :: b)%list -> feeds s = true -> mode_relative_e a = true.

(** * SpecArcKept: the lines arcs are not made of (C120) *)
From Coq Require Import List String Bool.
From Verif Require Import PyBase Arith Gcoder SpecFilter.

(** a move, G0 to G3, with an E word *)
Definition extruding_move {A : arith} (l : line A) : bool := is_motion l && is_some (l_e l).

(** the texts of the other lines *)
Definition other_texts {A : arith} (ls : list (line A)) : list string :=
  map raw (filter (fun l => negb (extruding_move l)) ls).

(** *** Layers (C121) *)

(** [ys] is [xs] with groups of one or two generated lines in the place of
    groups of at least 8 lines *)
Inductive swapped : list string -> list string -> Prop :=
| sw_nil : swapped nil nil
| sw_same s xs ys : swapped xs ys -> swapped (s :: xs) (s :: ys)
| sw_group old new xs ys : 8 <= List.length old -> 1 <= List.length new <= 2 ->
    Forall (fun s => contains "; generated" s = true) new -> swapped xs ys ->
    swapped (old ++ xs) (new ++ ys).

(** the same layers, at the same heights, but for such groups *)
Definition layers_swapped {A : arith} (g h : gcode A) : Prop :=
  Forall2 (fun y y' => ly_z y' = ly_z y /\ swapped (map raw (ly_lines y)) (map raw (ly_lines y')))
    (g_layers g) (g_layers h).

(** * SpecHeights: the heights a program prints at *)
From Coq Require Import List String Reals.
From Verif Require Import PyBase Arith Gcoder SpecMeasure.
Import ListNotations.

(** [h] is the Z after some line that extrudes *)
Definition prints_at {A : arith} (v : num A -> R) (ls : list (line A)) (h : option R) : Prop :=
  exists i l, nth_error ls i = Some l /\ t_extruding (lnotes l) = Some true /\
              h = option_map v (z_after (firstn (S i) ls)).

(** lines that extrude keep the height *)
Definition level {A : arith} (v : num A -> R) (ls : list (line A)) : Prop :=
  forall i l, nth_error ls i = Some l -> t_extruding (lnotes l) = Some true ->
    option_map v (z_after (firstn (S i) ls)) = option_map v (z_after (firstn i ls)).

(** lines that change the height change it by at least a fiftieth of a millimetre *)
Definition spaced {A : arith} (v : num A -> R) (ls : list (line A)) : Prop :=
  forall i z z', z_after (firstn i ls) = Some z -> z_after (firstn (S i) ls) = Some z' ->
    v z' = v z \/ (/ 50 <= Rabs (v z' - v z))%R.

(** how many lines change the height *)
Definition changes {A : arith} (ls : list (line A)) : nat :=
  List.length (filter (fun i => negb (opt_eqb (z_after (firstn (S i) ls)) (z_after (firstn i ls))))
                      (seq 0 (List.length ls))).

(** the heights printed at, in the order of printing, with two decimals *)
Definition printed_texts {A : arith} (ls : list (line A)) : list string :=
  flat_map (fun i => match option_map (fun l => t_extruding (lnotes l)) (nth_error ls i), z_after (firstn (S i) ls) with
                     | Some (Some true), Some z => [fmt 2 z]
                     | _, _ => []
                     end) (seq 0 (List.length ls)).

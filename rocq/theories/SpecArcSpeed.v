(** * SpecArcSpeed: the speed the moves are run at (C118)

    A printer runs a move at the last F word seen on a move, the move itself
    included.  This file says what it means that two programs, one of which has
    arcs in the place of rows of moves, are run at the same speed. *)
From Coq Require Import List String Reals.
From Verif Require Import PyBase SpecText SpecMachine SpecArc.
Import ListNotations.
Local Open Scope list_scope.
Local Open Scope R_scope.

(** the speed after one line; [None]: no F word so far *)
Definition set_speed (s : string) (v : option R) : option R :=
  match op_of s with Move _ _ (Some f) => Some f | _ => v end.

(** the speed after a list of lines *)
Definition speed_after (ss : list string) (v : option R) : option R :=
  fold_left (fun v s => set_speed s v) ss v.

(** both unset, or at most 0.0005 apart *)
Definition close_speed (v v' : option R) : Prop :=
  match v, v' with
  | None, None => True
  | Some a, Some b => Rabs (b - a) <= / 2000
  | _, _ => False
  end.

(** The two programs share lines, and groups of one or two generated lines in
    the one take the place of at least 8 lines in the other.  The speeds are
    close before each of these; and each of the lines replaced is run at a speed
    close to that of the generated lines. *)
Inductive keeps_speed : option R -> option R -> list string -> list string -> Prop :=
| ks_end v v' : close_speed v v' -> keeps_speed v v' [] []
| ks_line v v' s ss ss' : close_speed v v' ->
    keeps_speed (set_speed s v) (set_speed s v') ss ss' ->
    keeps_speed v v' (s :: ss) (s :: ss')
| ks_group v v' old new ss ss' : close_speed v v' -> (8 <= List.length old)%nat ->
    (1 <= List.length new <= 2)%nat ->
    Forall (fun s => contains "; generated" s = true) new ->
    (forall n, (1 <= n <= List.length old)%nat ->
       close_speed (speed_after (firstn n old) v) (speed_after new v')) ->
    keeps_speed (speed_after old v) (speed_after new v') ss ss' ->
    keeps_speed v v' (old ++ ss) (new ++ ss').

(** lengths are in millimetres throughout *)
Definition in_millimetres (ss : list string) : Prop := Forall (fun s => op_of s <> Inches) ss.

(** a speed is known at each move that has an E word *)
Fixpoint speed_known (v : option R) (ss : list string) : Prop :=
  match ss with
  | [] => True
  | s :: t =>
      (match op_of s with Move _ (Some _) _ => set_speed s v <> None | _ => True end) /\
      speed_known (set_speed s v) t
  end.

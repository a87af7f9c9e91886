(** * SpecArc: what replacing runs of moves by arcs should mean *)
From Coq Require Import List Ascii String ZArith NArith Bool Reals.
From Verif Require Import PyBase Arith ArithR Gcoder Filters SpecText SpecLoad SpecMachine SpecFilter.
Import ListNotations.
Local Open Scope list_scope.

Section Shape.
Context {A : arith}.

(** [l'] is the line [l]: same text, command and numbers; a line with a command
    is the very same, a comment may have taken over noted positions *)
Definition same_line (l l' : line A) : Prop :=
  raw l' = raw l /\ command l' = command l /\ is_move l' = is_move l /\ largs l' = largs l /\
  (command l <> None -> l' = l).

(** [replaced R n ins outs]: [outs] is [ins] with [n] runs of lines replaced.
    A run stands behind a kept line and before a kept line; [R first run gen]
    is required of the lines [gen] put in its place. *)
Inductive replaced (R : line A -> list (line A) -> list (line A) -> Prop) :
  nat -> list (line A) -> list (line A) -> Prop :=
| rp_nil : replaced R 0 [] []
| rp_keep n l l' ins outs :
    same_line l l' -> replaced R n ins outs -> replaced R n (l :: ins) (l' :: outs)
| rp_run n l l' run run' gen next outs :
    same_line l l' -> Forall2 same_line run run' -> R l' run' gen ->
    next <> [] -> replaced R n next outs ->
    replaced R (S n) (l :: run ++ next) (l' :: gen ++ outs).

(** a line that may be part of a run: a move or a comment *)
Definition absorbable (l : line A) : bool :=
  match command l with None => true | Some _ => is_motion l end.

(** a line with a command other than G0-G3 *)
Definition other_command (l : line A) : bool := negb (absorbable l).

Definition is_arc (l : line A) : Prop :=
  (command l = Some "G2" \/ command l = Some "G3")%string.

(** a G92 that sets the extruder position only *)
Definition sets_e (l : line A) : Prop :=
  command l = Some "G92"%string /\
  forall k, k <> LE -> get_arg k (largs l) = None.

(** one arc, and possibly a correction of the extruder position *)
Definition arc_for (first : line A) (run gen : list (line A)) : Prop :=
  8 <= List.length run /\ forallb absorbable run = true /\
  exists arc fix_, gen = arc :: fix_ /\ is_arc arc /\
    (fix_ = [] \/ exists c, fix_ = [c] /\ sets_e c).

(** No more than [k] moves and comments in a row ([n] of them still allowed at
    the beginning). *)
Fixpoint rows_within (k n : nat) (ls : list (line A)) : bool :=
  match ls with
  | [] => true
  | l :: t =>
      if absorbable l then match n with O => false | S n' => rows_within k n' t end
      else rows_within k k t
  end.

(** [ys] is [xs] with some more elements that satisfy [P] *)
Inductive more {T} (P : T -> Prop) : list T -> list T -> Prop :=
| more_nil : more P [] []
| more_same x xs ys : more P xs ys -> more P (x :: xs) (x :: ys)
| more_new y xs ys : P y -> more P xs ys -> more P xs (y :: ys).

End Shape.

(** *** On one circle (over the reals) *)

Local Open Scope R_scope.

Definition distance (x y x' y' : R) : R := sqrt ((x - x') * (x - x') + (y - y') * (y - y')).

(** the place noted on a line *)
Definition at_place (l : line RA) (x y : R) : Prop :=
  t_x (lnotes l) = Some x /\ t_y (lnotes l) = Some y.

(** the line passes within 0.015 of the circle *)
Definition near_circle (x0 y0 r : R) (l : line RA) : Prop :=
  exists x y, at_place l x y /\ Rabs (distance x0 y0 x y - r) <= 15 / 1000.

Definition rounded (v w : R) : Prop := Rabs (w - v) <= / 2 / 1000.

(** The word [k] of a line is a number within 0.0005 of [v]. *)
Definition word_near (k : letter) (v : R) (l : line RA) : Prop :=
  exists w, get_arg k (largs l) = Some w /\ rounded v w.

(** The run behind [first] consists of at least 8 extruding moves at one
    feedrate and one height, all within 0.015 of a circle of radius at most 200;
    the arc ends at the last of them and names the centre of that circle. *)
Definition fitted (first : line RA) (run gen : list (line RA)) : Prop :=
  (8 <= List.length run)%nat /\
  Forall (fun l => is_motion l = true /\ l_e l <> None) run /\
  (exists f z, Forall (fun l => t_f (lnotes l) = f /\ t_z (lnotes l) = z) run /\
     match gen with arc :: _ => l_f arc = f | [] => False end) /\
  exists x0 y0 r xs ys xe ye arc fix_,
    gen = arc :: fix_ /\ is_arc arc /\ (fix_ = [] \/ exists c, fix_ = [c] /\ sets_e c) /\
    0 <= r <= 200 /\ Forall (near_circle x0 y0 r) (first :: run) /\
    at_place first xs ys /\ at_place (last run first) xe ye /\
    word_near LX xe arc /\ word_near LY ye arc /\
    word_near LI (x0 - xs) arc /\ word_near LJ (y0 - ys) arc /\ l_z arc = None.

(** *** Extrusion *)

(** the E words of a run, added up *)
Definition total_e (ls : list (line RA)) : R :=
  fold_right (fun (l : line RA) s => match l_e l with Some e => e + s | None => s end) 0 ls.

(** In relative extrusion mode the arc feeds at least what the run feeds, which
    is something. *)
Definition feeds_enough (first : line RA) (run gen : list (line RA)) : Prop :=
  Forall (fun l => t_relative_e (lnotes l) = Some true) run ->
  0 < total_e run /\
  exists arc e, gen = [arc] /\ is_arc arc /\ l_e arc = Some e /\ total_e run <= e.

(** *** Where the head is *)

(** Two programs keep pace: after every line they share, and after every group
    of generated lines that takes the place of at least 8 lines, the two
    machines are [near] each other. *)
Inductive keeps_pace (near : machine -> machine -> Prop) :
  machine -> machine -> list string -> list string -> Prop :=
| kp_end k k' : near k k' -> keeps_pace near k k' [] []
| kp_line k k' s ss ss' : near k k' ->
    keeps_pace near (exec_line s k) (exec_line s k') ss ss' ->
    keeps_pace near k k' (s :: ss) (s :: ss')
| kp_group k k' old new ss ss' : near k k' -> (8 <= List.length old)%nat ->
    (1 <= List.length new <= 2)%nat ->
    Forall (fun s => contains "; generated" s = true) new ->
    keeps_pace near (run old k) (run new k') ss ss' ->
    keeps_pace near k k' (old ++ ss) (new ++ ss').

(** X and Y differ by at most 0.0005 *)
Definition near_xy (k k' : machine) : Prop :=
  Rabs (head k' X - head k X) <= / 2000 /\ Rabs (head k' Y - head k Y) <= / 2000.

(** the same, and Z is equal *)
Definition near_xyz (k k' : machine) : Prop := near_xy k k' /\ head k' Z = head k Z.

(** Absolute coordinates in millimetres; X and Y are not re-based. *)
Definition arc_plain (s : string) : Prop :=
  clear_words s /\
  match op_of s with
  | Inches | Relative => False
  | SetPosition w _ => w X = None /\ w Y = None
  | _ => True
  end.

(** no move extrudes while it changes the height *)
Definition level_extrusion (s : string) : Prop :=
  match op_of s with Move w e _ => w Z = None \/ e = None | _ => True end.

(** *** How the arc turns *)

(** the direction from (x0, y0) to [p] is the angle [t] *)
Definition towards (x0 y0 : R) (p : R * R) (t : R) : Prop :=
  exists d, 0 <= d /\ fst p = x0 + d * cos t /\ snd p = y0 + d * sin t.

(** [ds] are the angles, seen from (x0, y0), between successive points *)
Inductive steps (x0 y0 : R) : list (R * R) -> list R -> Prop :=
| steps_end p : steps x0 y0 [p] []
| steps_next p q ps t d ds :
    towards x0 y0 p t -> towards x0 y0 q (t + d) -> - PI <= d <= PI ->
    steps x0 y0 (q :: ps) ds -> steps x0 y0 (p :: q :: ps) (d :: ds).

Definition mean (ds : list R) : R := fold_right Rplus 0 ds / INR (List.length ds).

(** (x0, y0) is the centre of the arc that starts at [first] *)
Definition centre (x0 y0 : R) (first arc : line RA) : Prop :=
  exists xs ys, at_place first xs ys /\ word_near LI (x0 - xs) arc /\ word_near LJ (y0 - ys) arc.

(** Seen from the centre of the arc, no step of the run is more than 5 degrees
    above the mean. *)
Definition spaced (first : line RA) (run gen : list (line RA)) : Prop :=
  exists x0 y0 ps ds arc fix_, gen = arc :: fix_ /\ centre x0 y0 first arc /\
    Forall2 (fun l p => at_place l (fst p) (snd p)) (first :: run) ps /\
    steps x0 y0 ps ds /\ Forall (fun d => d - mean ds <= 5 * PI / 180) ds.

(** positive if, seen from (x0, y0), [q] is to the left of [p] *)
Definition left_of (x0 y0 : R) (p q : R * R) : R :=
  (fst p - x0) * (snd q - y0) - (snd p - y0) * (fst q - x0).

(** The arc turns as the first two segments of the run do: a G3 to the left, a
    G2 to the right. *)
Definition turned (first : line RA) (run gen : list (line RA)) : Prop :=
  exists x0 y0 p q arc fix_ l1 l2 more_, gen = arc :: fix_ /\ centre x0 y0 first arc /\
    run = l1 :: l2 :: more_ /\ at_place first (fst p) (snd p) /\ at_place l2 (fst q) (snd q) /\
    (command arc = Some "G3"%string /\ 0 <= left_of x0 y0 p q \/
     command arc = Some "G2"%string /\ left_of x0 y0 p q <= 0).

(** *** Extrusion in absolute mode *)

Definition total (ds : list R) : R := fold_right Rplus 0 ds.

(** the length of the path through the points *)
Fixpoint path_length (ps : list (R * R)) : R :=
  match ps with
  | p :: t => match t with
              | q :: _ => distance (fst q) (snd q) (fst p) (snd p) + path_length t
              | [] => 0
              end
  | [] => 0
  end.

(** In absolute extrusion mode the arc feeds what the run feeds, times the
    length of the arc (negative when it turns right) over the length [s] of the
    run (measured to 7 decimals per segment).  Where that is more than 1 % too
    much, the extruder position is set to what it was at the end of the run. *)
Definition feeds_evenly (first : line RA) (run gen : list (line RA)) : Prop :=
  Forall (fun l => t_relative_e (lnotes l) <> Some true) run ->
  exists x0 y0 r ps ds s e0 e1 arc fix_, gen = arc :: fix_ /\ centre x0 y0 first arc /\
    Forall2 (fun l p => at_place l (fst p) (snd p)) (first :: run) ps /\ steps x0 y0 ps ds /\
    0 <= r /\ Forall (near_circle x0 y0 r) (first :: run) /\
    Rabs (s - path_length ps) <= INR (List.length run) * (/ 2 / 10 ^ 7) /\ s <> 0 /\
    t_e (lnotes first) = Some e0 /\ t_e (lnotes (last run first)) = Some e1 /\
    let ratio := r * total ds / s in
    l_e arc = Some (e0 + ratio * (e1 - e0)) /\
    (ratio <= 101 / 100 /\ fix_ = [] \/
     101 / 100 < ratio /\ exists c, fix_ = [c] /\ sets_e c /\ l_e c = Some e1).

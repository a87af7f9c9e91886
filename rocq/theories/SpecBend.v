(** * SpecBend: where the path bends, and how far stretching moves a point *)
From Coq Require Import List Ascii String Bool Reals.
From Verif Require Import PyBase Arith ArithR Gcoder Stretch SpecStretch.
Import ListNotations.
Local Open Scope list_scope.
Local Open Scope R_scope.

Definition point := (R * R)%type.
Definition plus (a b : point) : point := (fst a + fst b, snd a + snd b).
Definition minus (a b : point) : point := (fst a - fst b, snd a - snd b).
Definition times (k : R) (a : point) : point := (k * fst a, k * snd a).
Definition inner (a b : point) : R := fst a * fst b + snd a * snd b.
Definition size (a : point) : R := sqrt (inner a a).
Definition distance (a b : point) : R := size (minus a b).

(** the direction from [a] to [b]: of size 1 *)
Definition heading (a b : point) : point := times (/ distance a b) (minus b a).

(** [reaches s p qs q]: walking the distance [s] from [p] through the points
    [qs] ends at [q] *)
Inductive reaches : R -> point -> list point -> point -> Prop :=
| reaches_here s p q qs : s <= distance p q -> reaches s p (q :: qs) (plus p (times s (heading p q)))
| reaches_on s p q qs r : distance p q < s -> reaches (s - distance p q) q qs r -> reaches s p (q :: qs) r.

(** the part of [v] along the direction [u], and the rest *)
Definition along (u v : point) : point := times (inner u v) u.
Definition across (u v : point) : point := minus v (along u v).

(** a number forced into the range from 0 to 1 *)
Definition portion (k : R) : R := Rmax 0 (Rmin 1 k).

(** What is left of the stretch [v] of the point [p] because of its neighbour [q]:
    all of it when [q] is nearer than a third of the cross limit [c]; only the
    part along the thread when it is farther than [c]. *)
Definition restrained (c : R) (p q v : point) : point :=
  let u := heading p q in
  plus (along u v) (times (portion ((c - distance p q) / (2 / 3 * c))) (across u v)).

(** a vector no longer than 1 *)
Definition clipped (v : point) : point := times (/ Rmax 1 (size v)) v.

(** The stretch of the point [p], as a fraction of the largest one: away from the
    points [f] and [k] of the path, that far ahead and behind; [r] and [q] are
    the next point and the previous one. *)
Definition bend (far c : R) (p r f q k : point) : point :=
  clipped (restrained c p q (restrained c p r
    (times (8 / 10 / far) (plus (minus p f) (minus p k))))).

(** the cosine of the angle at [p] between the threads to [q] and to [r] *)
Definition cosine (q p r : point) : R := inner (heading p q) (heading p r).

(** a vector points into the angle at [p] when this is positive, out of it when
    it is negative *)
Definition inwards (q p r v : point) : R := inner v (plus (heading p q) (heading p r)).

(** a G0 or G1 to the point [p], without a mark *)
Definition plain_move (l : line RA) (p : point) : Prop :=
  xy_move l = true /\ l_x l = Some (fst p) /\ l_y l = Some (snd p) /\ contains "stretch-" (raw l) = false.

(** the coordinates differ by at most half a unit of the third decimal *)
Definition close_to (a b : point) : Prop := Rabs (fst a - fst b) <= / 2000 /\ Rabs (snd a - snd b) <= / 2000.

(** The filter moves the point [p] of a loop to [p']; the path before it, latest
    first, and after it goes through the points [qs] and [rs], all of them in
    the same loop and layer.  [w] is the edge width and [most] the largest
    displacement. *)
Definition stretches profile fuel d (o : options (A:=RA)) (w most : R) (qs : list point) (p : point) (rs : list point)
  (p' : point) : Prop :=
  exists (g g' : gcode RA) printed ys n y y' x pre back b ahead post l',
    let seen := rev (lines_of (firstn n ys) ++ x :: pre ++ rev back ++ [b]) in
    stretch profile fuel d o g = Ok (g', printed) /\
    setup_filter profile d (g_layers g) = Ok (Some w, ys) /\
    nth_error ys n = Some y /\ ly_lines y = x :: pre ++ rev back ++ b :: ahead ++ post /\
    Forall2 plain_move back qs /\ plain_move b p /\ Forall2 plain_move ahead rs /\
    to_stretch o (Some w) seen = true /\ most = limit o (Some w) (loop_of (map raw seen)) /\
    nth_error (g_layers g') n = Some y' /\ nth_error (ly_lines y') (S (List.length (pre ++ back))) = Some l' /\
    l_x l' = Some (fst p') /\ l_y l' = Some (snd p').

(** the middle of two points *)
Definition middle (a b : point) : point := times (/ 2) (plus a b).

(** ** Whole loops *)

(** a G0 or G1 to the point [p] *)
Definition move_to (l : line RA) (p : point) : Prop :=
  xy_move l = true /\ l_x l = Some (fst p) /\ l_y l = Some (snd p).

(** the length of the path from [p] through the points [qs] *)
Fixpoint path_length (p : point) (qs : list point) : R :=
  match qs with [] => 0 | q :: t => distance p q + path_length q t end.

(** How the path through the points [qs] pulls at [p]: away from the point that
    is [far] along the path or, if the path is shorter, away from its end, then
    with the whole strength. *)
Inductive pull (far : R) (p : point) (qs : list point) : point -> Prop :=
| pull_reached f : reaches far p qs f -> pull far p qs (times (/ far) (minus p f))
| pull_short : path_length p qs < far -> pull far p qs (heading (last qs p) p).

(** [restrained] by the next point of the path, if any *)
Definition held (c : R) (p : point) (qs : list point) (v : point) : point :=
  match qs with [] => v | q :: _ => restrained c p q v end.

(** the stretch of [p], as a fraction of the largest one, for the path [rs] ahead
    of it, the path [qs] behind it and their pulls [u] and [v] *)
Definition displaced (c : R) (p : point) (rs qs : list point) (u v : point) : point :=
  clipped (held c p qs (held c p rs (times (8 / 10) (plus u v)))).

(** the list, from the element number [k] on and round to it *)
Definition turn {X : Type} (k : nat) (xs : list X) : list X := skipn k xs ++ firstn k xs.

(** The way round a loop from its point number [k], ahead and behind.  A loop of
    Slic3r or Skeinforge begins with the travel to its first point, where it also
    ends: its first and last point are one. *)
Definition ahead (d : dialect) (k : nat) (ps : list point) : list point :=
  match d with Cura => turn (S k) ps | _ => turn k (tl ps) end.
Definition behind (d : dialect) (k : nat) (ps : list point) : list point :=
  rev (turn k (match d with Cura => ps | _ => removelast ps end)).

(** the mark by which the walk round a loop knows its end *)
Definition ends_loop (d : dialect) (t : string) : bool :=
  match d with Cura => contains "stretch-loop-stop" t | _ => contains "stretch-extrusion-off" t end.

(** [body] are the lines of a loop of kind [k], from the move with the start mark
    to its last move; then comes the line [z] that ends it.  There is no other
    mark of a start or an end.  Lines that do not move in X and Y may be in
    between. *)
Definition is_loop (d : dialect) (k : loop) (body : list (line RA)) (z : line RA) : Prop :=
  exists a ms, body = a :: ms /\ ms <> [] /\
    opened (raw a) = Some k /\ ends_loop d (raw a) = false /\
    Forall (fun l => opened (raw l) = None /\ contains "stretch-loop-stop" (raw l) = false /\ ends_loop d (raw l) = false) ms /\
    xy_move a = true /\ xy_move (last ms a) = true /\
    Forall (fun l => xy_move l = false -> forall l', reparse l = Ok l' -> xy_move l' = false) ms /\
    ends_loop d (raw z) = true.

(** The filter moves the points [ps] of a loop to [ps']. *)
Definition stretches_loop profile fuel d (o : options (A:=RA)) (w most : R) (ps ps' : list point) : Prop :=
  exists (g g' : gcode RA) printed ys n y y' pre body z post k,
    let body' := firstn (List.length body) (skipn (List.length pre) (ly_lines y')) in
    stretch profile fuel d o g = Ok (g', printed) /\
    setup_filter profile d (g_layers g) = Ok (Some w, ys) /\
    nth_error ys n = Some y /\ ly_lines y = pre ++ body ++ z :: post /\ is_loop d k body z /\
    most = limit o (Some w) (Some k) /\ 0 < most /\
    nth_error (g_layers g') n = Some y' /\
    Forall2 move_to (filter xy_move body) ps /\
    Forall2 move_to (map snd (filter (fun ll => xy_move (fst ll)) (combine body body'))) ps'.

(** the first and the last point are the same *)
Definition closed (ps : list point) : Prop := exists p mid, ps = p :: mid ++ [p].

(** ** The loops of Skeinforge *)

(** the line is not a move in X and Y, and reads as none *)
Definition unmoving (l : line RA) : Prop := xy_move l = false /\ forall l', reparse l = Ok l' -> xy_move l' = false.

(** the line has no mark but perhaps the one of the start of the extrusion *)
Definition unmarked (l : line RA) : Prop :=
  opened (raw l) = None /\ contains "stretch-loop-stop" (raw l) = false /\ contains "stretch-extrusion-off" (raw l) = false.

(** [body] are the lines of a loop of kind [k] in a layer, from the travel to its
    first point to its last move; then comes the line [z] that ends the
    extrusion.  [before] are the lines before the layer and [pre] the ones of the
    layer before the loop: at most one, or an extrusion ends there and no move
    follows it. *)
Definition skein_loop (k : loop) (before pre body : list (line RA)) (z : line RA) : Prop :=
  exists a rest on ms, body = a :: rest ++ on :: ms /\
    loop_of (map raw (rev (before ++ pre))) = Some k /\ Forall unmarked body /\
    xy_move a = true /\ Forall unmoving (rest ++ [on]) /\
    contains "stretch-extrusion-on" (raw on) = true /\
    Forall (fun l => contains "stretch-extrusion-on" (raw l) = false) ms /\
    ms <> [] /\ xy_move (last ms a) = true /\ Forall (fun l => xy_move l = false -> unmoving l) ms /\
    contains "stretch-extrusion-off" (raw z) = true /\
    ((List.length pre <= 1)%nat \/
     exists q u gap, pre = q ++ u :: gap /\ contains "stretch-extrusion-off" (raw u) = true /\
       Forall (fun l => unmoving l /\ contains "stretch-extrusion-off" (raw l) = false) gap).

(** The filter moves the points [ps] of a loop of Skeinforge to [ps']. *)
Definition stretches_skein profile fuel (o : options (A:=RA)) (w most : R) (ps ps' : list point) : Prop :=
  exists (g g' : gcode RA) printed ys n y y' pre body z post k,
    let body' := firstn (List.length body) (skipn (List.length pre) (ly_lines y')) in
    stretch profile fuel Skeinforge o g = Ok (g', printed) /\
    setup_filter profile Skeinforge (g_layers g) = Ok (Some w, ys) /\
    nth_error ys n = Some y /\ ly_lines y = pre ++ body ++ z :: post /\
    skein_loop k (lines_of (firstn n ys)) pre body z /\
    most = limit o (Some w) (Some k) /\ 0 < most /\
    nth_error (g_layers g') n = Some y' /\
    Forall2 move_to (filter xy_move body) ps /\
    Forall2 move_to (map snd (filter (fun ll => xy_move (fst ll)) (combine body body'))) ps'.

(** the length of the path through the points *)
Definition perimeter (ps : list point) : R :=
  match ps with [] => 0 | p :: t => path_length p t end.

(** every point of the program that is stretched is in a loop, closed and at
    least [far] long *)
Definition all_skein (o : options (A:=RA)) (w far : R) (ys : list (layer RA)) : Prop :=
  forall n y m1 m t, nth_error ys n = Some y -> ly_lines y = m1 ++ m :: t ->
    to_stretch o (Some w) (rev (lines_of (firstn n ys) ++ m1 ++ [m])) = true ->
    exists pre b r z post k ps, m1 = pre ++ b /\ t = r ++ z :: post /\
      skein_loop k (lines_of (firstn n ys)) pre (b ++ m :: r) z /\
      Forall2 move_to (filter xy_move (b ++ m :: r)) ps /\ closed ps /\ far <= perimeter ps.

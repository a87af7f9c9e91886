(** * Arc: model of gcodeutils/filter/arc_optimizer.py and
    gcode_optimize_arcs.py

    The logging calls (arc_optimizer.py 326-327) are left out, and so are
    [Point] and [Circle] objects as such: a point is a pair of numbers. *)
From Coq Require Import List Ascii String ZArith NArith Bool.
From Verif Require Import PyBase Arith Gcoder Filters.
Import ListNotations.
Local Open Scope list_scope.

(** [[f x for x in l]], stopping at the first exception *)
Fixpoint mapM {S T} (f : S -> res T) (l : list S) : res (list T) :=
  match l with
  | [] => Ok []
  | x :: t => do y <- f x; do r <- mapM f t; Ok (y :: r)
  end.

Section Arc.
Context {A : arith}.
Notation num := (num A).
Notation line := (line A).
Notation gcode := (gcode A).

(** arc_optimizer.py 19-26: the constants *)
Definition min_segments : nat := 8.
Definition max_radius : num := lit 200 0.
Definition alignment_error : num := lit 15 3.
Definition phase_error : num := n_div (n_mul (lit 5 0) n_pi) (lit 180 0).
Definition extrusion_error : num := lit 15 2.
Definition epsilon : num := lit 1 6.
Definition correction_limit : num := lit 1 2.

(** a noted value used as a number: None raises TypeError *)
Definition need (o : option num) : res num :=
  match o with Some x => Ok x | None => Err TypeError end.

Definition point := (num * num)%type.

(** [(line.current_x, line.current_y)] *)
Definition place (l : line) : res point :=
  do x <- need (t_x (lnotes l)); do y <- need (t_y (lnotes l)); Ok (x, y).

(** arc_optimizer.py 51-52 [Point.amplitude] *)
Definition amplitude (p : point) : num :=
  n_sqrt (n_add (n_mul (fst p) (fst p)) (n_mul (snd p) (snd p))).

(** arc_optimizer.py 54-59 [Point.distance_to]; [pow(d, 2)] is [d * d] *)
Definition distance_to (p q : point) : num :=
  amplitude (n_sub (fst p) (fst q), n_sub (snd p) (snd q)).

(** arc_optimizer.py 67-74 *)
Record circle := Circle {
  c_radius : num; c_center : point; c_direction : num; c_start : point; c_end : point }.

(** arc_optimizer.py 91-108 [phase_diff] *)
Definition phase_diff (p1 p2 : num) : num :=
  let d := n_sub p1 p2 in
  if n_ltb d (n_opp n_pi) then n_add d (n_mul n2 n_pi)
  else if n_ltb n_pi d then n_sub d (n_mul n2 n_pi)
  else d.

(** [cmath.phase(complex(p.x - center.x, p.y - center.y))] *)
Definition phase_at (center p : point) : num :=
  n_phase (n_sub (fst p) (fst center)) (n_sub (snd p) (snd center)).

(** arc_optimizer.py 124-160 [get_circle_least_squares], from the list of the
    points of the queue: [None] is Python None.  The queue has at least three
    entries whenever it is called. *)
Definition least_squares (ps : list point) : res (option circle) :=
  let count := n_of_nat (List.length ps) in
  do xbar <- py_div (py_sum (map fst ps)) count;
  do ybar <- py_div (py_sum (map snd ps)) count;
  let rel := map (fun p => (n_sub (fst p) xbar, n_sub (snd p) ybar)) ps in
  let total f := py_sum (map f rel) in
  let suu := total (fun p => n_mul (fst p) (fst p)) in
  let suuu := total (fun p => n_mul (n_mul (fst p) (fst p)) (fst p)) in
  let suvv := total (fun p => n_mul (n_mul (fst p) (snd p)) (snd p)) in
  let suv := total (fun p => n_mul (fst p) (snd p)) in
  let svv := total (fun p => n_mul (snd p) (snd p)) in
  let svvv := total (fun p => n_mul (n_mul (snd p) (snd p)) (snd p)) in
  let svuu := total (fun p => n_mul (n_mul (snd p) (fst p)) (fst p)) in
  if n_ltb suu epsilon || n_ltb svv epsilon then Ok None else
  do q1 <- py_div (n_add suuu suvv) suu;
  do q2 <- py_div (n_opp (n_mul suv suv)) suu;
  do v <- py_div (n_sub (n_div (n_add svvv svuu) n2) (n_mul (n_div suv n2) q1)) (n_add q2 svv);
  do u <- py_div (n_sub (n_div (n_add suuu suvv) n2) (n_mul v suv)) suu;
  let center := (n_add u xbar, n_add v ybar) in
  match ps with
  | p0 :: _ :: p2 :: _ =>
      do w <- py_div (n_add suu svv) count;
      Ok (Some (Circle (n_sqrt (n_add (n_add (n_mul u u) (n_mul v v)) w)) center
                       (phase_diff (phase_at center p2) (phase_at center p0))
                       p0 (last ps p0)))
  | _ => Err IndexError
  end.

(** arc_optimizer.py 162-173 [get_circle_radius_errors] *)
Definition radius_errors (c : circle) (ps : list point) : list num :=
  map (fun p => n_abs (n_sub (amplitude (n_sub (fst (c_center c)) (fst p),
                                         n_sub (snd (c_center c)) (snd p)))
                             (c_radius c))) ps.

(** arc_optimizer.py 183-184: differences of neighbouring phases *)
Fixpoint diffs_from (prev : num) (l : list num) : list num :=
  match l with
  | [] => []
  | x :: t => phase_diff x prev :: diffs_from x t
  end.

(** arc_optimizer.py 175-185 [get_phase_diffs] *)
Definition phase_diffs (c : circle) (ps : list point) : list num :=
  match map (phase_at (c_center c)) ps with
  | [] => []
  | x :: t => diffs_from x t
  end.

(** arc_optimizer.py 187-197 [get_circle_angle_errors] *)
Definition angle_errors (c : circle) (ps : list point) : res (list num) :=
  let ds := phase_diffs c ps in
  do avg <- py_div (py_sum ds) (n_of_nat (List.length ds));
  Ok (map (fun d => n_sub d avg) ds).

(** arc_optimizer.py 199-214 [get_circle] *)
Definition get_circle (q : list line) : res (bool * option circle) :=
  do ps <- mapM place q;
  do oc <- least_squares ps;
  match oc with
  | None => Ok (true, None)
  | Some c =>
      if n_ltb max_radius (c_radius c) then Ok (true, Some c)
      else if existsb (n_ltb alignment_error) (radius_errors c ps) then Ok (true, Some c)
      else do errs <- angle_errors c ps;
           Ok (existsb (n_ltb phase_error) errs, Some c)
  end.

(** arc_optimizer.py 237-248: path, filament and ratio of one entry *)
Record seg := Seg { s_path : num; s_fil : num; s_ratio : num }.

Definition measure (prev l : line) : res seg :=
  do p <- place l;
  do p' <- place prev;
  let path := py_round 7 (distance_to p p') in
  do fil <- (if match t_relative_e (lnotes l) with Some b => b | None => false end
             then need (l_e l)
             else do e <- need (t_e (lnotes l)); do e' <- need (t_e (lnotes prev));
                  Ok (n_sub e e'));
  do ratio <- (if n_ltb path epsilon then Ok n0 else py_div fil path);
  Ok (Seg path fil ratio).

Fixpoint measures (prev : line) (ls : list line) : res (list seg) :=
  match ls with
  | [] => Ok []
  | l :: t => do s <- measure prev l; do r <- measures l t; Ok (s :: r)
  end.

(** arc_optimizer.py 216-253 [get_distances]: the entries, the total filament
    and the average ratio; the two other averages (lines 250-251) are not used
    and left out *)
Definition get_distances (q : list line) : res (list seg * num * num) :=
  do ss <- match q with [] => Ok [] | l :: t => measures l t end;
  let fil := py_sum (map s_fil ss) in
  do ratio <- py_div fil (py_sum (map s_path ss));
  Ok (ss, fil, ratio).

(** arc_optimizer.py 255-278 [queue_valid]: the first component of the
    answer (the second is not used); the queue has at least two entries *)
Definition queue_error (q : list line) : res bool :=
  match q with
  | _ :: l1 :: t =>
      let qs := l1 :: t in
      let all_e := is_some (l_e l1) in
      let valid_e := if all_e then forallb (fun l => is_some (l_e l)) qs
                     else negb (existsb (fun l => is_some (l_e l)) qs) in
      let valid_f := forallb (fun l => opt_eqb (t_f (lnotes l)) (t_f (lnotes l1))) qs in
      let valid_z := forallb (fun l => opt_eqb (t_z (lnotes l)) (t_z (lnotes l1))) qs in
      if negb (valid_e && valid_f && valid_z) then Ok true
      else if all_e then
        do '(ss, _, ratio) <- get_distances q;
        if n_ltb ratio epsilon then Ok true else
        do rs <- mapM (fun s => py_div (s_ratio s) ratio) ss;
        if forallb (fun r => n_ltb (n_abs (n_sub r n1)) extrusion_error) rs
        then do '(err, _) <- get_circle q; Ok err
        else Ok true
      else do '(err, _) <- get_circle q; Ok err
  | _ => Err IndexError
  end.

(** arc_optimizer.py 303-304: extrusion of an arc in relative mode *)
Definition arc_term (c : circle) (x : seg * num) : res num :=
  let '(s, alpha) := x in
  py_div (n_mul (s_fil s) (n_mul (c_radius c) alpha))
         (n_mul (n_mul n2 (c_radius c)) (n_sin (n_div alpha n2))).

(** arc_optimizer.py 291-297, 321-323: the arc; [unsplit] is called after the
    words are set *)
Definition arc_line (c : circle) (e : num) (rel : bool) (f : option num) (count : nat) : line :=
  let a := Args (Some (py_round 3 (fst (c_end c)))) (Some (py_round 3 (snd (c_end c)))) None
                (Some e) f
                (Some (py_round 3 (n_sub (fst (c_center c)) (fst (c_start c)))))
                (Some (py_round 3 (n_sub (snd (c_center c)) (snd (c_start c))))) in
  let cmd := (if n_ltb n0 (c_direction c) then "G3" else "G2")%string in
  Line (unsplit_text cmd a ++ "; generated from " ++ nat_to_string (count - 1) ++ " segments")%string
       (Some cmd) false a
       (Notes None (Some rel) None None None None None None None).

(** arc_optimizer.py 315-319: the correction of the extruder position; [e] is
    None when the end point has no noted E *)
Definition correction_line (e : option num) (rel : num) : line :=
  let a := Args None None None e None None None in
  Line (unsplit_text "G92" a ++ "; generated as arc to path relation is " ++ fmt 6 rel)%string
       (Some "G92"%string) false a
       (Notes None None None None None None None None e).

(** arc_optimizer.py 280-328 [to_gcode], as its result without the two kept
    lines: [q] is the queue after the [pop] of line 286, [first] its first
    entry *)
Definition arc_of (first : line) (q : list line) : res (list line) :=
  let count := List.length q in
  let end_point := last q first in
  do '(_, oc) <- get_circle q;
  do '(ss, fil, ratio) <- get_distances q;
  match oc with
  | None => Err AttributeError
  | Some c =>
      do ps <- mapM place q;
      let alphas := phase_diffs c ps in
      if match t_relative_e (lnotes end_point) with Some b => b | None => false end then
        do ts <- mapM (arc_term c) (combine ss alphas);
        Ok [arc_line c (py_sum ts) true (t_f (lnotes end_point)) count]
      else
        let len := n_mul (py_sum (map (fun a => n_mul a (c_radius c)) alphas)) ratio in
        do e0 <- need (t_e (lnotes first));
        do rel <- py_div len fil;
        Ok (arc_line c (n_add e0 len) false (t_f (lnotes end_point)) count ::
            (if n_ltb correction_limit (n_sub rel n1)
             then [correction_line (t_e (lnotes end_point)) rel] else []))
  end.

(** the state of the filter: the queue and [valid_circle]
    (arc_optimizer.py 84-88) *)
Definition astate := (list line * bool)%type.
Definition arc_init : astate := ([], false).

(** arc_optimizer.py 336-341: a line without command takes over the position
    noted on the last queued line *)
Definition carry (q : list line) (l : line) : line :=
  match command l, rev q with
  | None, p :: _ =>
      let n := lnotes l in let m := lnotes p in
      set_notes (Notes (t_relative n) (t_relative_e n) (t_tool n) (t_extruding n)
                       (t_x m) (t_y m) (t_z m) (t_f m) (t_e m)) l
  | _, _ => l
  end.

(** arc_optimizer.py 280-328 [to_gcode] on the queue [q ++ [l]] *)
Definition to_gcode (q : list line) (l : line) : res (list line) :=
  match q with
  | [] => Err IndexError
  | first :: _ => do arc <- arc_of first q; Ok (first :: arc ++ [l])
  end.

(** arc_optimizer.py 330-376 [opcode_filter] *)
Definition arc_opcode (s : astate) (l0 : line) : res (astate * fresult (A:=A)) :=
  let '(q, valid) := s in
  let l := carry q l0 in
  let q1 := q ++ [l] in
  if (min_segments <? List.length q1)%nat then
    if negb (cmd_in (command l) move_gcodes) then
      if valid then do r <- to_gcode q l; Ok (([], false), FList r)
      else Ok (([], false), FList q1)
    else
      do error <- queue_error q1;
      if error : bool then
        if valid then
          do r <- to_gcode q l;
          Ok (([last r l], false), FList (removelast r))
        else
          match q1 with
          | [] => Err IndexError
          | x :: t => Ok ((t, false), FLine x)
          end
      else Ok ((q1, true), FList [])
  else if cmd_in (command l) move_gcodes || negb (is_some (command l)) then
    Ok ((q1, valid), FList [])
  else Ok (([], false), FList q1).

(** arc_optimizer.py 121-122: what is left in the queue goes to the end of
    the last layer *)
Fixpoint append_last (q : list line) (ys : list (layer A)) : list (layer A) :=
  match ys with
  | [] => []
  | [y] => [set_ly_lines (ly_lines y ++ q) y]
  | y :: t => y :: append_last q t
  end.

(** arc_optimizer.py 118-122 [parse_gcode], gcode_optimize_arcs.py 44:
    [GCodeArcOptimizerFilter().filter(gcode)] *)
Definition optimize_arcs (g : gcode) : res gcode :=
  do '(s, g1) <- filter_gcode arc_opcode arc_init g;
  match fst s with
  | [] => Ok g1
  | q => Ok (set_layers (append_last q (g_layers g1)) g1)
  end.

(** gcode_optimize_arcs.py 37-47: the program read, optimised and written;
    options, log level and file handling are left out *)
Definition optimize_arcs_main (data : list string) : res (list string) :=
  do g <- load_gen false home0 data;
  do g1 <- optimize_arcs g;
  Ok (write g1).

End Arc.

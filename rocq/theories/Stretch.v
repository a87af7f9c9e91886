(** * Stretch: model of gcodeutils/stretch/stretch.py and gcode_stretch.py

    Logging is left out; what is printed is kept.  The decoding of a Cura
    profile (base64, zlib) is a parameter.  The [while] loops of the line
    iterators and of [get_relative_stretch] run on fuel: [Err OutOfFuel] is a
    loop that has not ended. *)
From Coq Require Import List Ascii String ZArith NArith Bool.
From Verif Require Import PyBase Arith Gcoder Filters.
Import ListNotations.
Local Open Scope list_scope.

(** ** Markers: stretch.py 301-306 *)

Definition on_marker : string := "stretch-extrusion-on".
Definition off_marker : string := "stretch-extrusion-off".
Definition start_marker : string := "stretch-loop-start".
Definition inner_marker : string := (start_marker ++ " stretch-inner-edge-start")%string.
Definition outer_marker : string := (start_marker ++ " stretch-outer-edge-start")%string.
Definition stop_marker : string := "stretch-loop-stop".

(** stretch.py 127-276: the classes of line iterators come in pairs, one for
    each slicer *)
Inductive dialect := Slic3r | Cura | Skeinforge.
Inductive direction := Forward | Backward.

(** ** Regular expressions *)

Fixpoint strip_prefix (p s : string) : option string :=
  match p, s with
  | EmptyString, _ => Some s
  | String c p', String d s' => if Ascii.eqb c d then strip_prefix p' s' else None
  | String _ _, EmptyString => None
  end.

Definition is_point_digit (c : ascii) : bool := Ascii.eqb c "." || is_digit c.

(** at least one character satisfying [p], and the rest *)
Definition span1 (p : ascii -> bool) (s : string) : option (string * string) :=
  let '(a, b) := span p s in if is_empty a then None else Some (a, b).

(** stretch.py 522, 610: the text of the width in
    "; external perimeters extrusion width = 0.50mm" *)
Definition slic3r_width (s : string) : option string :=
  match strip_prefix "; external perimeters extrusion width" s with
  | None => None
  | Some s1 =>
      match span1 is_space s1 with
      | Some (_, String "=" s2) =>
          match span1 is_space s2 with
          | Some (_, s3) =>
              match span1 is_point_digit s3 with
              | Some (v, s4) => if startswith "mm" s4 then Some v else None
              | None => None
              end
          | None => None
          end
      | _ => None
      end
  end.

(** stretch.py 736, 742 *)
Definition skeinforge_width (s : string) : option string :=
  match strip_prefix "(<edgeWidth> " s with
  | None => None
  | Some s1 => match span1 is_point_digit s1 with Some (v, _) => Some v | None => None end
  end.

(** stretch.py 628, 707; no line of a program contains a line feed *)
Definition cura_profile (s : string) : option string := strip_prefix ";CURA_PROFILE_STRING:" s.

Section Stretch.
Context {A : arith}.
Notation num := (num A).
Notation line := (line A).
Notation layer := (layer A).
Notation gcode := (gcode A).

(** ** Settings *)

(** gcode_stretch.py 30-48, stretch.py 282-284 *)
Record options := Options {
  o_cross : num; o_loop : num; o_inside : num; o_outside : num; o_from : num; o_strength : num }.

Definition default_options : options :=
  Options (lit 50 1) (lit 11 2) (lit 32 2) (lit 1 1) (lit 20 1) (lit 10 1).

(** stretch.py 461-471: the lengths that depend on the edge width *)
Record lengths := Lengths {
  w_cross : num; w_loop : num; w_inside : num; w_outside : num; w_from : num;
  w_fraction : num; w_remainder : num }.

(** stretch.py 288-295, 455-471 [set_edge_width] *)
Definition edge_lengths (o : options) (w : num) : lengths :=
  let cross := n_mul w (o_cross o) in
  let fraction := n_div cross (lit 3 0) in
  Lengths cross (n_mul w (n_mul (o_loop o) (o_strength o)))
          (n_mul w (n_mul (o_inside o) (o_strength o)))
          (n_mul w (n_mul (o_outside o) (o_strength o)))
          (n_mul (o_from o) w) fraction (n_sub cross fraction).

(** ** Marking the lines *)

Definition has (m : string) (l : line) : bool := contains m (raw l).

(** [line.raw += sep + marker] *)
Definition mark_with (sep m : string) (l : line) : line := set_raw (raw l ++ sep ++ m)%string l.
Definition mark (m : string) (l : line) : line := mark_with " ; " m l.

Definition is_linear (l : line) : bool := cmd_in (command l) linear_move_gcodes.
Definition has_xy (l : line) : bool := is_some (l_x l) || is_some (l_y l).

Inductive kind := Unknown | External | Extra.
Definition kind_eqb (a b : kind) : bool :=
  match a, b with Unknown, Unknown | External, External | Extra, Extra => true | _, _ => false end.

(** state of [setup_filter]: extruding, current type, the next external
    perimeter is outer (Slic3r), the marker for the next line (Cura) *)
Record mark_state := MarkState {
  k_extruding : bool; k_kind : kind; k_outer : bool; k_next : option (bool * bool) }.

(** stretch.py 571-578 and 673-680: the extrusion markers *)
Definition mark_extrusion (s : mark_state) (l : line) : mark_state * line :=
  if negb (k_extruding s) && is_linear l && is_some (l_e l) then
    (MarkState true (k_kind s) (k_outer s) (k_next s), mark on_marker l)
  else if k_extruding s && is_linear l && negb (is_some (l_e l)) &&
          negb (kind_eqb (k_kind s) Unknown) then
    (MarkState false (k_kind s) (k_outer s) (k_next s), mark off_marker l)
  else (s, l).

Definition set_kind (k : kind) (s : mark_state) : mark_state :=
  MarkState (k_extruding s) k (k_outer s) (k_next s).

(** stretch.py 533-558 [Slic3rStretchFilter.new_perimeter] *)
Definition slic3r_perimeter (external : bool) (s : mark_state) (l : line) : mark_state * line :=
  if external then
    let l1 := mark (if k_outer s then outer_marker else inner_marker) l in
    let l2 := if kind_eqb (k_kind s) External then l1 else mark stop_marker l1 in
    (MarkState (k_extruding s) External false (k_next s), l2)
  else
    let l1 := mark start_marker l in
    let l2 := if kind_eqb (k_kind s) External then mark stop_marker l1 else l1 in
    (set_kind Extra s, l2).

(** stretch.py 593-599: is the next perimeter external? *)
Fixpoint perimeter_ahead (ls : list line) : option bool :=
  match ls with
  | [] => None
  | l :: t => if has "; perimeter external" l then Some true
              else if has "; perimeter" l then Some false
              else perimeter_ahead t
  end.

(** stretch.py 580-607 *)
Definition slic3r_kind (s : mark_state) (l : line) (rest : list line) : mark_state * line :=
  if has "; perimeter external" l then
    if kind_eqb (k_kind s) External then (s, l) else slic3r_perimeter true s l
  else if has "; perimeter" l then
    if kind_eqb (k_kind s) Extra then (s, l) else slic3r_perimeter false s l
  else if has "; move to first perimeter point" l then
    match perimeter_ahead rest with
    | Some external => slic3r_perimeter external s l
    | None => (s, l)
    end
  else if has "unretract" l then (s, l)
  else (set_kind Unknown s,
        if kind_eqb (k_kind s) Unknown then l else mark stop_marker l).

(** stretch.py 609-613, 742-744, 722-723: the width read from a line; [None]
    inside [Ok] is no width *)
Definition read_width (v : option string) : res (option num) :=
  match v with
  | None => Ok None
  | Some t => match py_float t with Some w => Ok (Some w) | None => Err ValueError end
  end.

(** the last width found *)
Definition or_width (new old : option num) : option num :=
  match new with Some _ => new | None => old end.

(** stretch.py 569-613 *)
Fixpoint slic3r_lines (s : mark_state) (w : option num) (ls : list line) :
  res (mark_state * option num * list line) :=
  match ls with
  | [] => Ok (s, w, [])
  | l :: t =>
      let '(s1, l1) := mark_extrusion s l in
      let '(s2, l2) := slic3r_kind s1 l1 t in
      do v <- read_width (slic3r_width (raw l2));
      do '(s3, w3, t3) <- slic3r_lines s2 (or_width v w) t;
      Ok (s3, w3, l2 :: t3)
  end.

(** stretch.py 636-660 [CuraStretchFilter.new_perimeter] *)
Definition cura_perimeter (external outer : bool) (s : mark_state) (l : line) : mark_state * line :=
  let l1 := mark (if external then if outer then outer_marker else inner_marker else start_marker) l in
  let l2 := if kind_eqb (k_kind s) Unknown then l1 else mark stop_marker l1 in
  (set_kind (if external then External else Extra) s, l2).

(** stretch.py 728-732 [stop_loop] *)
Definition stop_loop (s : mark_state) (l : line) : mark_state * line :=
  (set_kind Unknown s, if kind_eqb (k_kind s) Unknown then l else mark stop_marker l).

Definition set_next (n : option (bool * bool)) (x : mark_state * line) : mark_state * line :=
  let '(s, l) := x in (MarkState (k_extruding s) (k_kind s) (k_outer s) n, l).

(** stretch.py 673-704 *)
Definition cura_kind (s : mark_state) (l : line) (is_last : bool) : mark_state * line :=
  let '(s1, l1) :=
    match k_next s with
    | Some (external, outer) => set_next None (cura_perimeter external outer s l)
    | None => (s, l)
    end in
  let '(s2, l2) :=
    if has "TYPE:WALL-OUTER" l1 then set_next (Some (true, true)) (stop_loop s1 l1)
    else if has "TYPE:WALL-INNER" l1 then set_next (Some (true, false)) (stop_loop s1 l1)
    else if has "TYPE:SKIN" l1 then set_next (Some (false, false)) (stop_loop s1 l1)
    else if has "TYPE:FILL" l1 then stop_loop s1 l1
    else (s1, l1) in
  if is_last then stop_loop s2 l2 else (s2, l2).

Section Profile.
(** stretch.py 715-726 [parse_cura_profile]: the text of the nozzle size in the
    profile, None when it has none, or an exception.  (With Python 3 line 716
    raises on every profile: bytes cannot be split at a str.) *)
Variable profile : string -> res (option string).

(** stretch.py 706-709; [fst] of the answer is [edge_width_found] *)
Definition cura_width (l : line) (w : bool * option num) : res (bool * option num) :=
  match cura_profile (raw l) with
  | None => Ok w
  | Some p =>
      do o <- profile p;
      do v <- read_width o;
      Ok (is_some v, or_width v (snd w))
  end.

(** stretch.py 671-709 *)
Fixpoint cura_lines (s : mark_state) (w : bool * option num) (ls : list line) :
  res (mark_state * (bool * option num) * list line) :=
  match ls with
  | [] => Ok (s, w, [])
  | l :: t =>
      let '(s1, l1) := mark_extrusion s l in
      let '(s2, l2) := cura_kind s1 l1 (match t with [] => true | _ => false end) in
      do w2 <- cura_width l2 w;
      do '(s3, w3, t3) <- cura_lines s2 w2 t;
      Ok (s3, w3, l2 :: t3)
  end.

(** stretch.py 751-762 *)
Definition skeinforge_mark (l : line) : line :=
  if cmd_is (command l) "M101" then mark_with "; " on_marker l
  else if cmd_is (command l) "M103" then mark_with "; " off_marker l
  else if startswith "(<loop>" (raw l) then mark_with "; " start_marker l
  else if startswith "(<edge>" (raw l) && negb (startswith "(<edge> outer" (raw l)) then
    mark_with "; " inner_marker l
  else if startswith "(<edge> outer" (raw l) then mark_with "; " outer_marker l
  else if startswith "(</edge>)" (raw l) || startswith "(</loop>)" (raw l) then
    mark_with "; " stop_marker l
  else l.

(** stretch.py 749-762 *)
Fixpoint skeinforge_lines (w : option num) (ls : list line) : res (option num * list line) :=
  match ls with
  | [] => Ok (w, [])
  | l :: t =>
      do v <- read_width (skeinforge_width (raw l));
      do '(w1, t1) <- skeinforge_lines (or_width v w) t;
      Ok (w1, skeinforge_mark l :: t1)
  end.

(** stretch.py 565-567, 615 *)
Fixpoint slic3r_layers (extruding : bool) (w : option num) (ys : list layer) :
  res (option num * list layer) :=
  match ys with
  | [] => Ok (w, [])
  | y :: t =>
      do '(s, w1, ls) <- slic3r_lines (MarkState extruding Unknown true None) w (ly_lines y);
      do '(w2, t2) <- slic3r_layers (k_extruding s) w1 t;
      Ok (w2, set_ly_lines ls y :: t2)
  end.

(** stretch.py 667-669 *)
Fixpoint cura_layers (extruding : bool) (w : bool * option num) (ys : list layer) :
  res (bool * option num * list layer) :=
  match ys with
  | [] => Ok (w, [])
  | y :: t =>
      do '(s, w1, ls) <- cura_lines (MarkState extruding Unknown true None) w (ly_lines y);
      do '(w2, t2) <- cura_layers (k_extruding s) w1 t;
      Ok (w2, set_ly_lines ls y :: t2)
  end.

(** stretch.py 748 *)
Fixpoint skeinforge_layers (w : option num) (ys : list layer) : res (option num * list layer) :=
  match ys with
  | [] => Ok (w, [])
  | y :: t =>
      do '(w1, ls) <- skeinforge_lines w (ly_lines y);
      do '(w2, t2) <- skeinforge_layers w1 t;
      Ok (w2, set_ly_lines ls y :: t2)
  end.

(** stretch.py 560-620, 662-713, 747-762 [setup_filter]: the edge width (None:
    [set_edge_width] was not called) and the marked layers *)
Definition setup_filter (d : dialect) (ys : list layer) : res (option num * list layer) :=
  match d with
  | Slic3r =>
      do '(w, ys1) <- slic3r_layers false None ys;
      Ok (Some (match w with Some x => x | None => lit 4 1 end), ys1)
  | Cura =>
      do '((found, w), ys1) <- cura_layers false (false, None) ys;
      Ok (Some (match found, w with true, Some x => x | _, _ => lit 4 1 end), ys1)
  | Skeinforge => skeinforge_layers None ys
  end.

(** ** Line iterators *)

(** the state of an iterator: [first_visited_index] and [line_index] *)
Record iter := Iter { i_first : option Z; i_index : Z }.

Definition new_iter (i : Z) : iter := Iter None i.

(** [self.lines[i]] for an index in range *)
Definition line_at (ls : list line) (i : Z) : option line :=
  if (i <? 0)%Z then None else nth_error ls (Z.to_nat i).

(** the greatest index in [lo, n) whose line satisfies [p] *)
Fixpoint search_down (p : line -> bool) (ls : list line) (lo n : nat) : option nat :=
  match n with
  | O => None
  | S k =>
      if (k <? lo)%nat then None
      else if match nth_error ls k with Some l => p l | None => false end then Some k
      else search_down p ls lo k
  end.

(** the smallest index satisfying [p], counted from [k] *)
Fixpoint search_up (p : line -> bool) (ls : list line) (k : nat) : option nat :=
  match ls with
  | [] => None
  | l :: t => if p l then Some k else search_up p t (S k)
  end.

(** the smallest index from [i] on *)
Definition search_from (p : line -> bool) (ls : list line) (i : Z) : option nat :=
  let n := Z.to_nat i in search_up p (skipn n ls) n.

Definition shift (k : Z) (o : option nat) : option Z :=
  match o with Some n => Some (Z.of_nat n + k)%Z | None => None end.

(** stretch.py 145-152, 195-204, 208-215, 227-234, 244-253, 267-276
    [reset_index_on_limit]; [None]: a message is printed and StopIteration
    raised *)
Definition reset_index (d : dialect) (dir : direction) (ls : list line) (i : Z) : option Z :=
  match dir, d with
  | Forward, Skeinforge => shift 1 (search_down (has on_marker) ls 1 (Z.to_nat i))
  | Forward, Slic3r => shift 1 (search_down (has start_marker) ls 0 (Z.to_nat i))
  | Forward, Cura => shift 0 (search_down (has start_marker) ls 0 (Z.to_nat i))
  | Backward, Skeinforge => shift (-2) (search_from (has off_marker) ls (i + 1))
  | Backward, Slic3r => shift (-2) (search_from (has off_marker) ls (i + 1))
  | Backward, Cura => shift (-1) (search_from (has stop_marker) ls (i + 1))
  end.

(** stretch.py 151, 203 and the like *)
Definition message (dir : direction) : string :=
  match dir with
  | Forward => "This should never happen in stretch, no activate command was found for this thread."
  | Backward => "This should never happen in stretch, no deactivate command was found for this thread."
  end.

(** what [get_next] does: return a line, or raise StopIteration after printing *)
Inductive next := Next (l : line) (it : iter) | Stop (printed : list string).

(** stretch.py 142-143, 191-193, 223-225, 238-242, 261-265 [index_setup]:
    whether the index is reset first *)
Definition wraps (d : dialect) (dir : direction) (ls : list line) (i : Z) : res bool :=
  match dir, d with
  | Forward, Cura =>
      match line_at ls i with Some l => Ok (has stop_marker l) | None => Err IndexError end
  | Forward, _ => Ok false
  | Backward, Skeinforge => Ok (i <? 1)%Z
  | Backward, _ =>
      if (i <? 0)%Z then Ok true
      else match line_at ls (i + 1) with Some l => Ok (has start_marker l) | None => Err IndexError end
  end.

Definition stops_on_off (d : dialect) : bool := match d with Cura => false | _ => true end.
Definition increment (dir : direction) : Z := match dir with Forward => 1 | Backward => -1 end.

Definition is_first (first : option Z) (i : Z) : bool :=
  match first with Some f => Z.eqb i f | None => false end.

(** stretch.py 162-181: the loop of [get_next] *)
Fixpoint scan (fuel : nat) (d : dialect) (dir : direction) (ls : list line)
  (first : option Z) (i : Z) : res next :=
  match fuel with
  | O => Err OutOfFuel
  | S n =>
      match line_at ls i with
      | None => Ok (Stop [])
      | Some l =>
          if is_first first i then Ok (Stop []) else
          let first1 := match first with None => Some i | Some _ => first end in
          if has off_marker l && stops_on_off d then
            match reset_index d dir ls i with
            | None => Ok (Stop [message dir])
            | Some j => scan n d dir ls first1 j
            end
          else if is_linear l && has_xy l then Ok (Next l (Iter first1 (i + increment dir)))
          else scan n d dir ls first1 (i + increment dir)
      end
  end.

(** stretch.py 157-181 [get_next] *)
Definition get_next (fuel : nat) (d : dialect) (dir : direction) (ls : list line) (it : iter) : res next :=
  do w <- wraps d dir ls (i_index it);
  if w : bool then
    match reset_index d dir ls (i_index it) with
    | None => Ok (Stop [message dir])
    | Some j => scan fuel d dir ls (i_first it) j
    end
  else scan fuel d dir ls (i_first it) (i_index it).

(** ** Complex numbers *)

Definition cplx := (num * num)%type.
Definition c_add (a b : cplx) : cplx := (n_add (fst a) (fst b), n_add (snd a) (snd b)).
Definition c_sub (a b : cplx) : cplx := (n_sub (fst a) (fst b), n_sub (snd a) (snd b)).
Definition c_abs (a : cplx) : num := n_hypot (fst a) (snd a).

(** a complex times a float, as Python multiplies complex numbers *)
Definition c_scale (a : cplx) (k : num) : cplx :=
  (n_sub (n_mul (fst a) k) (n_mul (snd a) n0), n_add (n_mul (fst a) n0) (n_mul (snd a) k)).

(** a complex divided by a float, as Python divides complex numbers *)
Definition c_div (a : cplx) (k : num) : res cplx :=
  if n_eqb k n0 then Err ZeroDivisionError else
  let ratio := n_div n0 k in
  let denom := n_add k (n_mul n0 ratio) in
  Ok (n_div (n_add (fst a) (n_mul (snd a) ratio)) denom,
      n_div (n_sub (snd a) (n_mul (fst a) ratio)) denom).

(** stretch.py 122-124 [dot_product] *)
Definition dot (a b : cplx) : num := n_add (n_mul (fst a) (fst b)) (n_mul (snd a) (snd b)).

(** ** The filter *)

(** a location: [Vector3]; None is the initial [oldLocation] *)
Definition location := (num * num * num)%type.

Definition or_else (o : option num) (v : num) : num := match o with Some x => x | None => v end.

(** stretch.py 110-119 [get_location_from_line] *)
Definition get_location (old : option location) (l : line) : location :=
  let '(x, y, z) := match old with Some v => v | None => (n0, n0, n0) end in
  (or_else (l_x l) x, or_else (l_y l) y, or_else (l_z l) z).

Definition drop_axis (v : location) : cplx := fst v.

(** stretch.py 337-355 [get_cross_limited_stretch]; with the lines printed *)
Definition cross_limited (fuel : nat) (d : dialect) (w : lengths) (ls : list line) (old : option location)
  (stretch : cplx) (dir : direction) (start : Z) (loc : cplx) : res (cplx * list string) :=
  do n <- get_next fuel d dir ls (new_iter start);
  match n with
  | Stop printed => Ok (stretch, printed)
  | Next l _ =>
      let diff := c_sub loc (drop_axis (get_location old l)) in
      let len := c_abs diff in
      if n_leb len (w_fraction w) then Ok (stretch, []) else
      do parallel <- c_div diff len;
      let along := c_scale parallel (dot parallel stretch) in
      if n_ltb (w_cross w) len then Ok (along, []) else
      let cross := (snd parallel, n_opp (fst parallel)) in
      let across := c_scale cross (dot cross stretch) in
      do portion <- py_div (n_sub (w_cross w) len) (w_remainder w);
      Ok (c_add along (c_scale across portion), [])
  end.

(** stretch.py 357-385 [get_relative_stretch], the loop: [n] bounds the
    iterations, [fuel] each call of [get_next] *)
Fixpoint relative_loop (n fuel : nat) (d : dialect) (dir : direction) (w : lengths) (ls : list line)
  (old : option location) (loc lastl point : cplx) (old_total total : num) (it : iter) :
  res (cplx * list string) :=
  match n with
  | O => Err OutOfFuel
  | S n' =>
      do nx <- get_next fuel d dir ls it;
      match nx with
      | Stop printed =>
          let diff := c_sub loc point in
          let len := c_abs diff in
          if n_ltb n0 len then do r <- c_div diff len; Ok (r, printed)
          else Ok ((n0, n0), printed)
      | Next l it1 =>
          let point1 := drop_axis (get_location old l) in
          let len := c_abs (c_sub lastl point1) in
          let total1 := n_add total len in
          if n_leb (w_from w) total1 then
            do ratio <- py_div (n_sub (w_from w) old_total) len;
            let at_distance := c_add (c_scale point1 ratio) (c_scale lastl (n_sub n1 ratio)) in
            do r <- c_div (c_sub loc at_distance) (w_from w);
            Ok (r, [])
          else relative_loop n' fuel d dir w ls old loc point1 point1 total1 total1 it1
      end
  end.

Definition relative_stretch (fuel : nat) (d : dialect) (dir : direction) (w : lengths) (ls : list line)
  (old : option location) (start : Z) (loc : cplx) : res (cplx * list string) :=
  relative_loop fuel fuel d dir w ls old loc loc loc n0 n0 (new_iter start).

(** stretch.py 402-427: the stretch of the line number [i] of the layer [ls] *)
Definition absolute_stretch (fuel : nat) (d : dialect) (w : lengths) (ls : list line) (i : Z)
  (old : option location) (max : num) (loc : cplx) : res (cplx * list string) :=
  do '(r1, p1) <- relative_stretch fuel d Forward w ls old (i + 1) loc;
  do '(r2, p2) <- relative_stretch fuel d Backward w ls old (i - 1) loc;
  let r := c_scale (c_add r1 r2) (lit 8 1) in
  do '(r3, p3) <- cross_limited fuel d w ls old r Forward (i + 1) loc;
  do '(r4, p4) <- cross_limited fuel d w ls old r3 Backward (i - 1) loc;
  let len := c_abs r4 in
  do r5 <- (if n_ltb n1 len then c_div r4 len else Ok r4);
  Ok (c_scale r5 max, p1 ++ p2 ++ p3 ++ p4).

(** the state of the filter: the lengths (None: not set), the maximum stretch,
    [isLoop], [oldLocation], [feedRateMinute] *)
Record sstate := SState {
  st_lengths : option lengths; st_max : num; st_loop : bool;
  st_old : option location; st_feed : num }.

(** stretch.py 429-440: the stretched line *)
Definition stretched_line (l : line) (loc : cplx) (move : cplx) (feed : num) : line :=
  let p := c_add loc move in
  unsplit (Line "" (command l) false
    (Args (Some (fst p)) (Some (snd p)) (l_z l)
          (match l_e l with Some e => Some (n_mul e (n_sub n1 (c_abs move))) | None => None end)
          (Some feed) None None) no_notes).

(** stretch.py 387-400 [stretch_line] *)
Definition stretch_line (fuel : nat) (d : dialect) (ls : list line) (i : Z) (s : sstate) (l : line) :
  res (sstate * line * list string) :=
  let loc := get_location (st_old s) l in
  let feed := match l_f l with Some f => if truthy f then f else st_feed s | None => st_feed s end in
  let s1 := SState (st_lengths s) (st_max s) (st_loop s) (Some loc) feed in
  if n_ltb n0 (st_max s) then
    match st_lengths s with
    | None => Err AttributeError
    | Some w =>
        do '(move, printed) <- absolute_stretch fuel d w ls i (Some loc) (st_max s) (drop_axis loc);
        Ok (s1, stretched_line l (drop_axis loc) move feed, printed)
    end
  else Ok (s1, l, []).

(** stretch.py 476-488: the loop markers *)
Definition read_markers (s : sstate) (l : line) : res sstate :=
  let enter f :=
    match st_lengths s with
    | None => Err AttributeError
    | Some w => Ok (SState (st_lengths s) (f w) true (st_old s) (st_feed s))
    end in
  if has inner_marker l then enter w_inside
  else if has outer_marker l then enter w_outside
  else if has start_marker l then enter w_loop
  else if has stop_marker l then Ok (SState (st_lengths s) n0 false (st_old s) (st_feed s))
  else Ok s.

(** stretch.py 473-494 [parse_line] *)
Definition parse_line (fuel : nat) (d : dialect) (ls : list line) (i : Z) (s : sstate) (l : line) :
  res (sstate * line * list string) :=
  do s1 <- read_markers s l;
  if is_linear l && st_loop s1 && has_xy l then stretch_line fuel d ls i s1 l
  else Ok (s1, l, []).

(** stretch.py 334: [parse_coordinates(line, split(line))] *)
Definition reparse (l : line) : res line :=
  let '(l1, toks) := split l in parse_coordinates false toks l1.

(** stretch.py 490-494: parse_line returns the line itself *)
Definition is_stretched (s : sstate) (l : line) : bool :=
  is_linear l && st_loop s && has_xy l && n_ltb n0 (st_max s).

(** stretch.py 332-335, one layer: [before] are the lines of the layer already
    handled; the ones that were not stretched have been parsed again *)
Fixpoint stretch_lines (fuel : nat) (d : dialect) (s : sstate) (before rest : list line) :
  res (sstate * list line * list string) :=
  match rest with
  | [] => Ok (s, [], [])
  | l :: t =>
      do '(s1, l1, p1) <- parse_line fuel d (before ++ rest) (Z.of_nat (List.length before)) s l;
      do l2 <- reparse l1;
      do '(s2, t2, p2) <- stretch_lines fuel d s1
                            (before ++ [if is_stretched s1 l then l else l2]) t;
      Ok (s2, l2 :: t2, p1 ++ p2)
  end.

(** stretch.py 330-335 *)
Fixpoint stretch_layers (fuel : nat) (d : dialect) (s : sstate) (ys : list layer) :
  res (list layer * list string) :=
  match ys with
  | [] => Ok ([], [])
  | y :: t =>
      do '(s1, ls, p1) <- stretch_lines fuel d s [] (ly_lines y);
      do '(t2, p2) <- stretch_layers fuel d s1 t;
      Ok (set_ly_lines ls y :: t2, p1 ++ p2)
  end.

(** stretch.py 308-335 [StretchFilter(options).filter(gcode)]: the program and
    what is printed *)
Definition stretch (fuel : nat) (d : dialect) (o : options) (g : gcode) : res (gcode * list string) :=
  do '(w, ys) <- setup_filter d (g_layers g);
  do '(ys2, printed) <- stretch_layers fuel d
     (SState (option_map (edge_lengths o) w) n0 false None (lit 9590 1)) ys;
  Ok (set_layers ys2 g, printed).

(** gcode_stretch.py 12-18 *)
Definition is_cura_gcode (g : gcode) : bool :=
  existsb (fun y => existsb (fun l => contains "CURA_PROFILE_STRING" (raw l)) (ly_lines y)) (g_layers g).

(** gcode_stretch.py 66-79 [main]: everything written to standard output when
    no output file is named; option parsing and logging are left out *)
Definition stretch_main (fuel : nat) (o : options) (data : list string) : res (list string) :=
  do g <- load_gen false home0 data;
  do g1 <- to_relative_extrusion g;
  do '(g2, printed) <- stretch fuel (if is_cura_gcode g1 then Cura else Slic3r) o g1;
  Ok (printed ++ write g2).

End Profile.
End Stretch.

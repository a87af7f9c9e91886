(** * Filters: model of gcodeutils/filter/filter.py, relative_extrusion.py and
    translate.py

    A filter object is a state; [opcode_filter] takes the state and a line and
    returns what to put in place of the line.  The code changes line objects
    in place and also returns them; here the changed line is returned.
    [GCode.lines], which shares the line objects with the layers, is left as
    it is: nothing that runs after a filter reads it except
    [prepend_to_layer], which only inserts into it. *)
From Coq Require Import List Ascii String ZArith NArith Bool.
From Verif Require Import PyBase Arith Gcoder.
Import ListNotations.
Local Open Scope list_scope.

Section Filters.
Context {A : arith}.
Notation num := (num A).
Notation line := (line A).
Notation gcode := (gcode A).

(** ** filter/filter.py *)

(** What [opcode_filter] returns: None, a line or a list of lines. *)
Inductive fresult := FNone | FLine (l : line) | FList (ls : list line).

Section Generic.
Context {St : Type}.
Variable opcode_filter : St -> line -> res (St * fresult).

(** filter/filter.py 17-30: the loop of [parse_layer]; the result is the
    state, [new_layer] and [dirty_layer] *)
Fixpoint parse_lines (s : St) (new : list line) (dirty : bool) (ls : list line)
  : res (St * list line * bool) :=
  match ls with
  | [] => Ok (s, new, dirty)
  | l :: ls' =>
      do '(s1, r) <- opcode_filter s l;
      match r with
      | FList xs => parse_lines s1 (new ++ xs) true ls'
      | FLine x => parse_lines s1 (new ++ [x]) true ls'
      | FNone => parse_lines s1 (new ++ [l]) dirty ls'
      end
  end.

(** filter/filter.py 17-33 [parse_layer] *)
Definition parse_layer (s : St) (y : layer A) : res (St * layer A) :=
  do '(s1, new, dirty) <- parse_lines s [] false (ly_lines y);
  Ok (s1, if dirty then set_ly_lines new y else y).

(** filter/filter.py 13-15: the loop of [parse_gcode] *)
Fixpoint parse_layers (s : St) (ys : list (layer A)) : res (St * list (layer A)) :=
  match ys with
  | [] => Ok (s, [])
  | y :: ys' =>
      do '(s1, y1) <- parse_layer s y;
      do '(s2, ys2) <- parse_layers s1 ys';
      Ok (s2, y1 :: ys2)
  end.

Definition set_layers (ys : list (layer A)) (g : gcode) : gcode :=
  set_lines_layers (g_lines g) ys (g_lidx g) (g_kidx g) g.

(** filter/filter.py 10-15 [filter] and [parse_gcode] *)
Definition filter_gcode (s : St) (g : gcode) : res (St * gcode) :=
  do '(s1, ys) <- parse_layers s (g_layers g);
  Ok (s1, set_layers ys g).

End Generic.

(** ** filter/relative_extrusion.py *)

(** relative_extrusion.py 12-14.  The tracked distance is a Decimal made from
    a float and turned back into a float on use, which loses nothing: it is
    kept as a number. *)
Record rstate := RState { r_relative : bool; r_current : num }.
Definition rel_init : rstate := RState false n0.

Definition no_xyz (l : line) : bool :=
  negb (is_some (l_x l) || is_some (l_y l) || is_some (l_z l)).

(** [opcode.relative_e = True] *)
Definition mark_relative_e (l : line) : line :=
  let n := lnotes l in
  set_notes (Notes (t_relative n) (Some true) (t_tool n) (t_extruding n)
                   (t_x n) (t_y n) (t_z n) (t_f n) (t_e n)) l.

(** relative_extrusion.py 16-42 [opcode_filter] *)
Definition rel_opcode (s : rstate) (l : line) : rstate * fresult :=
  if cmd_is (command l) "M83" then (RState true (r_current s), FNone)
  else if cmd_is (command l) "M82" then
    (RState false (r_current s), FLine (raw_to_line "M83"))
  else if cmd_is (command l) "G92" then
    (match l_e l with
     | Some e => RState (r_relative s) e
     | None => if no_xyz l then RState (r_relative s) n0 else s
     end, FNone)
  else if cmd_in (command l) move_gcodes && negb (r_relative s) then
    match l_e l with
    | Some e => (RState (r_relative s) e,
                 FLine (unsplit (mark_relative_e (set_arg LE (n_sub e (r_current s)) l))))
    | None => (s, FNone)
    end
  else (s, FNone).

(** [GCodeToRelativeExtrusionFilter().filter(gcode)] *)
Definition to_relative_extrusion (g : gcode) : res gcode :=
  do '(_, g') <- filter_gcode (fun s l => Ok (rel_opcode s l)) rel_init g; Ok g'.

(** ** filter/translate.py *)

(** translate.py 12-20.  A translation is a float, or the integer 0 that the
    code assigns after a G92: [None] here.  [first_move_after_home] is set to
    False in the constructor and never set to True, so the branch of lines
    33-36 that tests it is left out. *)
Record tstate := TState {
  tr_x : option num; tr_y : option num;
  tr_absolute : option bool            (* None: unknown *) }.

(** translate.py 13-14: [x or 0.] *)
Definition shift_arg (o : option num) : option num :=
  Some (match o with Some x => if truthy x then x else n0 | None => n0 end).

Definition tr_init (x y : option num) : tstate := TState (shift_arg x) (shift_arg y) None.

Definition shift_truthy (t : option num) : bool :=
  match t with Some x => truthy x | None => false end.
(** [v + t], [v - t], [-t] where [t] is a float or the integer 0 *)
Definition shift_add (v : num) (t : option num) : num :=
  match t with Some x => n_add v x | None => v end.
Definition shift_sub (v : num) (t : option num) : num :=
  match t with Some x => n_sub v x | None => v end.
Definition shift_opp (t : option num) : num :=
  match t with Some x => n_opp x | None => n0 end.

(** translate.py 41-47: one axis of an absolute move *)
Definition shift_word (k : letter) (t : option num) (l : line) : line :=
  match get_arg k (largs l) with
  | Some v => if shift_truthy t then unsplit (set_arg k (shift_add v t) l) else l
  | None => l
  end.

(** translate.py 25-81 [opcode_filter] *)
Definition tr_opcode (s : tstate) (l : line) : tstate * fresult :=
  if cmd_in (command l) move_gcodes then
    match tr_absolute s with
    | None => (s, FNone)
    | Some false => (s, FNone)
    | Some true => (s, FLine (shift_word LY (tr_y s) (shift_word LX (tr_x s) l)))
    end
  else if cmd_is (command l) "G90" then (TState (tr_x s) (tr_y s) (Some true), FNone)
  else if cmd_is (command l) "G91" then (TState (tr_x s) (tr_y s) (Some false), FNone)
  else if cmd_is (command l) "G92" then
    if no_xyz l then
      (TState None None (tr_absolute s),
       FLine (unsplit (set_arg LY (shift_opp (tr_y s)) (set_arg LX (shift_opp (tr_x s)) l))))
    else
      let '(l1, tx) := match l_x l with
                       | Some v => (set_arg LX (shift_sub v (tr_x s)) l, None)
                       | None => (l, tr_x s)
                       end in
      let '(l2, ty) := match l_y l with
                       | Some v => (set_arg LY (shift_sub v (tr_y s)) l1, None)
                       | None => (l1, tr_y s)
                       end in
      (TState tx ty (tr_absolute s), FLine (unsplit l2))
  else (s, FNone).

(** [GCodeXYTranslateFilter(x, y).filter(gcode)] *)
Definition translate (x y : option num) (g : gcode) : res gcode :=
  do '(_, g') <- filter_gcode (fun s l => Ok (tr_opcode s l)) (tr_init x y) g; Ok g'.

End Filters.

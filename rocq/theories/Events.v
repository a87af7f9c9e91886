(** * Events: callbacks during loading and repeated loading

    gcoder.py 300-322 and the two callbacks of _preprocess. *)
From Coq Require Import List String ZArith NArith Bool.
From Verif Require Import PyBase Arith Gcoder.
Import ListNotations.

(** A call of one of the callbacks: [layer_callback(gcode, i)] (gcoder.py
    700-701) or [line_callback(line)] (712-713). *)
Inductive event (T : Type) :=
| LayerDone (i : nat)
| LineDone (l : T).
Arguments LayerDone {T}.
Arguments LineDone {T}.

Section Events.
Context {A : arith}.

(** gcoder.py 477-713: one iteration of the loop, with the calls it makes.  The
    layer callback is called when a layer has just been added to all_layers,
    with the index of that layer; the line callback at the end, with the parsed
    line (for LightGCode too). *)
Definition build_step_calls (light : bool) (st : mstate A * lstate A * list (line A)) (t : line A)
  : res (mstate A * lstate A * list (line A) * list (event (line A))) :=
  let '(s, ls, out) := st in
  do '(s', l) <- motion_step s t;
  do ls' <- (match command l with
             | Some _ => layer_body l (m_max s') ls
             | None => Ok ls
             end);
  let stored := if light then new_line (raw t) else l in
  let added := Nat.ltb (List.length (ls_layers ls)) (List.length (ls_layers ls')) in
  Ok (s', push_line stored ls', out ++ [stored],
      (if added then [LayerDone (List.length (ls_layers ls') - 1)] else []) ++ [LineDone l]).

(** gcoder.py 477-713: the calls made while the lines are read, up to the end
    or to the exception that ends the loop. *)
Fixpoint calls (light : bool) (st : mstate A * lstate A * list (line A)) (ts : list (line A))
  : list (event (line A)) :=
  match ts with
  | [] => []
  | t :: ts' =>
      match build_step_calls light st t with
      | Ok (st', es) => es ++ calls light st' ts'
      | Err _ => []
      end
  end.

(** gcoder.py 300-313: the calls made by [GCode(data, home_pos,
    layer_callback, line_callback=...)].  The callbacks are taken to leave the
    program alone. *)
Definition load_calls (light : bool) (home : num A * num A * num A) (data : list string)
  : list (event (line A)) :=
  match data with
  | [] => []
  | _ => calls light (init_mstate home, init_lstate, []) (map new_line (clean_lines data))
  end.

(** gcoder.py 289-291 [_set_home_pos] *)
Definition set_home (home : option (num A * num A * num A)) (m : mstate A) : mstate A :=
  match home with
  | None => m
  | Some (hx, hy, hz) =>
      MState (m_imperial m) (m_relative m) (m_relative_e m) (m_tool m) (m_f m) (m_x m) (m_y m) (m_z m)
             (m_ox m) (m_oy m) (m_oz m) hx hy hz (m_e m) (m_oe m) (m_total m) (m_max m)
  end.

(** gcoder.py 305-322 [prepare] called on an object that may already hold a
    program.  _preprocess starts from the attributes of the object (407-423,
    670-685), so machine state and estimated layer height are those of the
    program before; without data the measures keep their values. *)
Definition prepare (g : gcode A) (home : option (num A * num A * num A)) (data : list string)
  : res (gcode A) :=
  let m := set_home home (g_m g) in
  match data with
  | [] => Ok (GCode (g_light g) [] [Layer [] None n0] [] [] [] 0 m
                    (g_xmin g) (g_xmax g) (g_ymin g) (g_ymax g) (g_zmin g) (g_zmax g)
                    (g_filament g) (g_total g) (g_est g))
  | _ =>
      let ls0 := LState empty_bbox empty_bbox init_dstate n0 [] [] [] [] 0 0
                        None None None None [] false (g_est g) in
      do '(m', ls, out) <-
        foldM (build_step (g_light g)) (map new_line (clean_lines data)) (m, ls0, []);
      Ok (finalize (g_light g) m' ls out)
  end.

(** gcoder.py 195-251, 300-303: an object made with [deferred=True] *)
Definition deferred (light : bool) : gcode A :=
  GCode light [] [] [] [] [] 0 (init_mstate (n0, n0, n0)) n0 n0 n0 n0 n0 n0 n0 n0 None.

End Events.

(** * Properties C56-C65, C68, C78-C82: the stretch filters *)
From Coq Require Import List String Ascii ZArith Bool Reals Lra.
From Verif Require Import PyBase Arith ArithR ArithB64 Gcoder Filters Stretch SpecLoad SpecText SpecMachine SpecFilter
  SpecStretch SpecLoop Samples.
From Verif Require Import P_MachineRefuted P_StretchGeo P_StretchIter P_StretchErr P_StretchSafe P_StretchLoop
  P_StretchTotal P_StretchProps P_StretchRefuted P_StretchSample P_StretchWidth.
Import ListNotations.
Local Open Scope list_scope.

(** C56: layers and lines keep their number... *)
Theorem C56_shape :
  forall (A : arith) profile fuel d o (g g' : gcode A) printed, stretch profile fuel d o g = Ok (g', printed) ->
    same_frame g g' /\
    map (fun y => List.length (ly_lines y)) (g_layers g') = map (fun y => List.length (ly_lines y)) (g_layers g).
Proof. exact @stretch_shape. Qed.
Print Assumptions C56_shape.

(** ... and a line that is not a move of a loop keeps its text, up to remarks
    appended as comments, and in a loaded program in millimetres its command and
    numbers. *)
Theorem C56_texts :
  forall (A : arith) profile fuel d o home data (g g' : gcode A) printed,
    load_gen false home data = Ok g ->
    Forall (fun s => command_name s <> Some "G20"%string) (program_text data) ->
    stretch profile fuel d o g = Ok (g', printed) ->
    exists w ms, marking profile d g w ms /\
      Forall2 (fun l m => same_but_text l m /\ marked (raw l) (raw m)) (all_lines g) ms /\
      List.length (all_lines g') = List.length (all_lines g) /\
      forall k l l', nth_error (all_lines g) k = Some l -> nth_error (all_lines g') k = Some l' ->
        to_stretch o w (upto k ms) = false ->
        marked (raw l) (raw l') /\ (markable (raw l) -> reads_alike l l').
Proof. exact @texts_loaded. Qed.
Print Assumptions C56_texts.

Example C56_example :
  load_gen (A:=B64) false home0 small_square = Ok squareF /\
  Forall (fun s => command_name s <> Some "G20"%string) (program_text small_square) /\
  exists r, stretch no_profile 100 Slic3r default_options squareF = Ok r.
Proof.
  split; [exact squareF_loaded|]. split; [repeat constructor; vm_compute; discriminate|exact squareF_stretched].
Qed.

(** In inches the numbers in memory change. *)
Theorem C56_inch_refuted :
  exists (g g' : gcode B64) printed,
    load_gen false home0 inch_travel = Ok g /\ stretch no_profile 100 Slic3r default_options g = Ok (g', printed) /\
    write g' = write g /\ map x_text (all_lines g) = [""; "25.400"]%string /\
    map x_text (all_lines g') = [""; "1.000"]%string.
Proof. exact inch_reread. Qed.
Print Assumptions C56_inch_refuted.

(** C57, over the reals: a point moves by at most the width of the edge times the
    ratio of the loop times the strength; then it is rounded to 3 decimals. *)
Theorem C57_bounded :
  forall profile fuel d (o : options (A:=RA)) (g g' : gcode RA) printed,
    stretch profile fuel d o g = Ok (g', printed) ->
    exists w ms, marking profile d g w ms /\
      forall k l l', nth_error (all_lines g) k = Some l -> nth_error (all_lines g') k = Some l' ->
        to_stretch o w (upto k ms) = true ->
        exists x y dx dy x' y',
          (forall v, l_x l = Some v -> x = v) /\ (forall v, l_y l = Some v -> y = v) /\
          (sqrt (dx * dx + dy * dy) <= limit o w (loop_of (map raw (upto k ms))))%R /\
          l_x l' = Some x' /\ (Rabs (x' - (x + dx)) <= / 2000)%R /\
          l_y l' = Some y' /\ (Rabs (y' - (y + dy)) <= / 2000)%R.
Proof. exact stretched_point. Qed.
Print Assumptions C57_bounded.

(** five moves of this square are stretched, by at most 0.04 mm *)
Example C57_example :
  (exists r, stretch no_profile 100 Slic3r default_options squareR = Ok r) /\
  marking no_profile Slic3r squareR (Some (lit 4 1)) (lines_of (snd markedR)) /\
  (forall k, 1 <= k <= 5 ->
     loop_of (map raw (upto k (lines_of (snd markedR)))) = Some Outer /\
     to_stretch default_options (Some (lit 4 1)) (upto k (lines_of (snd markedR))) = true) /\
  limit default_options (Some (lit (A:=RA) 4 1)) (Some Outer) = (4 / 100)%R.
Proof.
  exact (conj squareR_stretched (conj squareR_marking (conj squareR_to_stretch squareR_limit))).
Qed.

Example C57_output : gcode_stretch 100 small_square =
  Ok ["M83"; "G1 X9.976 Y9.976 F1800.000"; "G1 X11.024 Y9.976 E0.96606 F1800.000";
      "G1 X11.024 Y11.024 E0.96606 F1800.000"; "G1 X9.976 Y11.024 E0.96606 F1800.000";
      "G1 X9.976 Y9.976 E0.96606 F1800.000"; "G1 X0 Y0 ; done ; stretch-extrusion-off ; stretch-loop-stop"]%string.
Proof. exact small_square_stretched. Qed.

(** C58: with strength 0 every line keeps its text up to remarks. *)
Theorem C58_zero :
  forall (A : arith) (E : exact A) profile fuel d o home data (g g' : gcode A) printed,
    (val E (o_strength o) = 0)%R -> load_gen false home data = Ok g ->
    Forall (fun s => command_name s <> Some "G20"%string) (program_text data) ->
    stretch profile fuel d o g = Ok (g', printed) ->
    Forall2 (fun l l' => marked (raw l) (raw l') /\ (markable (raw l) -> reads_alike l l'))
      (all_lines g) (all_lines g').
Proof. exact @zero_loaded. Qed.
Print Assumptions C58_zero.

Example C58_example :
  stretch_main (A:=B64) no_profile 100
    (Options (lit 50 1) (lit 11 2) (lit 32 2) (lit 1 1) (lit 20 1) (lit 0 0)) small_square =
  Ok ["M83"; "G1 X10 Y10 F1800 ; move to first perimeter point ; stretch-loop-start stretch-outer-edge-start ; stretch-loop-stop";
      "G1 X11 Y10 E1 ; perimeter external ; stretch-extrusion-on"; "G1 X11 Y11 E1 ; perimeter external";
      "G1 X10 Y11 E1 ; perimeter external"; "G1 X10 Y10 E1 ; perimeter external";
      "G1 X0 Y0 ; done ; stretch-extrusion-off ; stretch-loop-stop"]%string.
Proof. vm_compute. reflexivity. Qed.

(** C59, over the reals *)
Theorem C59_words :
  forall profile fuel d (o : options (A:=RA)) (g g' : gcode RA) printed,
    stretch profile fuel d o g = Ok (g', printed) ->
    exists w ms, marking profile d g w ms /\
      forall k l l', nth_error (all_lines g) k = Some l -> nth_error (all_lines g') k = Some l' ->
        to_stretch o w (upto k ms) = true ->
        command l' = command l /\
        match l_z l, l_z l' with
        | Some z, Some z' => (Rabs (z' - z) <= / 2000)%R
        | None, None => True
        | _, _ => False
        end /\
        match l_e l, l_e l' with
        | Some e, Some e' => exists f, (1 - limit o w (loop_of (map raw (upto k ms))) <= f <= 1)%R /\
                                       (Rabs (e' - e * f) <= / 200000)%R
        | None, None => True
        | _, _ => False
        end.
Proof. exact stretched_words. Qed.
Print Assumptions C59_words.

(** C60, over the reals: a stretched move has the feedrate of the latest F word,
    provided it belongs to a move of a loop.  Missing: feedrates set elsewhere,
    for which C60 is false. *)
Theorem C60_feed_partial :
  forall profile fuel d (o : options (A:=RA)) (g g' : gcode RA) printed,
    stretch profile fuel d o g = Ok (g', printed) ->
    exists w ms, marking profile d g w ms /\
      forall k l', nth_error (all_lines g') k = Some l' -> to_stretch o w (upto k ms) = true ->
        forall j lj f, j <= k -> nth_error (all_lines g) j = Some lj -> loop_move (upto j ms) = true ->
          l_f lj = Some f -> (f <> 0)%R ->
          (forall i li, j < i <= k -> nth_error (all_lines g) i = Some li -> l_f li = None) ->
          exists f', l_f l' = Some f' /\ (Rabs (f' - f) <= / 2000)%R.
Proof. exact stretched_feed. Qed.
Print Assumptions C60_feed_partial.

(** A feedrate set before the loop is lost: 959 replaces 1800. *)
Theorem C60_feed_refuted : gcode_stretch 100
  ["M83"; "G1 F1800"; "G1 X10 Y10 ; move to first perimeter point"; "G1 X11 Y10 E1 ; perimeter external";
   "G1 X11 Y11 E1 ; perimeter external"; "G1 X0 Y0 ; done"]%string =
  Ok ["M83"; "G1 F1800"; "G1 X9.960 Y10.000 F959.000"; "G1 X11.024 Y9.976 E0.96606 F959.000";
      "G1 X11.000 Y11.040 E0.96000 F959.000"; "G1 X0 Y0 ; done ; stretch-extrusion-off ; stretch-loop-stop"]%string.
Proof. exact feed_lost. Qed.
Print Assumptions C60_feed_refuted.

(** C61, over the reals: a coordinate that a stretched move does not name stays
    near the one of the move before it, provided that is a move of a loop with X
    and Y.  Missing: other previous moves, for which C61 is false. *)
Theorem C61_from_partial :
  forall profile fuel d (o : options (A:=RA)) (g g' : gcode RA) printed,
    stretch profile fuel d o g = Ok (g', printed) ->
    exists w ms, marking profile d g w ms /\
      forall j k lj l l' x0 y0, j < k -> nth_error (all_lines g) j = Some lj -> loop_move (upto j ms) = true ->
        l_x lj = Some x0 -> l_y lj = Some y0 ->
        (forall i li, j < i < k -> nth_error (all_lines g) i = Some li -> xy_move li = false) ->
        nth_error (all_lines g) k = Some l -> nth_error (all_lines g') k = Some l' ->
        to_stretch o w (upto k ms) = true ->
        exists dx dy x' y',
          (sqrt (dx * dx + dy * dy) <= limit o w (loop_of (map raw (upto k ms))))%R /\
          l_x l' = Some x' /\ (Rabs (x' - (match l_x l with Some x => x | None => x0 end + dx)) <= / 2000)%R /\
          l_y l' = Some y' /\ (Rabs (y' - (match l_y l with Some y => y | None => y0 end + dy)) <= / 2000)%R.
Proof. exact stretched_from. Qed.
Print Assumptions C61_from_partial.

(** A loop that begins with a move along X from Y10 is drawn from Y0. *)
Theorem C61_from_refuted : gcode_stretch 100
  ["M83"; "G1 X10 Y10 F1800"; "G1 X20 E1 ; perimeter external"; "G1 X20 Y20 E1 ; perimeter external";
   "G1 X10 Y20 E1 ; perimeter external"; "G1 X10 Y10 E1 ; perimeter external"; "G1 X0 Y0 ; done"]%string =
  Ok ["M83"; "G1 X10 Y10 F1800"; "G1 X20.018 Y-0.036 E0.96000 F959.000"; "G1 X20.040 Y20.000 E0.96000 F959.000";
      "G1 X10.000 Y20.000 E1.00000 F959.000"; "G1 X10.000 Y9.961 E0.96137 F959.000";
      "G1 X0 Y0 ; done ; stretch-extrusion-off ; stretch-loop-stop"]%string.
Proof. exact position_lost. Qed.
Print Assumptions C61_from_refuted.

(** C62: a program of Slic3r whose marks delimit its loops is stretched in a
    number of steps that its longest layer bounds.  Missing: other programs, for
    which C62 is false, and Skeinforge (Props_Skein). *)
Theorem C62_slic3r_partial :
  forall (A : arith) profile fuel o (g : gcode A) w ys,
    setup_filter profile Slic3r (g_layers g) = Ok (w, ys) -> all_enclosed [] ys = true ->
    (forall y, In y ys -> 2 * List.length (ly_lines y) + 6 < fuel) ->
    stretch profile fuel Slic3r o g <> Err OutOfFuel.
Proof. exact @slic3r_ends. Qed.
Print Assumptions C62_slic3r_partial.

Example C62_example :
  setup_filter no_profile Slic3r (g_layers squareF) = Ok markedF /\ all_enclosed [] (snd markedF) = true.
Proof. split; [exact markedF_ok|vm_compute; reflexivity]. Qed.

(** The same for a loaded program of Cura in millimetres whose marks delimit its
    walls. *)
Theorem C62_cura_partial :
  forall (A : arith) profile fuel o home data (g : gcode A) w ys,
    load_gen false home data = Ok g ->
    Forall (fun s => command_name s <> Some "G20"%string /\ markable s) (program_text data) ->
    setup_filter profile Cura (g_layers g) = Ok (w, ys) -> all_walled [] ys = true ->
    (forall y, In y ys -> 2 * List.length (ly_lines y) + 6 < fuel) ->
    stretch profile fuel Cura o g <> Err OutOfFuel.
Proof. exact @cura_ends. Qed.
Print Assumptions C62_cura_partial.

Example C62_cura_example :
  setup_filter no_profile Cura (g_layers (loadF cura_wall)) = Ok walledF /\
  all_walled [] (snd walledF) = true /\ all_walls_here [] (snd walledF) = true.
Proof. split; [exact walledF_ok|split; vm_compute; reflexivity]. Qed.

(** No number of steps is enough for this program. *)
Theorem C62_endless_refuted : forall fuel,
  gcode_stretch fuel ["M83"; "G1 X0 E1 ; perimeter external"; "G92 E0 ; perimeter"; "G1 X5"]%string = Err OutOfFuel.
Proof. exact endless_stuck. Qed.
Print Assumptions C62_endless_refuted.

(** C63: a loaded program of Cura in millimetres and without a profile raises
    nothing, provided no layer ends with a move.  Missing: the other programs,
    for which C63 is false. *)
Theorem C63_cura_partial :
  forall (A : arith) (E : exact A) profile fuel o home data (g : gcode A),
    load_gen false home data = Ok g ->
    Forall (fun s => command_name s <> Some "G20"%string /\ markable s /\
                     startswith ";CURA_PROFILE_STRING:" s = false) (program_text data) ->
    (forall y, In y (g_layers g) -> ends_moving (ly_lines y) = false) ->
    (0 <= val E (o_cross o))%R -> (0 < val E (o_from o))%R ->
    match stretch profile fuel Cura o g with Ok _ => True | Err e => e = OutOfFuel end.
Proof. exact cura_safe. Qed.
Print Assumptions C63_cura_partial.

(** The same for every dialect, given the marking. *)
Theorem C63_any_partial :
  forall (A : arith) (E : exact A) profile fuel d o (g : gcode A) we ys,
    setup_filter profile d (g_layers g) = Ok (Some we, ys) ->
    (0 < val E we)%R -> (0 <= val E (o_cross o))%R -> (0 < val E (o_from o))%R ->
    (d = Cura -> forall y, In y (g_layers g) -> ends_moving (ly_lines y) = false) ->
    Forall (fun l => markable (raw l) /\ exists l', reparse l = Ok l') (all_lines g) ->
    match stretch profile fuel d o g with Ok _ => True | Err e => e = OutOfFuel end.
Proof. exact @stretch_safe. Qed.
Print Assumptions C63_any_partial.

Example C63_example :
  Forall (fun s => command_name s <> Some "G20"%string /\ markable s /\
                   startswith ";CURA_PROFILE_STRING:" s = false) (program_text cura_wall) /\
  (exists g : gcode B64, load_gen false home0 cura_wall = Ok g /\
     forallb (fun y => negb (ends_moving (ly_lines y))) (g_layers g) = true) /\
  gcode_stretch 100 cura_wall =
  Ok ["; CURA_PROFILE_STRING"; "M83"; "G1 X10 Y10 F1800"; ";TYPE:WALL-OUTER"; "G1 X11.024 Y9.976 E0.96606 F959.000";
      "G1 X11.024 Y11.024 E0.96606 F959.000"; "G1 X9.976 Y11.024 E0.96606 F959.000";
      "G1 X9.976 Y9.976 E0.96606 F959.000"; ";TYPE:FILL ; stretch-loop-stop"; "G1 X30 Y10 E1"; "M107"]%string.
Proof. exact (conj cura_wall_texts (conj cura_wall_ends cura_wall_stretched)). Qed.

Theorem C63_index_refuted :
  gcode_stretch 100 ["M83"; "; CURA_PROFILE_STRING"; ";TYPE:WALL-OUTER"; "G1 X20 Y10 E1"]%string = Err IndexError.
Proof. exact cura_index_error. Qed.
Print Assumptions C63_index_refuted.

Theorem C63_profile_refuted :
  gcode_stretch 100 ["M83"; ";TYPE:WALL-OUTER"; "G1 X20 Y10 E1"; ";CURA_PROFILE_STRING:eNrtWm1v"]%string = Err TypeError.
Proof. exact cura_type_error. Qed.
Print Assumptions C63_profile_refuted.

(** C64: a returned line is the one the iterator passed last, and is a G0 or G1
    with X or Y... *)
Theorem C64_returns :
  forall (A : arith) fuel d dir (ls : list (line A)) it0 l it,
    get_next fuel d dir ls it0 = Ok (Next l it) ->
    line_at ls (i_index it - increment dir) = Some l /\ xy_move l = true.
Proof. exact @next_returns. Qed.
Print Assumptions C64_returns.

(** ... and without a wrap-around it is the nearest one at or beyond the index. *)
Theorem C64_order :
  forall (A : arith) fuel d dir (ls : list (line A)) it0 l it,
    wraps d dir ls (i_index it0) = Ok false ->
    (stops_on_off d = true -> forall j x, beyond dir (i_index it0) j -> line_at ls j = Some x -> has off_marker x = false) ->
    get_next fuel d dir ls it0 = Ok (Next l it) ->
    beyond dir (i_index it0) (i_index it - increment dir) /\
    forall j x, beyond dir (i_index it0) j -> beyond dir j (i_index it - increment dir) ->
      j <> (i_index it - increment dir)%Z -> line_at ls j = Some x -> xy_move x = false.
Proof. exact @next_straight. Qed.
Print Assumptions C64_order.

(** the second line of the square, then the third *)
Example C64_example :
  match get_next 10 Slic3r Forward (all_lines squareF) (new_iter 0) with
  | Ok (Next l it) =>
      (raw l, i_index it) = ("G1 X10 Y10 F1800 ; move to first perimeter point"%string, 2%Z) /\
      match get_next 10 Slic3r Forward (all_lines squareF) it with
      | Ok (Next l it) => (raw l, i_index it) = ("G1 X11 Y10 E1 ; perimeter external"%string, 3%Z)
      | _ => False
      end
  | _ => False
  end.
Proof. vm_compute. split; reflexivity. Qed.

(** C65: the loop in force at a line is the one that the comments of the slicer
    say; [limit] is the largest displacement there (C57)... *)
Theorem C65_loops :
  forall (A : arith) profile d (g : gcode A) w ms, unstretched (all_lines g) -> marking profile d g w ms ->
    forall k c, nth_error (loops d None (g_layers g)) k = Some c -> loop_of (map raw (upto k ms)) = c.
Proof. exact @marks_follow. Qed.
Print Assumptions C65_loops.

(** ... it is given for every line... *)
Theorem C65_all_lines :
  forall (A : arith) d (ys : list (layer A)) c, List.length (loops d c ys) = List.length (lines_of ys).
Proof. exact @loops_length. Qed.
Print Assumptions C65_all_lines.

(** ... and outside loops nothing is stretched. *)
Theorem C65_outside :
  forall (A : arith) o w (seen : list (line A)), loop_of (map raw seen) = None -> to_stretch o w seen = false.
Proof. exact @outside_kept. Qed.
Print Assumptions C65_outside.

Example C65_slic3r :
  unstretched (all_lines squareF) /\
  loops Slic3r None (g_layers squareF) =
    [None; Some Outer; Some Outer; Some Outer; Some Outer; Some Outer; None].
Proof. split; [apply unstretched_test|]; vm_compute; reflexivity. Qed.

Example C65_cura :
  loops Cura None (g_layers (loadF cura_wall)) =
    [None; None; None; None; Some Outer; Some Outer; Some Outer; Some Outer; None; None; None].
Proof. vm_compute. reflexivity. Qed.

Example C65_skeinforge :
  loops Skeinforge None (g_layers (loadF
    ["(<edge> outer )"; "G1 X1 Y1"; "(</edge>)"; "(<loop>)"; "G1 X2 Y2"; "(</loop>)"; "(<edge> inner )"; "G1 X3 Y3"]%string)) =
    [Some Outer; Some Outer; None; Some Plain; Some Plain; None; Some Inner; Some Inner].
Proof. vm_compute. reflexivity. Qed.

(** C68 *)
Theorem C68_dialect :
  forall (A : arith) (g : gcode A),
    is_cura_gcode g = true <-> exists l, In l (all_lines g) /\ contains "CURA_PROFILE_STRING" (raw l) = true.
Proof. exact @cura_iff. Qed.
Print Assumptions C68_dialect.

(** ... of the program after its conversion to relative extrusion *)
Theorem C68_main :
  forall (A : arith) profile fuel o data (g g1 : gcode A),
    load_gen false home0 data = Ok g -> to_relative_extrusion g = Ok g1 ->
    stretch_main profile fuel o data =
    bind (stretch profile fuel (if is_cura_gcode g1 then Cura else Slic3r) o g1)
         (fun x => Ok (snd x ++ write (fst x))).
Proof. exact @main_dialect. Qed.
Print Assumptions C68_main.

Example C68_example :
  is_cura_gcode (loadF cura_wall) = true /\ is_cura_gcode squareF = false.
Proof. split; vm_compute; reflexivity. Qed.

(** C78: besides the program, messages may be written... *)
Theorem C78_output_refuted : gcode_stretch 100
  ["M83"; "G1 X10 Y10 F1800 ; move to first perimeter point"; "G1 X20 Y10 E1 ; perimeter external"]%string =
  Ok ["This should never happen in stretch, no deactivate command was found for this thread.";
      "This should never happen in stretch, no deactivate command was found for this thread.";
      "M83"; "G1 X9.968 Y10.000 F1800.000"; "G1 X20.032 Y10.000 E0.96800 F1800.000"]%string.
Proof. exact message_printed. Qed.
Print Assumptions C78_output_refuted.

(** ... and then the output is not a program. *)
Theorem C78_reload_refuted : exists out, gcode_stretch 100
  ["M83"; "G1 X10 Y10 F1800 ; move to first perimeter point"; "G1 X20 Y10 E1 ; perimeter external"]%string = Ok out /\
  load_gen (A:=B64) false home0 out = Err ValueError.
Proof. exact message_unreadable. Qed.
Print Assumptions C78_reload_refuted.

(** Nothing is printed for loops that begin and end in one layer; Slic3r... *)
Theorem C78_slic3r_partial :
  forall (A : arith) profile fuel o (g : gcode A) w ys g' printed,
    setup_filter profile Slic3r (g_layers g) = Ok (w, ys) -> all_enclosed [] ys = true -> all_end_here [] ys = true ->
    stretch profile fuel Slic3r o g = Ok (g', printed) -> printed = [].
Proof. exact @slic3r_quiet. Qed.
Print Assumptions C78_slic3r_partial.

(** ... and Cura.  Missing: the other programs, for which C78 is false. *)
Theorem C78_cura_partial :
  forall (A : arith) profile fuel o home data (g : gcode A) w ys g' printed,
    load_gen false home data = Ok g ->
    Forall (fun s => command_name s <> Some "G20"%string /\ markable s) (program_text data) ->
    setup_filter profile Cura (g_layers g) = Ok (w, ys) -> all_walled [] ys = true -> all_walls_here [] ys = true ->
    stretch profile fuel Cura o g = Ok (g', printed) -> printed = [].
Proof. exact @cura_quiet. Qed.
Print Assumptions C78_cura_partial.

(** Then in exact arithmetic stretching succeeds and prints nothing. *)
Theorem C78_slic3r_total_partial :
  forall (A : arith) (E : exact A) profile fuel o (g : gcode A) we ys,
    setup_filter profile Slic3r (g_layers g) = Ok (Some we, ys) ->
    (0 < val E we)%R -> (0 <= val E (o_cross o))%R -> (0 < val E (o_from o))%R ->
    Forall (fun l => markable (raw l) /\ exists l', reparse l = Ok l') (all_lines g) ->
    all_enclosed [] ys = true -> all_end_here [] ys = true ->
    (forall y, In y ys -> 2 * List.length (ly_lines y) + 6 < fuel) ->
    exists g', stretch profile fuel Slic3r o g = Ok (g', []).
Proof. exact slic3r_total. Qed.
Print Assumptions C78_slic3r_total_partial.

Theorem C78_cura_total_partial :
  forall (A : arith) (E : exact A) profile fuel o home data (g : gcode A) w ys,
    load_gen false home data = Ok g ->
    Forall (fun s => command_name s <> Some "G20"%string /\ markable s /\
                     startswith ";CURA_PROFILE_STRING:" s = false) (program_text data) ->
    (forall y, In y (g_layers g) -> ends_moving (ly_lines y) = false) ->
    (0 <= val E (o_cross o))%R -> (0 < val E (o_from o))%R ->
    setup_filter profile Cura (g_layers g) = Ok (w, ys) -> all_walled [] ys = true -> all_walls_here [] ys = true ->
    (forall y, In y ys -> 2 * List.length (ly_lines y) + 6 < fuel) ->
    exists g', stretch profile fuel Cura o g = Ok (g', []).
Proof. exact cura_total. Qed.
Print Assumptions C78_cura_total_partial.

Example C78_example :
  setup_filter no_profile Slic3r (g_layers squareF) = Ok markedF /\
  all_enclosed [] (snd markedF) = true /\ all_end_here [] (snd markedF) = true /\
  forallb (fun y => Nat.ltb (2 * List.length (ly_lines y) + 6) 100) (snd markedF) = true.
Proof. split; [exact markedF_ok|split; [vm_compute; reflexivity|split; vm_compute; reflexivity]]. Qed.

(** C79: the lines written for a loop in inches are in millimetres. *)
Theorem C79_inch_refuted : exists out, gcode_stretch 100 inch_loop = Ok out /\
  ends_at (firstn 6 inch_loop) = ("25.400", "25.400", "1524.000")%string /\
  ends_at (firstn 6 out) = ("644.474", "644.474", "38709.600")%string.
Proof. exact inches_lost. Qed.
Print Assumptions C79_inch_refuted.

(** C80: with relative positions the displacements add up, here to 0.072 mm where
    0.04 mm is the limit. *)
Theorem C80_relative_refuted : exists out, gcode_stretch 100 relative_loop_text = Ok out /\
  ends_at (firstn 6 relative_loop_text) = ("13.000", "10.000", "1800.000")%string /\
  ends_at (firstn 6 out) = ("13.022", "9.928", "1800.000")%string.
Proof. exact relative_drifts. Qed.
Print Assumptions C80_relative_refuted.

(** C81: a loop that the end of the layer closes is in force in the next one... *)
Theorem C81_layer_refuted : gcode_stretch 100
  ["M83"; "G1 Z0.2"; "G1 X10 Y10 F1800 ; move to first perimeter point"; "G1 X11 Y10 E1 ; perimeter external";
   "G1 X11 Y11 E1 ; perimeter external"; "G1 Z0.4"; "G1 X30 Y30 ; infill"; "G1 X40 Y30 E1 ; infill"]%string =
  Ok ["This should never happen in stretch, no deactivate command was found for this thread.";
      "This should never happen in stretch, no deactivate command was found for this thread.";
      "M83"; "G1 Z0.2"; "G1 X9.968 Y10.000 F1800.000"; "G1 X11.024 Y9.976 E0.96606 F1800.000";
      "G1 X11.000 Y11.032 E0.96800 F1800.000"; "G1 Z0.4"; "G1 X29.968 Y30.000 F1800.000";
      "G1 X40.032 Y30.000 E0.96800 F1800.000"]%string.
Proof. exact leak_slic3r. Qed.
Print Assumptions C81_layer_refuted.

(** ... and support does not end a wall. *)
Theorem C81_support_refuted : gcode_stretch 100
  ["; CURA_PROFILE_STRING"; "M83"; "G1 X10 Y10 F1800"; ";TYPE:WALL-OUTER"; "G1 X11 Y10 E1"; "G1 X11 Y11 E1";
   "G1 X10 Y11 E1"; "G1 X10 Y10 E1"; ";TYPE:SUPPORT"; "G1 X30 Y10 E1"; "G1 X30 Y30 E1"; "M107"]%string =
  Ok ["; CURA_PROFILE_STRING"; "M83"; "G1 X10 Y10 F1800"; ";TYPE:WALL-OUTER"; "G1 X10.972 Y9.971 E0.96000 F959.000";
      "G1 X11.024 Y11.024 E0.96606 F959.000"; "G1 X9.976 Y11.024 E0.96606 F959.000";
      "G1 X9.976 Y10.000 E0.97600 F959.000"; ";TYPE:SUPPORT"; "G1 X30.000 Y10.000 E1.00000 F959.000";
      "G1 X30.000 Y30.040 E0.96000 F959.000"; "M107 ; stretch-loop-stop"]%string.
Proof. exact leak_cura. Qed.
Print Assumptions C81_support_refuted.

(** Where the layers of Slic3r end outside loops, a line is in the loop that the
    comments of its own layer say. *)
Theorem C81_layers_partial :
  forall (A : arith) (ys : list (layer A)),
    Forall (fun y => last (slic3r_layer None None true (texts y)) None = None) ys ->
    loops Slic3r None ys = List.concat (map (fun y => slic3r_layer None None true (texts y)) ys).
Proof. exact @layers_apart. Qed.
Print Assumptions C81_layers_partial.

Example C81_example :
  Forall (fun y => last (slic3r_layer None None true (texts y)) None = None) (g_layers squareF).
Proof. apply layers_apart_test. vm_compute. reflexivity. Qed.

(** C82: the same square with absolute extrusion is not stretched: rewriting its
    lines for relative extrusion loses the comments. *)
Theorem C82_absolute_refuted : gcode_stretch 100
  ["M82"; "G1 X10 Y10 F1800 ; move to first perimeter point"; "G1 X11 Y10 E1 ; perimeter external";
   "G1 X11 Y11 E2 ; perimeter external"; "G1 X10 Y11 E3 ; perimeter external";
   "G1 X10 Y10 E4 ; perimeter external"; "G1 X0 Y0 ; done"]%string =
  Ok ["M83"; "G1 X10 Y10 F1800 ; move to first perimeter point";
      "G1 X11.000 Y10.000 E1.00000 ; stretch-extrusion-on"; "G1 X11.000 Y11.000 E1.00000";
      "G1 X10.000 Y11.000 E1.00000"; "G1 X10.000 Y10.000 E1.00000"; "G1 X0 Y0 ; done"]%string.
Proof. exact absolute_unstretched. Qed.
Print Assumptions C82_absolute_refuted.

(** C84: the edge width is the one declared last; 0.4 if there is none (for
    Skeinforge, none). *)
Theorem C84_width :
  forall (A : arith) profile d (g : gcode A) w ms, d <> Cura -> marking profile d g w ms ->
    (exists pre l post v x, all_lines g = pre ++ l :: post /\ declares d (raw l) v /\ py_float v = Some x /\ w = Some x /\
       forall l' v', In l' post -> ~ declares d (raw l') v') \/
    ((forall l v, In l (all_lines g) -> ~ declares d (raw l) v) /\
     w = match d with Slic3r => Some (lit 4 1) | _ => None end).
Proof. exact @declared_width. Qed.
Print Assumptions C84_width.

Theorem C84_cura :
  forall (A : arith) profile (g : gcode A) w ms, marking profile Cura g w ms ->
    Forall (fun l => startswith ";CURA_PROFILE_STRING:" (raw l) = false) (all_lines g) -> w = Some (lit 4 1).
Proof. exact @cura_default_width. Qed.
Print Assumptions C84_cura.

Example C84_example :
  declares Slic3r "; external perimeters extrusion width = 0.50mm (4.91mm^3/s)" "0.50" /\
  declares Skeinforge "(<edgeWidth> 0.55 )" "0.55" /\
  exists r, setup_filter no_profile Slic3r
    (g_layers (loadF ["; external perimeters extrusion width = 0.50mm"; "G1 X1 Y1"]%string)) = Ok r /\
    match fst r with Some w => fmt 2 w = "0.50"%string | None => False end.
Proof. exact widths_declared. Qed.

(** * Properties C49-C55, C77, C94, C95: the arc optimizer *)
From Coq Require Import List String Ascii ZArith Bool Reals Lra.
From Verif Require Import PyBase Arith ArithR ArithB64 Gcoder Filters Arc SpecLoad SpecText SpecMachine SpecFilter SpecArc Samples.
From Verif Require Import P_Arc P_ArcFit P_ArcFeed P_ArcPath P_ArcTurn P_ArcErr P_ArcSample P_MachineRefuted P_FilterRefuted P_ArcRefuted.
Import ListNotations.
Local Open Scope list_scope.

(** C49: the output is the input with [n] runs replaced... *)
Theorem C49_shape :
  forall (A : arith) (g g' : gcode A), optimize_arcs g = Ok g' ->
    exists n, replaced arc_for n (all_lines g) (all_lines g').
Proof. exact @arcs_shape. Qed.
Print Assumptions C49_shape.

(** ... and without any, the written program is the same. *)
Theorem C49_no_arc :
  forall (A : arith) (g g' : gcode A), replaced arc_for 0 (all_lines g) (all_lines g') ->
    write g' = write g.
Proof. exact @no_arc_same_text. Qed.
Print Assumptions C49_no_arc.

(** C50: the lines with a command other than G0-G3 are all there, in order; the
    only new ones set the extruder position. *)
Theorem C50_others :
  forall (A : arith) (g g' : gcode A), optimize_arcs g = Ok g' ->
    more sets_e (filter other_command (all_lines g)) (filter other_command (all_lines g')).
Proof. exact @arcs_others. Qed.
Print Assumptions C50_others.

(** an arc is found *)
Example C49_C50_example :
  exists g g' : gcode B64, load_gen false home0 arc_ccw = Ok g /\ optimize_arcs g = Ok g' /\
    write g' = ["G90"; "M82"; "G1 X10.000 Y0.000 F1200";
      "G3 X0.000 Y10.000 E0.45057 F1200.000 I-10.001 J-0.001; generated from 9 segments"; "M107"]%string.
Proof. exact arc_found. Qed.

(** C51, over the reals *)
Theorem C51_fitted :
  forall home data (g g' : gcode RA), load_gen false home data = Ok g -> optimize_arcs g = Ok g' ->
    exists n, replaced fitted n (all_lines g) (all_lines g').
Proof. exact arcs_fitted. Qed.
Print Assumptions C51_fitted.

Example C51_example :
  exists g g' : gcode RA, load_gen (A:=RA) false home0 cube = Ok g /\ optimize_arcs g = Ok g'.
Proof. exact cube_real. Qed.

(** C52: programs without 9 moves and comments in a row pass unchanged; this is
    missing the programs with longer rows, for which C52 is false. *)
Theorem C52_short_partial :
  forall (A : arith) (g : gcode A), rows_within 8 8 (all_lines g) = true ->
    exists g', optimize_arcs g = Ok g' /\ write g' = write g.
Proof. exact @short_rows_same. Qed.
Print Assumptions C52_short_partial.

Example C52_example : rows_within 8 8 (all_lines cubeF) = true.
Proof. vm_compute. reflexivity. Qed.

(** Nothing but these two exceptions is raised... *)
Theorem C52_only_errors :
  forall (A : arith) (g : gcode A) e, optimize_arcs g = Err e -> e = TypeError \/ e = ZeroDivisionError.
Proof. exact @optimize_errors. Qed.
Print Assumptions C52_only_errors.

(** ... but both are: by an arc behind a comment, by travel moves along a
    circle, by a straight line, and by extruding without moving. *)
Theorem C52_refuted :
  arc_raises TypeError arc_comment /\ arc_raises ZeroDivisionError arc_travel /\
  arc_raises ZeroDivisionError arc_line /\ arc_raises ZeroDivisionError arc_prime.
Proof. exact arc_crashes. Qed.
Print Assumptions C52_refuted.

(** C53 holds in relative extrusion mode (over the reals)... *)
Theorem C53_relative_partial :
  forall home data (g g' : gcode RA), load_gen false home data = Ok g -> optimize_arcs g = Ok g' ->
    exists n, replaced feeds_enough n (all_lines g) (all_lines g').
Proof. exact arcs_feed. Qed.
Print Assumptions C53_relative_partial.

(** ... and in absolute mode the arc feeds what the run feeds, in proportion to
    its signed length.  Missing: that this is at least what the run feeds... *)
Theorem C53_absolute_partial :
  forall g g' : gcode RA, optimize_arcs g = Ok g' ->
    exists n, replaced feeds_evenly n (all_lines g) (all_lines g').
Proof. exact arcs_even. Qed.
Print Assumptions C53_absolute_partial.

(** ... which is false: a clockwise arc retracts. *)
Theorem C53_refuted :
  exists g g' : gcode B64, load_gen false home0 arc_cw = Ok g /\ optimize_arcs g = Ok g' /\
    write g' = ["G90"; "M82"; "G1 X10.000 Y0.000 F1200";
      "G2 X0.000 Y-10.000 E-0.45057 F1200.000 I-10.001 J0.001; generated from 9 segments"; "M107"]%string /\
    extruder (run arc_cw (start home_at0)) = (45 / 100)%R /\
    extruder (run ["G90"; "M82"; "G1 X10.000 Y0.000 F1200";
      "G2 X0.000 Y-10.000 E-0.45057 F1200.000 I-10.001 J0.001; generated from 9 segments"; "M107"]%string
      (start home_at0)) = (- 45057 / 100000)%R.
Proof. exact arc_clockwise_refuted. Qed.
Print Assumptions C53_refuted.

(** C54 holds, over the reals, for programs in absolute coordinates and
    millimetres that do not re-base X or Y: after each line and each generated
    arc the head is, in X and Y, within 0.0005 of where the original program has
    it, and so it is at the end.  Missing: relative coordinates, inches (G20) and
    G92 with X or Y, and the lines named in [clear_words]. *)
Theorem C54_absolute_partial :
  forall home data (g g' : gcode RA), load_gen false home data = Ok g -> optimize_arcs g = Ok g' ->
    Forall arc_plain (program_text data) ->
    let k := start (home_of exactR home) in
    keeps_pace near_xy k k (program_text data) (write g').
Proof. exact arcs_pace. Qed.
Print Assumptions C54_absolute_partial.

Theorem C54_end_partial :
  forall home data (g g' : gcode RA), load_gen false home data = Ok g -> optimize_arcs g = Ok g' ->
    Forall arc_plain (program_text data) ->
    let k := start (home_of exactR home) in
    near_xy (run (program_text data) k) (run (write g') k).
Proof. exact arcs_pace_end. Qed.
Print Assumptions C54_end_partial.

(** the hypotheses of C54 and C77: a program over the reals, and one in which
    an arc is found *)
Example C54_example :
  (exists g g' : gcode RA, load_gen (A:=RA) false home0 cube = Ok g /\ optimize_arcs g = Ok g') /\
  Forall arc_plain (program_text cube) /\ Forall level_extrusion (program_text cube) /\
  Forall arc_plain (program_text arc_ccw) /\ Forall level_extrusion (program_text arc_ccw).
Proof. exact (conj cube_real plain_samples). Qed.

(** C54 is false behind a G92 with X... *)
Theorem C54_rebased_refuted :
  exists g g' : gcode B64, load_gen false home0 arc_rebased_x = Ok g /\ optimize_arcs g = Ok g' /\
    write g' = ["G92 X5"; "G90"; "M82"; "G1 X10.000 Y0.000 F1200";
      "G3 X-5.000 Y10.000 E0.45057 F1200.000 I-10.001 J-0.001; generated from 9 segments"; "M107"]%string /\
    head (run arc_rebased_x (start home_at0)) X = (-5)%R /\
    head (run ["G92 X5"; "G90"; "M82"; "G1 X10.000 Y0.000 F1200";
      "G3 X-5.000 Y10.000 E0.45057 F1200.000 I-10.001 J-0.001; generated from 9 segments"; "M107"]%string
      (start home_at0)) X = (-10)%R.
Proof. exact arc_rebased_refuted. Qed.
Print Assumptions C54_rebased_refuted.

(** ... and in relative coordinates. *)
Theorem C54_relative_refuted :
  exists g g' : gcode B64, load_gen false home0 arc_relative = Ok g /\ optimize_arcs g = Ok g' /\
    write g' = ["G1 X10.000 Y0 F1200"; "G91"; "G1 X-0.152 Y1.736 E0.05";
      "G3 X0.000 Y10.000 E0.40051 F1200.000 I-9.849 J-1.737; generated from 8 segments"; "M107"]%string /\
    head (run arc_relative (start home_at0)) X = 0%R /\
    head (run ["G1 X10.000 Y0 F1200"; "G91"; "G1 X-0.152 Y1.736 E0.05";
      "G3 X0.000 Y10.000 E0.40051 F1200.000 I-9.849 J-1.737; generated from 8 segments"; "M107"]%string
      (start home_at0)) X = (9848 / 1000)%R.
Proof. exact arc_relative_refuted. Qed.
Print Assumptions C54_relative_refuted.

(** C55 *)
Theorem C55_phase_diff :
  forall a b : R, (- PI <= a <= PI)%R -> (- PI <= b <= PI)%R ->
    (- PI <= phase_diff (A:=RA) a b <= PI)%R /\
    exists k : BinNums.Z, phase_diff (A:=RA) a b = (a - b + 2 * PI * IZR k)%R.
Proof. exact phase_diff_normal. Qed.
Print Assumptions C55_phase_diff.

Example C55_example : (- PI <= - (3 / 4 * PI) <= PI)%R /\ (- PI <= 3 / 4 * PI <= PI)%R.
Proof. pose proof PI_RGT_0. lra. Qed.

(** C77 holds, over the reals, for programs as in C54 in which no move changes
    the height while it extrudes: Z agrees exactly. *)
Theorem C77_level_partial :
  forall home data (g g' : gcode RA), load_gen false home data = Ok g -> optimize_arcs g = Ok g' ->
    Forall arc_plain (program_text data) -> Forall level_extrusion (program_text data) ->
    let k := start (home_of exactR home) in
    keeps_pace near_xyz k k (program_text data) (write g').
Proof. exact arcs_pace_z. Qed.
Print Assumptions C77_level_partial.

(** C77 is false: the height of the first segment is lost. *)
Theorem C77_height_refuted :
  exists g g' : gcode B64, load_gen false home0 arc_lifted = Ok g /\ optimize_arcs g = Ok g' /\
    write g' = ["G90"; "M82"; "G1 X10.000 Y0.000 F1200";
      "G3 X0.000 Y10.000 E0.45057 F1200.000 I-10.001 J-0.001; generated from 9 segments"; "M107"]%string /\
    head (run arc_lifted (start home_at0)) Z = 1%R /\
    head (run ["G90"; "M82"; "G1 X10.000 Y0.000 F1200";
      "G3 X0.000 Y10.000 E0.45057 F1200.000 I-10.001 J-0.001; generated from 9 segments"; "M107"]%string
      (start home_at0)) Z = 0%R.
Proof. exact arc_height_refuted. Qed.
Print Assumptions C77_height_refuted.

(** C94, what holds over the reals: seen from the centre of the arc, no step of
    the run is more than 5 degrees above the mean of the steps.  Missing: steps
    below the mean. *)
Theorem C94_above_partial :
  forall g g' : gcode RA, optimize_arcs g = Ok g' ->
    exists n, replaced spaced n (all_lines g) (all_lines g').
Proof. exact arcs_spaced. Qed.
Print Assumptions C94_above_partial.

(** C94 is false for steps below the mean: clockwise, 8 steps of 5 degrees and
    one of 45 degrees become one arc of radius 10, although half-way through the
    last move the head was less than 9.25 from the centre. *)
Theorem C94_refuted :
  exists g g' : gcode B64, load_gen false home0 arc_cut = Ok g /\ optimize_arcs g = Ok g' /\
    write g' = ["G90"; "M82"; "G1 X10.000 Y0.000 F1200";
      "G2 X0.872 Y-9.962 E-0.44505 F1200.000 I-10.000 J0.000; generated from 9 segments"; "M107"]%string /\
    (distance 0 0 ((7660 + 872) / 2 / 1000) (- (6428 + 9962) / 2 / 1000) < 925 / 100)%R.
Proof. exact arc_spacing_refuted. Qed.
Print Assumptions C94_refuted.

(** C95, what holds over the reals: an arc turns as the first two segments do. *)
Theorem C95_first_partial :
  forall g g' : gcode RA, optimize_arcs g = Ok g' ->
    exists n, replaced turned n (all_lines g) (all_lines g').
Proof. exact arcs_turned. Qed.
Print Assumptions C95_first_partial.

(** C95 is false: 32 degrees to the left and 40 degrees back to the right become
    an arc that turns left, from (30, 0) to a point on the right of it, i.e. by
    352 degrees. *)
Theorem C95_refuted :
  exists g g' : gcode B64, load_gen false home0 arc_hairpin = Ok g /\ optimize_arcs g = Ok g' /\
    write g' = ["G90"; "M82"; "G1 X30.000 Y0.000 F1200";
      "G3 X29.708 Y-4.175 E-0.12566 F1200.000 I-29.998 J0.000; generated from 9 segments"; "M107"]%string /\
    (left_of (2 / 1000) 0 (30, 0) (29708 / 1000, - 4175 / 1000) < 0)%R.
Proof. exact arc_turn_refuted. Qed.
Print Assumptions C95_refuted.

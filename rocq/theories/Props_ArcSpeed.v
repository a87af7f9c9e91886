(** * Property C118: the speed of the arcs *)
From Coq Require Import List String Ascii ZArith Bool Reals.
From Verif Require Import PyBase Arith ArithR ArithB64 Gcoder Filters Arc SpecLoad SpecText SpecMachine SpecFilter SpecArc SpecArcSpeed Samples.
From Verif Require Import P_ArcPath P_ArcSpeed P_MachineRefuted P_ArcSample P_ArcRefuted P_ArcSpeedRefuted.
Import ListNotations.
Local Open Scope list_scope.

(** C118 holds, over the reals, for programs in millimetres in which a speed is
    known at each extruding move: each arc is run at the speed of each of the
    moves it replaces, and every other line at the speed it was run at, to
    0.0005.  Coordinates may be absolute or relative, and re-based.  Missing:
    doubles; inches and unknown speeds, where it is false. *)
Theorem C118_speed_partial :
  forall home data (g g' : gcode RA), load_gen false home data = Ok g -> optimize_arcs g = Ok g' ->
    in_millimetres (program_text data) -> speed_known None (program_text data) ->
    keeps_speed None None (program_text data) (write g').
Proof. exact arcs_speed. Qed.
Print Assumptions C118_speed_partial.

(** So the speed at the end is the same. *)
Theorem C118_end_partial :
  forall home data (g g' : gcode RA), load_gen false home data = Ok g -> optimize_arcs g = Ok g' ->
    in_millimetres (program_text data) -> speed_known None (program_text data) ->
    close_speed (speed_after (program_text data) None) (speed_after (write g') None).
Proof. exact arcs_speed_end. Qed.
Print Assumptions C118_end_partial.

(** the hypotheses: a program over the reals, and one in which an arc is found *)
Example C118_example :
  (exists g g' : gcode RA, load_gen (A:=RA) false home0 cube = Ok g /\ optimize_arcs g = Ok g') /\
  in_millimetres (program_text cube) /\ speed_known None (program_text cube) /\
  in_millimetres (program_text arc_ccw) /\ speed_known None (program_text arc_ccw).
Proof. exact (conj cube_real speed_samples). Qed.

(** Where no F word came before, C118 is false of the code: the arc gets F0,
    and so all that comes after it is to be run at speed zero. *)
Theorem C118_unknown_refuted :
  exists g g' : gcode B64, load_gen false home0 arc_no_speed = Ok g /\ optimize_arcs g = Ok g' /\
    write g' = ["G90"; "M82"; "G1 X10.000 Y0.000";
      "G3 X0.000 Y10.000 E0.45057 F0.000 I-10.001 J-0.001; generated from 9 segments"; "M107"; "G1 X0 Y0"]%string /\
    in_millimetres (program_text arc_no_speed) /\ speed_after (program_text arc_no_speed) None = None /\
    speed_after ["G90"; "M82"; "G1 X10.000 Y0.000";
      "G3 X0.000 Y10.000 E0.45057 F0.000 I-10.001 J-0.001; generated from 9 segments"; "M107"; "G1 X0 Y0"]%string
      None = Some 0%R.
Proof. exact arc_no_speed_refuted. Qed.
Print Assumptions C118_unknown_refuted.

(** In inches it is false of the code, too: the arc is run 25.4 times too fast. *)
Theorem C118_inches_refuted :
  exists g g' : gcode B64, load_gen false home0 arc_inches = Ok g /\ optimize_arcs g = Ok g' /\
    write g' = ["G20"; "G90"; "M82"; "G1 X1.0000 Y0.0000 F50";
      "G3 X0.000 Y25.400 E1.14445 F1270.000 I-25.401 J-0.001; generated from 9 segments"; "M107"]%string /\
    speed_after (program_text arc_inches) None = Some 50%R /\
    speed_after ["G20"; "G90"; "M82"; "G1 X1.0000 Y0.0000 F50";
      "G3 X0.000 Y25.400 E1.14445 F1270.000 I-25.401 J-0.001; generated from 9 segments"; "M107"]%string
      None = Some 1270%R.
Proof. exact arc_inches_refuted. Qed.
Print Assumptions C118_inches_refuted.

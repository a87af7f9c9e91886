(** * P_ArcSpeedRefuted: witnesses and samples for C118 *)
From Coq Require Import List Ascii String ZArith NArith Bool Reals Lra.
From Verif Require Import PyBase Arith ArithR ArithB64 Gcoder Filters Arc SpecLoad SpecText SpecMachine SpecFilter SpecArc SpecArcSpeed Samples.
From Verif Require Import P_Load P_Machine P_MachineRefuted P_FilterRefuted P_ArcErr P_ArcRefuted.
Import ListNotations.
Local Open Scope list_scope.

(** the quarter circle without an F word, and a move after it *)
Definition arc_no_speed : list string :=
  ["G90"; "M82"; "G1 X10.000 Y0.000"; "G1 X9.848 Y1.736 E0.05";
   "G1 X9.397 Y3.420 E0.10"; "G1 X8.660 Y5.000 E0.15"; "G1 X7.660 Y6.428 E0.20"; "G1 X6.428 Y7.660 E0.25";
   "G1 X5.000 Y8.660 E0.30"; "G1 X3.420 Y9.397 E0.35"; "G1 X1.736 Y9.848 E0.40"; "G1 X0.000 Y10.000 E0.45";
   "M107"; "G1 X0 Y0"]%string.

(** a quarter circle in inches *)
Definition arc_inches : list string :=
  ["G20"; "G90"; "M82"; "G1 X1.0000 Y0.0000 F50"; "G1 X0.9848 Y0.1736 E0.005";
   "G1 X0.9397 Y0.3420 E0.010"; "G1 X0.8660 Y0.5000 E0.015"; "G1 X0.7660 Y0.6428 E0.020"; "G1 X0.6428 Y0.7660 E0.025";
   "G1 X0.5000 Y0.8660 E0.030"; "G1 X0.3420 Y0.9397 E0.035"; "G1 X0.1736 Y0.9848 E0.040"; "G1 X0.0000 Y1.0000 E0.045";
   "M107"]%string.

(** the speed of a concrete program *)
Ltac some_speed :=
  cbv -[Rplus Rminus Rmult Rdiv Rinv Ropp IZR pow]; cbn [pow]; apply f_equal; lra.

Lemma arc_no_speed_refuted :
  exists g g' : gcode B64, load_gen false home0 arc_no_speed = Ok g /\ optimize_arcs g = Ok g' /\
    write g' = ["G90"; "M82"; "G1 X10.000 Y0.000";
      "G3 X0.000 Y10.000 E0.45057 F0.000 I-10.001 J-0.001; generated from 9 segments"; "M107"; "G1 X0 Y0"]%string /\
    in_millimetres (program_text arc_no_speed) /\ speed_after (program_text arc_no_speed) None = None /\
    speed_after ["G90"; "M82"; "G1 X10.000 Y0.000";
      "G3 X0.000 Y10.000 E0.45057 F0.000 I-10.001 J-0.001; generated from 9 segments"; "M107"; "G1 X0 Y0"]%string
      None = Some 0%R.
Proof.
  load_and_optimise. split; [repeat (constructor; [vm_compute; discriminate|]); constructor|].
  split; [reflexivity|some_speed].
Qed.

Lemma arc_inches_refuted :
  exists g g' : gcode B64, load_gen false home0 arc_inches = Ok g /\ optimize_arcs g = Ok g' /\
    write g' = ["G20"; "G90"; "M82"; "G1 X1.0000 Y0.0000 F50";
      "G3 X0.000 Y25.400 E1.14445 F1270.000 I-25.401 J-0.001; generated from 9 segments"; "M107"]%string /\
    speed_after (program_text arc_inches) None = Some 50%R /\
    speed_after ["G20"; "G90"; "M82"; "G1 X1.0000 Y0.0000 F50";
      "G3 X0.000 Y25.400 E1.14445 F1270.000 I-25.401 J-0.001; generated from 9 segments"; "M107"]%string
      None = Some 1270%R.
Proof. load_and_optimise. split; some_speed. Qed.

(** *** Samples *)

Lemma speed_samples :
  in_millimetres (program_text cube) /\ speed_known None (program_text cube) /\
  in_millimetres (program_text arc_ccw) /\ speed_known None (program_text arc_ccw).
Proof.
  split; [repeat (constructor; [vm_compute; discriminate|]); constructor|].
  split; [vm_compute; repeat (split; [try exact I; try discriminate|]); exact I|].
  split; [repeat (constructor; [vm_compute; discriminate|]); constructor|].
  vm_compute; repeat (split; [try exact I; try discriminate|]); exact I.
Qed.

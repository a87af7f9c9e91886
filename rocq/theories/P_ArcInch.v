(** * P_ArcInch: an arc in a program in inches (C54) *)
From Coq Require Import List Ascii String ZArith NArith Bool Lia Reals Lra.
From Verif Require Import PyBase Arith ArithR ArithB64 Gcoder Arc SpecText SpecMachine P_MachineRefuted P_FilterRefuted P_ArcRefuted.
Import ListNotations.
Local Open Scope list_scope.

(** a quarter of a circle with radius one inch *)
Definition arc_inch : list string :=
  ["G20"; "G90"; "M82"; "G1 X1.0000 Y0.0000 F47";
   "G1 X0.9848 Y0.1736 E0.005"; "G1 X0.9397 Y0.3420 E0.010"; "G1 X0.8660 Y0.5000 E0.015"; "G1 X0.7660 Y0.6428 E0.020";
   "G1 X0.6428 Y0.7660 E0.025"; "G1 X0.5000 Y0.8660 E0.030"; "G1 X0.3420 Y0.9397 E0.035"; "G1 X0.1736 Y0.9848 E0.040";
   "G1 X0.0000 Y1.0000 E0.045"; "M107"]%string.

Lemma arc_inch_refuted :
  exists g g' : gcode B64, load_gen false home0 arc_inch = Ok g /\ optimize_arcs g = Ok g' /\
    write g' = ["G20"; "G90"; "M82"; "G1 X1.0000 Y0.0000 F47";
      "G3 X0.000 Y25.400 E1.14445 F1193.800 I-25.401 J-0.001; generated from 9 segments"; "M107"]%string /\
    head (run arc_inch (start home_at0)) Y = (254 / 10)%R /\
    head (run ["G20"; "G90"; "M82"; "G1 X1.0000 Y0.0000 F47";
      "G3 X0.000 Y25.400 E1.14445 F1193.800 I-25.401 J-0.001; generated from 9 segments"; "M107"]%string
      (start home_at0)) Y = (64516 / 100)%R.
Proof. load_and_optimise. split; run_machine. Qed.

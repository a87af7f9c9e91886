(** * Property C122: making arcs twice *)
From Coq Require Import List String Ascii ZArith Bool Reals.
From Verif Require Import PyBase Arith ArithR ArithB64 Gcoder Filters Arc SpecLoad SpecText SpecMachine SpecFilter SpecArc Samples.
From Verif Require Import P_ArcAgain P_KeptSample P_MachineRefuted.
Import ListNotations.
Local Open Scope list_scope.

(** C122, every arithmetic: a program in which no arc was found is left alone by
    the second pass as well. *)
Theorem C122_none_partial :
  forall (A : arith) home data (g g' : gcode A), load_gen false home data = Ok g ->
    optimize_arcs g = Ok g' -> write g' = write g ->
    exists h h', load_gen (A:=A) false home (write g') = Ok h /\ optimize_arcs h = Ok h' /\ write h' = write g'.
Proof. exact again_none. Qed.
Print Assumptions C122_none_partial.

(** C122, over the reals: arcs stay as they are if the first pass leaves no more
    than eight moves and comments in a row.  Missing: longer rows, for which
    C122 is false. *)
Theorem C122_short_partial :
  forall home home' data (g g' : gcode RA), load_gen false home data = Ok g ->
    Forall (fun s => feed_ok s = true) (program_text data) -> optimize_arcs g = Ok g' ->
    rows_within 8 8 (all_lines g') = true ->
    exists h h', load_gen (A:=RA) false home' (write g') = Ok h /\ optimize_arcs h = Ok h' /\ write h' = write g'.
Proof. exact again_short. Qed.
Print Assumptions C122_short_partial.

(** the hypotheses of both *)
Example C122_example :
  (exists g g' : gcode RA, load_gen (A:=RA) false home0 cube = Ok g /\ optimize_arcs g = Ok g' /\
    write g' = write g /\ rows_within 8 8 (all_lines g') = true) /\
  Forall (fun s => feed_ok s = true) (program_text cube).
Proof. exact (conj cube_again (proj1 (proj2 kept_feeds))). Qed.

(** C122 is false of the code: arcs are taken for straight moves, so that the
    second pass makes one arc of arcs and of the straight moves between them. *)
Theorem C122_arcs_refuted :
  exists g g' h h' : gcode B64, load_gen false home0 arc_dashed = Ok g /\ optimize_arcs g = Ok g' /\
    load_gen (A:=B64) false home0 (write g') = Ok h /\ optimize_arcs h = Ok h' /\
    write g' = ["G90"; "M82"; "G1 X10.000 Y0.000 F1200";
      "G3 X9.135 Y4.067 E0.20943 F1200.000 I-9.998 J0.001; generated from 8 segments"; "G1 X7.193 Y6.947 E0.38308";
      "G3 X3.746 Y9.272 E0.59250 F1200.000 I-7.202 J-6.960; generated from 8 segments"; "G1 X0.349 Y9.994 E0.76612";
      "G3 X-3.746 Y9.272 E0.97555 F1200.000 I-0.350 J-9.994; generated from 8 segments"; "G1 X-6.691 Y7.431 E1.14918";
      "G3 X-9.135 Y4.067 E1.35862 F1200.000 I6.680 J-7.423; generated from 8 segments"; "G1 X-9.976 Y0.698 E1.53222"; "M107"]%string /\
    write h' = ["G90"; "M82"; "G1 X10.000 Y0.000 F1200";
      "G3 X-9.976 Y0.698 E1.54191 F1200.000 I-10.000 J0.000; generated from 8 segments"; "M107"]%string.
Proof. exact again_refuted. Qed.
Print Assumptions C122_arcs_refuted.

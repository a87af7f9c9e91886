(** * Properties C119 and C120: optimised programs, read again; what arcs are made of *)
From Coq Require Import List String Ascii ZArith Bool Reals.
From Verif Require Import PyBase Arith ArithR ArithB64 Gcoder Filters Arc SpecLoad SpecText SpecMachine SpecFilter SpecArc SpecArcKept SpecBinary64 Samples.
From Verif Require Import P_ArcPath P_ArcReload P_ArcKept P_ArcAny P_KeptSample P_MachineRefuted P_ArcSample P_ArcRefuted.
Import ListNotations.
Local Open Scope list_scope.

(** C119, over the reals: what is written after arcs were made is read line by
    line as it is, without an exception.  Missing: negative feed rates, doubles. *)
Theorem C119_reload_partial :
  forall light home home' data (g g' : gcode RA), load_gen false home data = Ok g ->
    Forall (fun s => feed_ok s = true) (program_text data) -> optimize_arcs g = Ok g' ->
    program_text (write g') = write g' /\ exists h, load_gen (A:=RA) light home' (write g') = Ok h.
Proof. exact arcs_reload. Qed.
Print Assumptions C119_reload_partial.

(** C120, over the reals: all lines other than extruding moves are still there,
    in order and unchanged; the new ones are marked.  Missing: that arcs of the
    original are kept, which is false. *)
Theorem C120_others_partial :
  forall home data (g g' : gcode RA), load_gen false home data = Ok g -> optimize_arcs g = Ok g' ->
    more (fun s => contains "; generated" s = true) (other_texts (all_lines g)) (other_texts (all_lines g')).
Proof. exact arcs_kept. Qed.
Print Assumptions C120_others_partial.

(** the hypotheses: a program over the reals *)
Example C119_C120_example :
  (exists g g' : gcode RA, load_gen (A:=RA) false home0 cube = Ok g /\ optimize_arcs g = Ok g') /\
  Forall (fun s => feed_ok s = true) (program_text cube).
Proof. exact (conj cube_real (proj1 (proj2 kept_feeds))). Qed.

(** C120 for IEEE doubles, in programs with numbers of at most a million. *)
Theorem C120_binary64_partial :
  forall home data (g g' : gcode B64), load_gen false home data = Ok g ->
    Forall modest (program_text data) -> optimize_arcs g = Ok g' ->
    more (fun s => contains "; generated" s = true) (other_texts (all_lines g)) (other_texts (all_lines g')).
Proof. exact arcs_kept_B64. Qed.
Print Assumptions C120_binary64_partial.

Example C120_binary64_example :
  (exists g g' : gcode B64, load_gen false home0 arc_ccw = Ok g /\ optimize_arcs g = Ok g') /\
  Forall modest (program_text arc_ccw).
Proof. exact ccw_modest. Qed.

(** C120 is false for arcs of the original: nine clockwise arcs that bulge
    inwards become one counter-clockwise arc. *)
Theorem C120_arcs_refuted :
  exists g g' : gcode B64, load_gen false home0 arc_given = Ok g /\ optimize_arcs g = Ok g' /\
    write g' = ["G90"; "M82"; "G1 X10.000 Y0.000 F1200";
      "G3 X0.000 Y10.000 E0.45057 F1200.000 I-10.001 J-0.001; generated from 9 segments"; "M107"]%string.
Proof. exact arc_given_refuted. Qed.
Print Assumptions C120_arcs_refuted.

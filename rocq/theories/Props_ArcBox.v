(** * Props_ArcBox: the measured box of a program with arcs (C123) *)
From Coq Require Import List String Reals.
From Verif Require Import PyBase Arith ArithR ArithB64 Gcoder Filters Arc SpecText SpecLoad SpecMachine SpecFilter SpecArc SpecArcBox Samples.
From Verif Require Import P_ArcRefuted P_ArcBox P_ArcBoxSample.
Import ListNotations.

(** C123, over the reals, for programs in absolute coordinates, in millimetres
    and in relative extrusion: the box measured in the optimised program is, up
    to the rounding of a word, within the box of the original.  Missing:
    relative coordinates, inches, G92 of X, Y or E; absolute extrusion, where it
    is false; and that the two boxes are the same, which is false. *)
Theorem C123_within_partial :
  forall home data (g g' : gcode RA), load_gen false home data = Ok g ->
    Forall (fun s => feed_ok s = true) (program_text data) -> optimize_arcs g = Ok g' ->
    Forall arc_plain (program_text data) -> fed_relatively (program_text data) -> Forall no_rebase_e (program_text data) ->
    exists h : gcode RA, load_gen false home (write g') = Ok h /\
      ((0 < g_filament g)%R -> (0 < g_filament h)%R ->
       (g_xmin g - / 2000 <= g_xmin h)%R /\ (g_xmax h <= g_xmax g + / 2000)%R /\
       (g_ymin g - / 2000 <= g_ymin h)%R /\ (g_ymax h <= g_ymax g + / 2000)%R).
Proof. exact arcs_box. Qed.
Print Assumptions C123_within_partial.

(** the hypotheses: a program over the reals that prints, and one in which an
    arc is found *)
Example C123_example :
  (exists g g' h : gcode RA, load_gen (A:=RA) false home0 cube_rel = Ok g /\ optimize_arcs g = Ok g' /\
     load_gen false home0 (write g') = Ok h /\ (0 < g_filament g)%R /\ (0 < g_filament h)%R) /\
  (fed_relatively (program_text cube_rel) /\ fed_relatively (program_text arc_rel_e)) /\
  (Forall arc_plain (program_text cube_rel) /\ Forall no_rebase_e (program_text cube_rel) /\
   Forall (fun s => feed_ok s = true) (program_text cube_rel)) /\
  Forall arc_plain (program_text arc_rel_e) /\ Forall no_rebase_e (program_text arc_rel_e) /\
  Forall (fun s => feed_ok s = true) (program_text arc_rel_e).
Proof. exact (conj box_sample (conj fed_samples rel_texts)). Qed.

(** C123 is false of the code: the bulge of an arc is not measured.  The program
    prints up to X 9.962, and so does the arc; its box ends at X 7.071. *)
Theorem C123_bulge_refuted :
  exists g g' h : gcode B64, load_gen false home0 arc_bulge = Ok g /\ optimize_arcs g = Ok g' /\
    load_gen false home0 (write g') = Ok h /\
    write g' = ["G90"; "M83"; "G1 X7.071 Y-7.071 F1200";
      "G3 X7.071 Y7.071 E0.45057 F1200.000 I-7.072 J7.071; generated from 9 segments"; "M107"]%string /\
    n_eqb (g_xmax g) (lit 9962 3) = true /\ n_eqb (g_xmax h) (lit 7071 3) = true.
Proof. exact bulge_refuted. Qed.
Print Assumptions C123_bulge_refuted.

(** In absolute extrusion the box can also grow: a clockwise arc moves the
    extruder back (C53), so that a later move that printed nothing prints all
    the way to X 50. *)
Theorem C123_absolute_refuted :
  exists g g' h : gcode B64, load_gen false home0 arc_away = Ok g /\ optimize_arcs g = Ok g' /\
    load_gen false home0 (write g') = Ok h /\
    write g' = ["G90"; "M82"; "G1 X10.000 Y0.000 F1200";
      "G2 X0.000 Y-10.000 E-0.45057 F1200.000 I-10.001 J0.001; generated from 9 segments"; "M107";
      "G1 X50.000 Y0.000 E0.45"]%string /\
    n_eqb (g_xmax g) (lit 9848 3) = true /\ n_eqb (g_xmax h) (lit 50 0) = true.
Proof. exact away_refuted. Qed.
Print Assumptions C123_absolute_refuted.

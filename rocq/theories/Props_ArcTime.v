(** * Properties C119 and C128: reading optimised programs again; the time arcs take *)
From Coq Require Import List String NArith.
From Verif Require Import PyBase Arith ArithB64 Gcoder Filters Arc SpecLoad SpecArcTime Samples
  P_ArcBox P_ArcReloadRefuted P_ArcTime P_ArcTimeSample.
Import ListNotations.

(** C119 is false of the code, in doubles, where feed rates may be negative: a
    program with F-60 before a quarter of a circle and F60 after it is loaded
    and optimised, and what is written can no longer be loaded. *)
Theorem C119_backward_refuted :
  exists g g' : gcode B64, load_gen false home0 arc_backward = Ok g /\ optimize_arcs g = Ok g' /\
    write g' = ["G90"; "M83"; "G1 X7.071 Y-7.071 F-60";
      "G3 X7.071 Y7.071 E0.45057 F1200.000 I-7.072 J7.071; generated from 9 segments"; "G1 X20 Y-20 F60"]%string /\
    load_gen (A:=B64) false home0 (write g') = Err ZeroDivisionError.
Proof. exact arc_backward_refuted. Qed.
Print Assumptions C119_backward_refuted.

(** C128 is false of the code, in every arithmetic: arcs take no time at all. A
    program lasts exactly as long as it does without its G2 and G3 moves. *)
Theorem C128_timeless_refuted :
  forall (A : arith) light home data (g : gcode A), load_gen light home data = Ok g ->
    exists g', load_gen light home (without_arcs data) = Ok g' /\ g_total g' = g_total g.
Proof. exact @arcs_timeless. Qed.
Print Assumptions C128_timeless_refuted.

(** C128, in doubles: a quarter of a circle that takes more than a second takes
    less than 0.8 seconds once it has been made an arc, written and read again. *)
Theorem C128_optimised_refuted :
  exists g g' h : gcode B64, load_gen false home0 arc_bulge = Ok g /\ optimize_arcs g = Ok g' /\
    load_gen false home0 (write g') = Ok h /\
    n_ltb (lit 10 1) (g_total g) = true /\ n_ltb (g_total h) (lit 8 1) = true.
Proof. exact hurry_refuted. Qed.
Print Assumptions C128_optimised_refuted.

(** a program of five lines, one of them an arc, is loaded *)
Example C128_example : arcs_loaded = true.
Proof. exact arcs_loaded_true. Qed.

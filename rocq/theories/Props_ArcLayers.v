(** * Property C121: arcs leave the layers alone *)
From Coq Require Import List String Ascii ZArith Bool Reals.
From Verif Require Import PyBase Arith ArithR ArithB64 Gcoder Filters Arc SpecLoad SpecText SpecMachine SpecFilter SpecArc SpecArcKept Samples.
From Verif Require Import P_ArcReload P_ArcLayers P_KeptSample P_MachineRefuted P_ArcSample P_ArcRefuted.
Import ListNotations.
Local Open Scope list_scope.

(** C121, over the reals, if no extruding move has a Z word: the optimised
    program has the layers of the original, at the same heights and with the
    same lines, but for one or two generated lines in the place of at least
    eight.  Missing: negative feed rates, doubles. *)
Theorem C121_layers_partial :
  forall home home' data (g g' : gcode RA), load_gen false home data = Ok g ->
    Forall (fun s => feed_ok s = true) (program_text data) -> optimize_arcs g = Ok g' ->
    Forall level_extrusion (program_text data) ->
    exists h, load_gen (A:=RA) false home' (write g') = Ok h /\ layers_swapped g h.
Proof. exact arcs_layers. Qed.
Print Assumptions C121_layers_partial.

(** the hypotheses: a program over the reals *)
Example C121_example :
  (exists g g' : gcode RA, load_gen (A:=RA) false home0 cube = Ok g /\ optimize_arcs g = Ok g') /\
  Forall (fun s => feed_ok s = true) (program_text cube) /\ Forall level_extrusion (program_text cube).
Proof. exact (conj cube_real (conj (proj1 (proj2 kept_feeds)) (proj1 (proj2 plain_samples)))). Qed.

(** C121 is false if an extruding move has a Z word: the move is swallowed by
    the arc, and with it the layer it started. *)
Theorem C121_height_refuted :
  exists g g' : gcode B64, load_gen false home0 arc_lifted = Ok g /\ optimize_arcs g = Ok g' /\
    List.length (g_layers g) = 3 /\
    exists h, load_gen (A:=B64) false home0 (write g') = Ok h /\ List.length (g_layers h) = 2.
Proof. exact arc_layers_refuted. Qed.
Print Assumptions C121_height_refuted.

(** * Properties C113 and C114: filtered programs, read again *)
From Coq Require Import List String Reals.
From Verif Require Import PyBase Arith ArithR ArithB64 Gcoder Filters SpecText SpecLoad SpecMachine SpecMeasure SpecFilter SpecMod SpecBinary64 SpecBox SpecLayersKept Samples.
From Verif Require Import P_Load P_FilterRefuted P_LayersKeptNum P_ComposeSample P_BoxSample P_Reload P_KeptSample.
Import ListNotations.
Local Open Scope list_scope.

(** C113, exact arithmetic: a translated program, read again, has the layers of
    the original; with E words of at most five decimals the same lines print, at
    the same heights, with the same filament.  Missing: inches, Z words with
    more than three decimals (C113 is false there). *)
Theorem C113_translated_partial :
  forall home home' data x y (g g1 h : gcode RA), load_gen false home data = Ok g ->
    translate x y g = Ok g1 -> load_gen false home' (write g1) = Ok h -> metric (program_text data) ->
    Forall (short_word 3 "z") (program_text data) ->
    same_layers g h /\
    (Forall (short_word 5 "e") (program_text data) -> same_printing g h /\ same_heights g h /\ g_filament h = g_filament g).
Proof. exact translate_layers_R. Qed.
Print Assumptions C113_translated_partial.

(** ... and so has a program converted to relative extrusion, where the same
    lines print if each moves the extruder by more than 1/100000. *)
Theorem C113_converted_partial :
  forall home data (g g1 h : gcode RA), load_gen false home data = Ok g ->
    to_relative_extrusion g = Ok g1 -> load_gen false home (write g1) = Ok h -> e_ready (program_text data) = true ->
    Forall (short_word 3 "z") (program_text data) ->
    same_layers g h /\
    (Forall no_rebase_e (program_text data) -> sharp (program_text data) (start (home_of exactR home)) ->
     same_printing g h /\ same_heights g h).
Proof. exact relative_layers_full. Qed.
Print Assumptions C113_converted_partial.

Example C113_example :
  (exists g g1 h g2 k : gcode RA, load_gen (A:=RA) false home0 corner = Ok g /\
     translate (A:=RA) (Some 7%R) (Some 9%R) g = Ok g1 /\ load_gen false home0 (write g1) = Ok h /\
     to_relative_extrusion g = Ok g2 /\ load_gen false home0 (write g2) = Ok k) /\
  metric (program_text corner) /\ e_ready (program_text corner) = true /\
  Forall (fun s => feed_ok s = true) (program_text corner) /\
  Forall (short_word 3 "z") (program_text corner) /\ Forall (short_word 5 "e") (program_text corner) /\
  Forall no_rebase_e (program_text corner) /\ sharp (program_text corner) (start (home_of exactR home0)).
Proof. exact (conj corner_real corner_shape). Qed.

(** C113 for IEEE doubles, numbers of at most a million: the heights, the
    layers and the amount of filament are the same to the last bit. *)
Theorem C113_binary64_partial :
  forall home home' data x y (g g1 h : gcode B64), load_gen false home data = Ok g ->
    translate x y g = Ok g1 -> load_gen false home' (write g1) = Ok h -> metric (program_text data) ->
    Forall modest (program_text data) -> modest_shift x -> modest_shift y ->
    Forall (short_word 3 "z") (program_text data) ->
    same_layers g h /\
    (Forall (short_word 5 "e") (program_text data) -> same_printing g h /\ same_heights g h /\ g_filament h = g_filament g).
Proof. exact translate_layers_B64. Qed.
Print Assumptions C113_binary64_partial.

(** Missing here: that the same lines print. *)
Theorem C113_binary64_converted_partial :
  forall home home' data (g g1 h : gcode B64), load_gen false home data = Ok g ->
    to_relative_extrusion g = Ok g1 -> load_gen false home' (write g1) = Ok h -> metric (program_text data) ->
    Forall modest (program_text data) -> Forall (short_word 3 "z") (program_text data) ->
    same_layers g h /\ (same_printing g h -> same_heights g h).
Proof. exact relative_layers_B64. Qed.
Print Assumptions C113_binary64_converted_partial.

Example C113_binary64_example :
  load_gen false home0 cube = Ok cubeF /\
  (exists g1 h : gcode B64, translate (some_num 10) (some_num 20) cubeF = Ok g1 /\ load_gen false home0 (write g1) = Ok h) /\
  (exists g1 h : gcode B64, to_relative_extrusion cubeF = Ok g1 /\ load_gen false home0 (write g1) = Ok h) /\
  metric (program_text cube) /\ Forall modest (program_text cube) /\
  Forall (fun s => feed_ok s = true) (program_text cube) /\
  Forall (short_word 3 "z") (program_text cube) /\ Forall (short_word 5 "e") (program_text cube).
Proof. exact (conj cubeF_loaded (conj cubeF_moved (conj cubeF_fed cube_shape))). Qed.

(** C113 is false for heights of more than three decimals: one layer becomes
    two, because only some of the lines are written anew. *)
Theorem C113_fine_refuted : exists g g1 h g2 k : gcode B64, load_gen false home0 fine = Ok g /\
  translate (some_num 5) None g = Ok g1 /\ load_gen false home0 (write g1) = Ok h /\
  to_relative_extrusion g = Ok g2 /\ load_gen false home0 (write g2) = Ok k /\
  (List.length (g_layers g) < List.length (g_layers h))%nat /\ (List.length (g_layers g) < List.length (g_layers k))%nat.
Proof. exact fine_refuted. Qed.
Print Assumptions C113_fine_refuted.

(** C114, exact arithmetic: what is written after a translation can be read
    again.  Missing: negative feed rates (C114 is false there). *)
Theorem C114_translated_partial :
  forall (A : arith) (E : exact A) light home home' data x y (g g1 : gcode A), load_gen false home data = Ok g ->
    Forall (fun s => feed_ok s = true) (program_text data) -> translate x y g = Ok g1 ->
    exists h, load_gen (A:=A) light home' (write g1) = Ok h.
Proof. exact @translate_reload. Qed.
Print Assumptions C114_translated_partial.

(** ... and after a conversion to relative extrusion. *)
Theorem C114_converted_partial :
  forall (A : arith) (E : exact A) light home home' data (g g1 : gcode A), load_gen false home data = Ok g ->
    Forall (fun s => feed_ok s = true) (program_text data) -> to_relative_extrusion g = Ok g1 ->
    exists h, load_gen (A:=A) light home' (write g1) = Ok h.
Proof. exact @relative_reload. Qed.
Print Assumptions C114_converted_partial.

(** C114 for IEEE doubles, programs in millimetres with numbers of at most a
    million. *)
Theorem C114_binary64_translated_partial :
  forall light home home' data x y (g g1 : gcode B64), load_gen false home data = Ok g ->
    Forall (fun s => feed_ok s = true) (program_text data) -> metric (program_text data) -> Forall modest (program_text data) ->
    modest_shift x -> modest_shift y -> translate x y g = Ok g1 -> exists h, load_gen (A:=B64) light home' (write g1) = Ok h.
Proof. exact translate_reload_B64. Qed.
Print Assumptions C114_binary64_translated_partial.

Theorem C114_binary64_converted_partial :
  forall light home home' data (g g1 : gcode B64), load_gen false home data = Ok g ->
    Forall (fun s => feed_ok s = true) (program_text data) -> metric (program_text data) -> Forall modest (program_text data) ->
    to_relative_extrusion g = Ok g1 -> exists h, load_gen (A:=B64) light home' (write g1) = Ok h.
Proof. exact relative_reload_B64. Qed.
Print Assumptions C114_binary64_converted_partial.

(** The hypotheses are met by the programs of [C113_example] and
    [C113_binary64_example]. *)
Example C114_example :
  Forall (fun s => feed_ok s = true) (program_text corner) /\ Forall (fun s => feed_ok s = true) (program_text cube) /\
  modest_shift (some_num 10) /\ modest_shift (some_num 20).
Proof. exact kept_feeds. Qed.

(** C114 is false for negative feed rates: the original loads, the written
    program makes the loader divide by zero. *)
Theorem C114_backward_refuted : exists g g1 g2 : gcode B64, load_gen false home0 backward = Ok g /\
  translate (some_num 5) None g = Ok g1 /\ load_gen (A:=B64) false home0 (write g1) = Err ZeroDivisionError /\
  to_relative_extrusion g = Ok g2 /\ load_gen (A:=B64) false home0 (write g2) = Err ZeroDivisionError.
Proof. exact backward_refuted. Qed.
Print Assumptions C114_backward_refuted.

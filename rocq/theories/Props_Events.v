(** * Properties C102-C104: callbacks, loading again, the report *)
From Coq Require Import List String ZArith NArith Bool Reals.
From Verif Require Import PyBase Arith ArithQ ArithB64 Gcoder Events Summary.
From Verif Require Import SpecText SpecLoad SpecMachine SpecBinary64 SpecEvents SpecSummary Samples.
From Verif Require Import P_Load P_Machine P_MachineRefuted P_Events P_Summary.
Import ListNotations.
Local Open Scope list_scope.

(** C102, what holds: while a program is loaded the line callback gets every
    parsed line once and in order, and the layer callback the number of every
    layer but the last, once, between the last line of the layer and the first
    line of the next.  Missing: the last layer ([C102_layer_refuted]). *)
Theorem C102_calls_partial :
  forall (A : arith) home data (g : gcode A), load_gen false home data = Ok g ->
    exists Y, g_layers g = Y ++ [Layer [] None n0] /\
      load_calls false home data = announced 0 (map ly_lines Y).
Proof. exact @load_calls_heavy. Qed.
Print Assumptions C102_calls_partial.

(** ... for LightGCode too, as far as the texts of the lines go. *)
Theorem C102_texts_partial :
  forall (A : arith) light home data (g : gcode A), load_gen light home data = Ok g ->
    exists Y, g_layers g = Y ++ [Layer [] None n0] /\
      map (event_map raw) (load_calls light home data) = announced 0 (map (fun y => map raw (ly_lines y)) Y).
Proof. exact @load_calls_text. Qed.
Print Assumptions C102_texts_partial.

(** If loading raises, the line callback has seen the lines before the one that
    raised. *)
Theorem C102_prefix :
  forall (A : arith) light home data, exists n,
    map raw (lines_seen (load_calls (A:=A) light home data)) = firstn n (program_text data) /\
    (is_ok (load_gen (A:=A) light home data) = true <-> n = List.length (program_text data)).
Proof. exact @load_calls_prefix. Qed.
Print Assumptions C102_prefix.

Example C102_example :
  load_gen (A:=B64) false home0 cube = Ok cubeF /\ List.length (lines_seen (load_calls (A:=B64) false home0 cube)) = 12.
Proof. split; [exact cubeF_loaded|vm_compute; reflexivity]. Qed.

(** The last layer is never announced: of n layers and the append layer the
    callback gets 0 to n - 2, whatever the program. *)
Theorem C102_layer :
  forall (A : arith) light home data (g : gcode A), load_gen light home data = Ok g ->
    layers_seen (load_calls light home data) = seq 0 (List.length (g_layers g) - 2).
Proof. exact @load_calls_layers. Qed.
Print Assumptions C102_layer.

Theorem C102_layer_refuted : exists g : gcode B64,
  load_gen false home0 cube = Ok g /\ List.length (g_layers g) = 4 /\
  layers_seen (load_calls (A:=B64) false home0 cube) = [0; 1].
Proof. exact last_layer_refuted. Qed.
Print Assumptions C102_layer_refuted.

(** C103, what holds: an object made with deferred=True and prepared is the
    program one gets at once... *)
Theorem C103_deferred :
  forall (A : arith) light home data,
    prepare (A:=A) (deferred light) (Some home) data = load_gen light home data.
Proof. exact @prepare_new. Qed.
Print Assumptions C103_deferred.

(** ... preparing any object replaces its lines, layers and indices... *)
Theorem C103_replaced :
  forall (A : arith) (g g' : gcode A) home data, prepare g home data = Ok g' ->
    write g' = program_text data /\ consistent g'.
Proof. exact @prepare_consistent. Qed.
Print Assumptions C103_replaced.

(** ... but the positions are those of a machine that executes the first program
    before the second.  Missing: that it starts anew ([C103_again_refuted]). *)
Theorem C103_state_partial :
  forall (A : arith) (E : exact A) light home first (g : gcode A) second g',
    load_gen light home first = Ok g -> prepare g None second = Ok g' ->
    Forall clear_words (program_text first) -> Forall clear_words (program_text second) ->
    tracks E (g_m g') (run (program_text first ++ program_text second) (start (home_of E home))) /\
    (light = false -> forall i l, nth_error (g_lines g') i = Some l -> command l <> None ->
       notes_head E l (run (program_text first ++ firstn (S i) (program_text second)) (start (home_of E home)))).
Proof. exact @prepare_tracks. Qed.
Print Assumptions C103_state_partial.

Example C103_example :
  load_gen (A:=QA) false home0 ["G91"; "G1 X1"]%string = Ok (get empty_program (load_gen (A:=QA) false home0 ["G91"; "G1 X1"]%string)) /\
  is_ok (prepare (get empty_program (load_gen (A:=QA) false home0 ["G91"; "G1 X1"]%string)) None ["G1 X5"]%string) = true /\
  Forall clear_words (program_text ["G91"; "G1 X1"]%string) /\ Forall clear_words (program_text ["G1 X5"]%string).
Proof.
  split; [apply is_ok_get; vm_compute; reflexivity|]. split; [vm_compute; reflexivity|].
  split; repeat (constructor; [exact I|]); constructor.
Qed.

(** The second program is read in the modes, at the position and with the
    extruded length of the first. *)
Theorem C103_again_refuted : exists g g' h : gcode B64,
  load_gen false home0 ["G91"; "G1 X1"; "G1 X1"]%string = Ok g /\
  prepare g None ["G1 X5 E1"; "G1 X6 E2"]%string = Ok g' /\
  load_gen false home0 ["G1 X5 E1"; "G1 X6 E2"]%string = Ok h /\
  n_eqb (g_xmax g') (lit 13 0) = true /\ n_eqb (g_xmax h) (lit 6 0) = true /\
  n_eqb (g_filament g') (lit 3 0) = true /\ n_eqb (g_filament h) (lit 2 0) = true.
Proof. exact prepare_leaks_refuted. Qed.
Print Assumptions C103_again_refuted.

(** C104: the report of a program tells its measures to half a hundredth, the
    number of its heights and its duration in whole seconds; exact
    arithmetic... *)
Theorem C104_report :
  forall (A : arith) (E : exact A) (g : gcode A) n, g_duration g = Z.of_N n ->
    let v := val E in
    reports (summary g)
      (Measures (v (g_xmin g)) (v (g_xmax g)) (v (g_xmax g) - v (g_xmin g))
         (v (g_ymin g)) (v (g_ymax g)) (v (g_ymax g) - v (g_ymin g))
         (v (g_zmin g)) (v (g_zmax g)) (v (g_zmax g) - v (g_zmin g))
         (v (g_filament g)) (N.of_nat (List.length (g_zs g))) n).
Proof. exact @summary_exact. Qed.
Print Assumptions C104_report.

Example C104_example :
  g_duration cubeQ = 2%Z /\ nth 1 (summary cubeQ) ""%string = (tab ++ "X: 10.00 - 20.00 (10.00)")%string.
Proof. split; vm_compute; reflexivity. Qed.

(** ... and doubles. *)
Theorem C104_binary64 :
  forall (g : gcode B64) n, g_duration g = Z.of_N n ->
    Forall fin [g_xmin g; g_xmax g; g_width g; g_ymin g; g_ymax g; g_depth g; g_zmin g; g_zmax g; g_height g; g_filament g] ->
    reports (summary g)
      (Measures (fval (g_xmin g)) (fval (g_xmax g)) (fval (g_width g)) (fval (g_ymin g)) (fval (g_ymax g)) (fval (g_depth g))
         (fval (g_zmin g)) (fval (g_zmax g)) (fval (g_height g)) (fval (g_filament g)) (N.of_nat (List.length (g_zs g))) n).
Proof. exact summary_B64. Qed.
Print Assumptions C104_binary64.

Example C104_binary64_example :
  g_duration cubeF = 2%Z /\
  Forall fin [g_xmin cubeF; g_xmax cubeF; g_width cubeF; g_ymin cubeF; g_ymax cubeF; g_depth cubeF;
              g_zmin cubeF; g_zmax cubeF; g_height cubeF; g_filament cubeF].
Proof. split; [vm_compute; reflexivity|]. repeat (constructor; [split; vm_compute; reflexivity|]). constructor. Qed.

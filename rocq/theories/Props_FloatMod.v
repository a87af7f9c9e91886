(** * Properties C33 (the extruder), C105 and C106 for IEEE doubles

    The same claims as in Props_Mod, for the numbers the code really computes
    with.  The reference machine reads both programs exactly. *)
From Coq Require Import List String Ascii ZArith Bool Reals.
From Verif Require Import PyBase Arith ArithB64 Gcoder Filters Visit.
From Verif Require Import SpecLoad SpecText SpecMachine SpecFilter SpecVisit SpecMod SpecBinary64 Samples.
From Verif Require Import P_MachineRefuted P_FilterRefuted P_FloatTempcal P_FloatMod.
Import ListNotations.
Local Open Scope list_scope.

(** C33, the extruder, with doubles.  Missing: what is missing from
    [C33_drift_partial]; numbers beyond a million. *)
Theorem C33_binary64_drift_partial :
  forall home data x y (g g' : gcode B64) h,
    load_gen false home data = Ok g -> translate x y g = Ok g' ->
    Forall settled (program_text data) -> Forall modest (program_text data) ->
    modest_shift x -> modest_shift y ->
    forall i, (Rabs (extruder (run (firstn i (write g')) (start h)) -
                     extruder (run (firstn i (program_text data)) (start h)))
                 <= INR (e_count (firstn i (program_text data))) * (/ 200000 + / 10 ^ 9))%R.
Proof. exact translate_drift_B64. Qed.
Print Assumptions C33_binary64_drift_partial.

Example C33_binary64_drift_example :
  load_gen (A:=B64) false home0 cube = Ok cubeF /\ (exists g', translate (some_num 10) (some_num 250) cubeF = Ok g') /\
  Forall settled (program_text cube) /\ Forall modest (program_text cube) /\
  modest_shift (some_num 10) /\ modest_shift (some_num 250) /\ e_count (program_text cube) = 5.
Proof.
  split; [exact cubeF_loaded|]. split; [apply P_Filter.translate_total|].
  split; [repeat (constructor; [first [exact I|reflexivity]|]); constructor|].
  split; [apply modest_all; vm_compute; reflexivity|].
  split; [apply modest_shift_num; vm_compute; reflexivity|].
  split; [apply modest_shift_num; vm_compute; reflexivity|]. vm_compute. reflexivity.
Qed.

(** C105 with doubles, when no number of the program is beyond a million *)
Theorem C105_binary64_head_partial :
  forall home data (g g' : gcode B64) h,
    load_gen false home data = Ok g -> to_relative_extrusion g = Ok g' ->
    metric (program_text data) -> Forall modest (program_text data) ->
    forall i a, (Rabs (head (run (firstn i (write g')) (start h)) a -
                       head (run (firstn i (program_text data)) (start h)) a)
                   <= INR (drive_count a (firstn i (program_text data))) * (/ 2000 + / 10 ^ 9))%R.
Proof. exact relative_head_B64. Qed.
Print Assumptions C105_binary64_head_partial.

Theorem C105_binary64_fixed_partial :
  forall home data (g g' : gcode B64) h a,
    load_gen false home data = Ok g -> to_relative_extrusion g = Ok g' ->
    metric (program_text data) -> Forall modest (program_text data) -> fixed_axis a (program_text data) ->
    forall i, (Rabs (head (run (firstn i (write g')) (start h)) a -
                     head (run (firstn i (program_text data)) (start h)) a) <= / 2000 + / 10 ^ 9)%R.
Proof. exact relative_head_fixed_B64. Qed.
Print Assumptions C105_binary64_fixed_partial.

Example C105_binary64_example :
  load_gen (A:=B64) false home0 cube = Ok cubeF /\ (exists g', to_relative_extrusion cubeF = Ok g') /\
  metric (program_text cube) /\ Forall modest (program_text cube) /\
  (forall a, fixed_axis a (program_text cube)) /\ drive_count Y (program_text cube) = 4.
Proof.
  split; [exact cubeF_loaded|]. split; [apply P_Filter.relative_total|].
  split; [repeat (constructor; [discriminate|]); constructor|].
  split; [apply modest_all; vm_compute; reflexivity|].
  split; [|vm_compute; reflexivity].
  intros []; repeat (constructor; [first [exact I|split; reflexivity]|]); constructor.
Qed.

(** C106 with doubles.  Missing: what is missing from [C106_mod_partial];
    numbers beyond a million. *)
Theorem C106_binary64_partial :
  forall (o : mod_options (A:=B64)) data out,
    gcode_mod o data = Ok out ->
    declared (program_text data) = true -> (forall a, t_run a Homed (program_text data) <> None) ->
    (o_e o = true -> m_ready (program_text data) = true) ->
    Forall modest (program_text data) -> modest_shift (o_x o) -> modest_shift (o_y o) ->
    exists out0 n, with_pauses n out0 out /\ (o_p o = None -> n = 0) /\
      List.length out0 = List.length (program_text data) /\
      forall i,
        (forall a, exists p, t_run a Homed (firstn i (program_text data)) = Some p /\
          (Rabs (head (run (firstn i out0) (start (fun _ => 0))) a -
                 (head (run (firstn i (program_text data)) (start (fun _ => 0))) a +
                  (if moved p then fshift_amount (o_x o) (o_y o) a else 0))) <= / 1000 + / 10 ^ 9)%R) /\
        (Rabs (extruder (run (firstn i out0) (start (fun _ => 0))) -
               extruder (run (firstn i (program_text data)) (start (fun _ => 0))))
           <= INR (e_count (firstn i (program_text data))) * (/ 200000 + / 10 ^ 9))%R.
Proof. exact mod_moves_B64. Qed.
Print Assumptions C106_binary64_partial.

Example C106_binary64_example :
  gcode_mod (A:=B64) (ModOptions (A:=B64) (some_num 5) None true (Some 1%Z)) cube =
    Ok ["; sample"; "G28"; "G90"; "M83"; "G92 X-5.000 Y-0.000 E0.00000"; "G1 Z0.3 F1200"; "G1 X10.000 Y10.000 E1.00000";
        "G1 X20.000 Y10.000 E1.50000"; "M226"; "G1 Z0.6"; "G1 X20.000 Y20.000 E1.50000"; "M104 S200";
        "G1 X10.000 Y20.000 E1.00000"]%string /\
  declared (program_text cube) = true /\ (forall a, t_run a Homed (program_text cube) <> None) /\
  m_ready (program_text cube) = true /\ Forall modest (program_text cube) /\ modest_shift (some_num 5).
Proof.
  split; [vm_compute; reflexivity|]. split; [vm_compute; reflexivity|].
  split; [intros []; vm_compute; discriminate|]. split; [vm_compute; reflexivity|].
  split; [apply modest_all; vm_compute; reflexivity|]. apply modest_shift_num. vm_compute. reflexivity.
Qed.

(** * Properties C33 (the extruder), C105 and C106: what conversion, translation
    and gcode_mod leave alone *)
From Coq Require Import List String Ascii QArith ZArith Bool Reals.
From Verif Require Import PyBase Arith ArithQ ArithR ArithB64 Gcoder Filters Visit.
From Verif Require Import SpecLoad SpecText SpecMachine SpecFilter SpecVisit SpecMod Samples.
From Verif Require Import P_MachineRefuted P_FilterRefuted P_Mod.
Import ListNotations.
Local Open Scope nat_scope.
Local Open Scope list_scope.

(** C33, the extruder: in every program without inches and without a G92 that
    has no words, whatever its modes, a translation moves the extruder by at
    most half a unit of the fifth decimal per E word obeyed so far. *)
Theorem C33_drift_partial :
  forall (A : arith) (E : exact A) home data x y (g g' : gcode A) h,
    load_gen false home data = Ok g -> translate x y g = Ok g' -> Forall settled (program_text data) ->
    forall i, (Rabs (extruder (run (firstn i (write g')) (start h)) -
                     extruder (run (firstn i (program_text data)) (start h)))
                 <= INR (e_count (firstn i (program_text data))) * / 200000)%R.
Proof. exact @translate_drift. Qed.
Print Assumptions C33_drift_partial.

(** A G92 without words does not reset the extruder any more. *)
Theorem C33_bare_refuted :
  exists g g' : gcode B64,
    load_gen false home0 ["G90"; "G1 E5"; "G92"; "G1 E5"]%string = Ok g /\
    translate (some_num 10) None g = Ok g' /\
    write g' = ["G90"; "G1 E5"; "G92 X-10.000 Y-0.000"; "G1 E5"]%string /\
    extruder (run ["G90"; "G1 E5"; "G92"; "G1 E5"]%string (start (fun _ => 0%R))) = 10%R /\
    extruder (run ["G90"; "G1 E5"; "G92 X-10.000 Y-0.000"; "G1 E5"]%string (start (fun _ => 0%R))) = 5%R.
Proof. exact tr_bare_refuted. Qed.
Print Assumptions C33_bare_refuted.

Example C33_drift_example :
  load_gen (A:=QA) false home0 cube = Ok cubeQ /\ (exists g', translate (A:=QA) (Some 5%Q) None cubeQ = Ok g') /\
  Forall settled (program_text cube) /\ e_count (program_text cube) = 5 /\
  Forall settled rebasing /\ e_count rebasing = 8.
Proof.
  split; [exact cubeQ_loaded|]. split; [apply P_Filter.translate_total|].
  split; [repeat (constructor; [first [exact I|reflexivity]|]); constructor|]. split; [vm_compute; reflexivity|].
  split; [repeat (constructor; [first [exact I|reflexivity]|]); constructor|]. vm_compute; reflexivity.
Qed.

(** C105: converting to relative extrusion leaves the head where it was, up to
    half a thousandth for each move of the axis so far, in every program
    without inches... *)
Theorem C105_head :
  forall (A : arith) (E : exact A) home data (g g' : gcode A) h,
    load_gen false home data = Ok g -> to_relative_extrusion g = Ok g' -> metric (program_text data) ->
    forall i a, (Rabs (head (run (firstn i (write g')) (start h)) a -
                       head (run (firstn i (program_text data)) (start h)) a)
                   <= INR (drive_count a (firstn i (program_text data))) * / 2000)%R.
Proof. exact @relative_head. Qed.
Print Assumptions C105_head.

(** ... and up to half a thousandth in all on an axis that is driven in
    absolute mode and whose logical position is never set. *)
Theorem C105_fixed :
  forall (A : arith) (E : exact A) home data (g g' : gcode A) h a,
    load_gen false home data = Ok g -> to_relative_extrusion g = Ok g' -> metric (program_text data) ->
    fixed_axis a (program_text data) ->
    forall i, (Rabs (head (run (firstn i (write g')) (start h)) a -
                     head (run (firstn i (program_text data)) (start h)) a) <= / 2000)%R.
Proof. exact @relative_head_fixed. Qed.
Print Assumptions C105_fixed.

(** In relative mode the errors do add up: moves of less than half a thousandth
    are lost, however many there are. *)
Theorem C105_small_refuted :
  exists g g' : gcode B64,
    load_gen false home0 ["G91"; "M82"; "G1 X0.0004 E1"; "G1 X0.0004 E2"; "G1 X0.0004 E3"]%string = Ok g /\
    to_relative_extrusion g = Ok g' /\
    write g' = ["G91"; "M83"; "G1 X0.000 E1.00000"; "G1 X0.000 E1.00000"; "G1 X0.000 E1.00000"]%string /\
    head (run ["G91"; "M82"; "G1 X0.0004 E1"; "G1 X0.0004 E2"; "G1 X0.0004 E3"]%string (start (fun _ => 0%R))) X
      = (12 / 10000)%R /\
    head (run ["G91"; "M83"; "G1 X0.000 E1.00000"; "G1 X0.000 E1.00000"; "G1 X0.000 E1.00000"]%string
              (start (fun _ => 0%R))) X = 0%R.
Proof. exact rel_small_refuted. Qed.
Print Assumptions C105_small_refuted.

Example C105_example :
  load_gen (A:=QA) false home0 cube = Ok cubeQ /\ (exists g', to_relative_extrusion cubeQ = Ok g') /\
  metric (program_text cube) /\ (forall a, fixed_axis a (program_text cube)) /\
  drive_count X (program_text cube) = 4.
Proof.
  split; [exact cubeQ_loaded|]. split; [apply P_Filter.relative_total|].
  split; [repeat (constructor; [discriminate|]); constructor|].
  split; [|vm_compute; reflexivity].
  intros []; repeat (constructor; [first [exact I|split; reflexivity]|]); constructor.
Qed.

(** C106, what holds of gcode_mod from file to file, with any choice of -x, -y,
    -e and -p: the output is, up to inserted pauses, a program of the same
    length that after every line has the head where the input has it, shifted
    by what was asked for once the axis has moved, up to a thousandth, and has
    extruded what the input has, up to half a unit of the fifth decimal per E
    word.  The program must select G90 before it moves, stay in absolute mode
    and millimetres and use G92 only between homing and the first move of an
    axis; with -e it must also announce M82 or M83 after G90 and before it
    extrudes.  Missing: all other programs, for which C33 and C28 are false. *)
Theorem C106_mod_partial :
  forall (A : arith) (E : exact A) (o : mod_options (A:=A)) data out,
    gcode_mod o data = Ok out ->
    declared (program_text data) = true -> (forall a, t_run a Homed (program_text data) <> None) ->
    (o_e o = true -> m_ready (program_text data) = true) ->
    exists out0 n, with_pauses n out0 out /\ (o_p o = None -> n = 0) /\
      List.length out0 = List.length (program_text data) /\
      forall i,
        (forall a, exists p, t_run a Homed (firstn i (program_text data)) = Some p /\
          (Rabs (head (run (firstn i out0) (start (fun _ => 0))) a -
                 (head (run (firstn i (program_text data)) (start (fun _ => 0))) a +
                  (if moved p then shift_amount E (o_x o) (o_y o) a else 0))) <= / 1000)%R) /\
        (Rabs (extruder (run (firstn i out0) (start (fun _ => 0))) -
               extruder (run (firstn i (program_text data)) (start (fun _ => 0))))
           <= INR (e_count (firstn i (program_text data))) * / 200000)%R.
Proof. exact @mod_moves. Qed.
Print Assumptions C106_mod_partial.

Example C106_example :
  gcode_mod (A:=QA) (ModOptions (A:=QA) (Some 5%Q) None true (Some 1%Z)) cube =
    Ok ["; sample"; "G28"; "G90"; "M83"; "G92 X-5.000 Y0.000 E0.00000"; "G1 Z0.3 F1200"; "G1 X10.000 Y10.000 E1.00000";
        "G1 X20.000 Y10.000 E1.50000"; "M226"; "G1 Z0.6"; "G1 X20.000 Y20.000 E1.50000"; "M104 S200";
        "G1 X10.000 Y20.000 E1.00000"]%string /\
  declared (program_text cube) = true /\
  (forall a, t_run a Homed (program_text cube) = Some (match a with Z => Placed | _ => BasedPlaced end)) /\
  m_ready (program_text cube) = true.
Proof.
  split; [vm_compute; reflexivity|]. split; [vm_compute; reflexivity|]. split; [|vm_compute; reflexivity].
  intros []; vm_compute; reflexivity.
Qed.

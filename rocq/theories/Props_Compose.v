(** * Property C110: moving twice is moving by the sum *)
From Coq Require Import List String NArith Reals.
From Verif Require Import PyBase Arith ArithQ ArithB64 Gcoder Filters SpecText SpecLoad SpecMachine SpecFilter SpecCompose SpecBinary64 Samples.
From Verif Require Import P_Load P_FilterMotion P_FilterRefuted P_FloatTempcal P_Compose P_ComposeWords P_ComposeSample.
Import ListNotations.
Local Open Scope list_scope.

(** C110, exact arithmetic: a program translated, written, read again and
    translated again is line by line the program translated once by the sum, up
    to the three roundings of each number.  Missing: programs in inches, for
    which C110 is false. *)
Theorem C110_sum_partial :
  forall (A : arith) (E : exact A) home home' data x1 y1 x2 y2 x y (g g1 h h2 g2 : gcode A),
    load_gen false home data = Ok g -> translate x1 y1 g = Ok g1 ->
    load_gen false home' (write g1) = Ok h -> translate x2 y2 h = Ok h2 ->
    translate x y g = Ok g2 ->
    amount E x = (amount E x1 + amount E x2)%R -> amount E y = (amount E y1 + amount E y2)%R ->
    Forall (fun s => op_of s <> Inches) (program_text data) ->
    Forall2 (agrees 3) (write g2) (write h2).
Proof. exact @translate_sum. Qed.
Print Assumptions C110_sum_partial.

(** The head is at the same places, up to three thousandths, for the programs
    whose translation moves the part (see C33). *)
Theorem C110_heads_partial :
  forall (A : arith) (E : exact A) home data x1 y1 x2 y2 x y (g g1 h h2 g2 : gcode A),
    load_gen false home data = Ok g -> translate x1 y1 g = Ok g1 ->
    load_gen false home (write g1) = Ok h -> translate x2 y2 h = Ok h2 ->
    translate x y g = Ok g2 ->
    (forall a, shift_amount E x y a = shift_amount E x1 y1 a + shift_amount E x2 y2 a)%R ->
    declared (program_text data) = true -> (forall a, t_run a Homed (program_text data) <> None) ->
    forall i a, (Rabs (head (run (firstn i (write h2)) (start (fun _ => 0))) a -
                       head (run (firstn i (write g2)) (start (fun _ => 0))) a) <= 3 / 1000)%R.
Proof. exact @translate_twice. Qed.
Print Assumptions C110_heads_partial.

(** Moved there and back, the head is where the untouched program takes it, up
    to two thousandths. *)
Theorem C110_back_partial :
  forall (A : arith) (E : exact A) home data x1 y1 x2 y2 (g g1 h h2 : gcode A),
    load_gen false home data = Ok g -> translate x1 y1 g = Ok g1 ->
    load_gen false home (write g1) = Ok h -> translate x2 y2 h = Ok h2 ->
    (forall a, shift_amount E x1 y1 a + shift_amount E x2 y2 a = 0)%R ->
    declared (program_text data) = true -> (forall a, t_run a Homed (program_text data) <> None) ->
    forall i a, (Rabs (head (run (firstn i (write h2)) (start (fun _ => 0))) a -
                       head (run (firstn i (program_text data)) (start (fun _ => 0))) a) <= 2 / 1000)%R.
Proof. exact @translate_back. Qed.
Print Assumptions C110_back_partial.

Example C110_example :
  load_gen (A:=QA) false home0 cube = Ok cubeQ /\
  (translate (numQ 10) (numQ 20) cubeQ = Ok (movedby (numQ 10) (numQ 20) cubeQ) /\
   load_gen false home0 (write (movedby (numQ 10) (numQ 20) cubeQ)) = Ok (again (movedby (numQ 10) (numQ 20) cubeQ)) /\
   translate (numQ 5) None (again (movedby (numQ 10) (numQ 20) cubeQ)) =
     Ok (movedby (numQ 5) None (again (movedby (numQ 10) (numQ 20) cubeQ))) /\
   translate (numQ 15) (numQ 20) cubeQ = Ok (movedby (numQ 15) (numQ 20) cubeQ)) /\
  declared (program_text cube) = true /\
  (forall a, t_run a Homed (program_text cube) = Some (match a with Z => Placed | _ => BasedPlaced end)).
Proof.
  split; [exact cubeQ_loaded|]. split; [exact cubeQ_session|]. split; [vm_compute; reflexivity|].
  intros []; vm_compute; reflexivity.
Qed.

(** with doubles; the sum asked for may itself be rounded *)
Theorem C110_binary64_partial :
  forall home data x1 y1 x2 y2 x y (g g1 h h2 g2 : gcode B64),
    load_gen false home data = Ok g -> translate x1 y1 g = Ok g1 ->
    load_gen false home (write g1) = Ok h -> translate x2 y2 h = Ok h2 ->
    translate x y g = Ok g2 ->
    declared (program_text data) = true -> (forall a, t_run a Homed (program_text data) <> None) ->
    Forall modest (program_text data) -> Forall modest (write g1) ->
    modest_shift x1 -> modest_shift y1 -> modest_shift x2 -> modest_shift y2 -> modest_shift x -> modest_shift y ->
    forall i a, (Rabs (head (run (firstn i (write h2)) (start (fun _ => 0))) a -
                       head (run (firstn i (write g2)) (start (fun _ => 0))) a)
      <= 3 / 1000 + 3 / 10 ^ 9 + Rabs (fshift_amount x y a - (fshift_amount x1 y1 a + fshift_amount x2 y2 a)))%R.
Proof. exact translate_twice_B64. Qed.
Print Assumptions C110_binary64_partial.

Example C110_binary64_example :
  load_gen (A:=B64) false home0 cube = Ok cubeF /\
  (translate (some_num 10) (some_num 20) cubeF = Ok (movedby (some_num 10) (some_num 20) cubeF) /\
   load_gen false home0 (write (movedby (some_num 10) (some_num 20) cubeF)) = Ok (again (movedby (some_num 10) (some_num 20) cubeF)) /\
   translate (some_num 5) None (again (movedby (some_num 10) (some_num 20) cubeF)) =
     Ok (movedby (some_num 5) None (again (movedby (some_num 10) (some_num 20) cubeF))) /\
   translate (some_num 15) (some_num 20) cubeF = Ok (movedby (some_num 15) (some_num 20) cubeF)) /\
  Forall modest (program_text cube) /\ Forall modest (write (movedby (some_num 10) (some_num 20) cubeF)) /\
  modest_shift (some_num 10) /\ modest_shift (some_num 15).
Proof.
  split; [exact cubeF_loaded|]. split; [exact cubeF_session|].
  split; [apply modest_all; vm_compute; reflexivity|]. split; [exact cubeF_between|].
  split; apply modest_shift_num; vm_compute; reflexivity.
Qed.

(** C110 is false in inches: numbers are converted to millimetres whenever a
    line is rewritten, and the line still says inches. *)
Theorem C110_inch_refuted : exists g g1 h h2 g2 : gcode B64,
  load_gen false home0 ["G20"; "G90"; "G1 X1 Y1"]%string = Ok g /\ translate (some_num 10) None g = Ok g1 /\
  load_gen false home0 (write g1) = Ok h /\ translate (some_num 5) None h = Ok h2 /\ translate (some_num 15) None g = Ok g2 /\
  write g2 = ["G20"; "G90"; "G1 X40.400 Y25.400"]%string /\
  write h2 = ["G20"; "G90"; "G1 X904.160 Y645.160"]%string.
Proof. exact compose_inch_refuted. Qed.
Print Assumptions C110_inch_refuted.

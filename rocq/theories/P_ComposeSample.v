(** * P_ComposeSample: examples for Props_Compose *)
From Coq Require Import List Ascii String ZArith NArith Bool Reals Lra.
From Verif Require Import PyBase Arith ArithQ ArithB64 Gcoder Filters SpecText SpecLoad SpecMachine SpecFilter SpecBinary64 Samples.
From Verif Require Import P_Load P_MachineRefuted P_FilterRefuted P_Float P_FloatText P_FloatTempcal P_FloatSample P_FloatMotion P_FilterMotion P_Compose.
Import ListNotations.
Local Open Scope list_scope.

Section Runs.
Context {A : arith}.
Definition movedby (x y : option (num A)) (g : gcode A) : gcode A := get empty_program (translate x y g).
Definition again (g : gcode A) : gcode A := get empty_program (load_gen false home0 (write g)).
End Runs.

Definition numQ (n : N) : option (num QA) := Some (lit n 0).

Lemma cubeQ_session :
  translate (numQ 10) (numQ 20) cubeQ = Ok (movedby (numQ 10) (numQ 20) cubeQ) /\
  load_gen false home0 (write (movedby (numQ 10) (numQ 20) cubeQ)) = Ok (again (movedby (numQ 10) (numQ 20) cubeQ)) /\
  translate (numQ 5) None (again (movedby (numQ 10) (numQ 20) cubeQ)) =
    Ok (movedby (numQ 5) None (again (movedby (numQ 10) (numQ 20) cubeQ))) /\
  translate (numQ 15) (numQ 20) cubeQ = Ok (movedby (numQ 15) (numQ 20) cubeQ).
Proof. split; [|split; [|split]]; apply is_ok_get; vm_compute; reflexivity. Qed.

Lemma cubeF_session :
  translate (some_num 10) (some_num 20) cubeF = Ok (movedby (some_num 10) (some_num 20) cubeF) /\
  load_gen false home0 (write (movedby (some_num 10) (some_num 20) cubeF)) = Ok (again (movedby (some_num 10) (some_num 20) cubeF)) /\
  translate (some_num 5) None (again (movedby (some_num 10) (some_num 20) cubeF)) =
    Ok (movedby (some_num 5) None (again (movedby (some_num 10) (some_num 20) cubeF))) /\
  translate (some_num 15) (some_num 20) cubeF = Ok (movedby (some_num 15) (some_num 20) cubeF).
Proof. split; [|split; [|split]]; apply is_ok_get; vm_compute; reflexivity. Qed.

Lemma cubeF_between : Forall modest (write (movedby (some_num 10) (some_num 20) cubeF)).
Proof. apply modest_all. vm_compute. reflexivity. Qed.

Lemma compose_inch_refuted : exists g g1 h h2 g2 : gcode B64,
  load_gen false home0 ["G20"; "G90"; "G1 X1 Y1"]%string = Ok g /\ translate (some_num 10) None g = Ok g1 /\
  load_gen false home0 (write g1) = Ok h /\ translate (some_num 5) None h = Ok h2 /\ translate (some_num 15) None g = Ok g2 /\
  write g2 = ["G20"; "G90"; "G1 X40.400 Y25.400"]%string /\
  write h2 = ["G20"; "G90"; "G1 X904.160 Y645.160"]%string.
Proof.
  set (g := loadF ["G20"; "G90"; "G1 X1 Y1"]%string).
  exists g, (movedby (some_num 10) None g), (again (movedby (some_num 10) None g)),
    (movedby (some_num 5) None (again (movedby (some_num 10) None g))), (movedby (some_num 15) None g).
  split; [apply loadF_ok; vm_compute; reflexivity|].
  split; [apply is_ok_get; vm_compute; reflexivity|].
  split; [apply is_ok_get; vm_compute; reflexivity|].
  split; [apply is_ok_get; vm_compute; reflexivity|].
  split; [apply is_ok_get; vm_compute; reflexivity|].
  split; vm_compute; reflexivity.
Qed.

(** * P_BoxSample: a square for Props_Box *)
From Coq Require Import List Ascii String ZArith NArith Bool Lia Reals Lra FunctionalExtensionality.
From Verif Require Import PyBase Arith ArithQ ArithR ArithB64 Gcoder Filters SpecText SpecLoad SpecMachine SpecMeasure SpecFilter SpecMod SpecBox Samples.
From Verif Require Import P_Load P_Wf P_MachineRefuted P_FilterRefuted P_BoxShift P_ComposeSample.
Import ListNotations.
Local Open Scope list_scope.
Local Open Scope R_scope.

Definition corner : list string :=
  ["G28"; "G90"; "M82"; "G1 Z0.2"; "G1 X10 Y10"; "G1 X30 E2"; "G1 Y25.5 E3.5"; "G1 E3"]%string.
Definition cornerQ : gcode QA := get empty_program (load_gen false home0 corner).

Lemma corner_extruder : forall i, extruder (run (firstn i (program_text corner)) (start (fun _ => 0))) =
  match i with 0%nat | 1%nat | 2%nat | 3%nat | 4%nat | 5%nat => 0 | 6%nat => 2 | 7%nat => 35 / 10 | _ => 3 end.
Proof.
  intros i. destruct i as [|[|[|[|[|[|[|[|i]]]]]]]]; [run_machine..|].
  replace (firstn (S (S (S (S (S (S (S (S i)))))))) (program_text corner)) with (program_text corner) by (symmetry; apply firstn_all2; cbn; lia).
  run_machine.
Qed.

Lemma corner_sharp : sharp (program_text corner) (start (fun _ => 0)).
Proof.
  intros i s H Hf. rewrite !corner_extruder.
  destruct i as [|[|[|[|[|[|[|[|i]]]]]]]]; try (injection H as <-; discriminate Hf).
  - rewrite Rabs_pos_eq; lra.
  - rewrite Rabs_pos_eq; lra.
  - rewrite Rabs_left; lra.
  - destruct i; discriminate H.
Qed.

Lemma corner_placed : placed (program_text corner) (start (fun _ => 0)).
Proof.
  intros i H a Ha. unfold prints in H. rewrite !corner_extruder in H.
  destruct i as [|[|[|[|[|[|[|[|i]]]]]]]]; try (exfalso; lra).
  - destruct a; [exists Placed; split; reflexivity|exists Placed; split; reflexivity|congruence].
  - destruct a; [exists Placed; split; reflexivity|exists Placed; split; reflexivity|congruence].
Qed.

Lemma corner_session :
  load_gen false home0 corner = Ok cornerQ /\
  translate (numQ 7) (numQ 9) cornerQ = Ok (movedby (numQ 7) (numQ 9) cornerQ) /\
  load_gen false home0 (write (movedby (numQ 7) (numQ 9) cornerQ)) = Ok (again (movedby (numQ 7) (numQ 9) cornerQ)) /\
  (forall a, home_of exactQ home0 a = 0) /\ declared (program_text corner) = true /\
  Forall e_plain (program_text corner) /\ Forall clear_words (program_text corner) /\
  Forall no_rebase_e (program_text corner) /\
  / 200000 < val exactQ (g_filament cornerQ).
Proof.
  split; [apply is_ok_get; vm_compute; reflexivity|].
  split; [apply is_ok_get; vm_compute; reflexivity|].
  split; [apply is_ok_get; vm_compute; reflexivity|].
  split; [intros []; apply (val_n0 exactQ)|]. split; [vm_compute; reflexivity|].
  split; [repeat (constructor; [exact I|]); constructor|].
  split; [constructor; [left; intros []; reflexivity|]; repeat (constructor; [exact I|]); constructor|].
  split; [repeat (constructor; [exact I|]); constructor|].
  assert (H : val exactQ (lit 1 0) < val exactQ (g_filament cornerQ)).
  { apply (val_ltb QA exactQ). vm_compute. reflexivity. }
  assert (H1 : val exactQ (lit 1 0) = 1).
  { cbn. unfold Q2R. cbn. lra. }
  lra.
Qed.

(** a move of the extruder that rounding removes *)
Definition faint : list string := ["G90"; "M82"; "G1 X0 Y0"; "G1 X10 Y10 E1"; "G1 X90 E1.000004"]%string.

Lemma faint_refuted : exists g g1 h : gcode B64,
  load_gen false home0 faint = Ok g /\ translate (some_num 5) None g = Ok g1 /\ load_gen false home0 (write g1) = Ok h /\
  n_eqb (g_xmax g) (lit 90 0) = true /\ n_eqb (g_xmax h) (lit 15 0) = true.
Proof.
  exists (loadF faint), (movedby (some_num 5) None (loadF faint)), (again (movedby (some_num 5) None (loadF faint))).
  split; [apply loadF_ok; vm_compute; reflexivity|].
  split; [apply is_ok_get; vm_compute; reflexivity|].
  split; [apply is_ok_get; vm_compute; reflexivity|].
  split; vm_compute; reflexivity.
Qed.

(** ** Conversion to relative extrusion *)

Definition fed {A} (g : gcode A) : gcode A := get g (to_relative_extrusion g).

Lemma corner_relative :
  load_gen false home0 corner = Ok cornerQ /\ to_relative_extrusion cornerQ = Ok (fed cornerQ) /\
  load_gen false home0 (write (fed cornerQ)) = Ok (again (fed cornerQ)) /\
  e_ready (program_text corner) = true /\
  INR (feed_count (program_text corner)) * / 200000 < val exactQ (g_filament cornerQ) /\
  fixed_axis X (program_text corner) /\ fixed_axis Y (program_text corner).
Proof.
  split; [apply is_ok_get; vm_compute; reflexivity|].
  split; [apply is_ok_get; vm_compute; reflexivity|].
  split; [apply is_ok_get; vm_compute; reflexivity|].
  split; [vm_compute; reflexivity|].
  split.
  { assert (H : val exactQ (lit 1 0) < val exactQ (g_filament cornerQ)).
    { apply (val_ltb QA exactQ). vm_compute. reflexivity. }
    assert (H1 : val exactQ (lit 1 0) = 1).
    { cbn. unfold Q2R. cbn. lra. }
    replace (feed_count (program_text corner)) with 3%nat by (vm_compute; reflexivity). cbn [INR]. lra. }
  split; unfold fixed_axis; repeat (constructor; [exact I|]); constructor.
Qed.

Lemma corner_home : home_of exactQ home0 = (fun _ => 0).
Proof. apply FunctionalExtensionality.functional_extensionality. intros []; apply (val_n0 exactQ). Qed.

Lemma corner_sharp_home : sharp (program_text corner) (start (home_of exactQ home0)).
Proof. rewrite corner_home. exact corner_sharp. Qed.

Lemma faint_relative : exists g g1 h : gcode B64,
  load_gen false home0 faint = Ok g /\ to_relative_extrusion g = Ok g1 /\ load_gen false home0 (write g1) = Ok h /\
  n_eqb (g_xmax g) (lit 90 0) = true /\ n_eqb (g_xmax h) (lit 10 0) = true.
Proof.
  exists (loadF faint), (fed (loadF faint)), (again (fed (loadF faint))).
  split; [apply loadF_ok; vm_compute; reflexivity|].
  split; [apply is_ok_get; vm_compute; reflexivity|].
  split; [apply is_ok_get; vm_compute; reflexivity|].
  split; vm_compute; reflexivity.
Qed.

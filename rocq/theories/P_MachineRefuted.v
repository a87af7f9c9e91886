(** * P_MachineRefuted: witnesses for C13, C15, C73, C74 *)
From Coq Require Import List Ascii String ZArith NArith Bool Reals Lra.
From Verif Require Import PyBase Arith ArithQ ArithR ArithB64 Gcoder SpecLoad SpecText SpecMachine Samples.
From Verif Require Import P_Load P_Machine.
Import ListNotations.
Local Open Scope list_scope.

Definition at_y5 : list string := ["G1 X5 Y5"]%string.
Definition homed_x0 : list string := ["G1 X5 Y5"; "G28 X0"]%string.
Definition homed_x1 : list string := ["G1 X5 Y5"; "G28 X1"]%string.

Definition loadF (data : list string) : gcode B64 :=
  get empty_program (load_gen (A:=B64) false home0 data).
Lemma loadF_ok : forall data, is_ok (load_gen (A:=B64) false home0 data) = true ->
  load_gen (A:=B64) false home0 data = Ok (loadF data).
Proof. intros data H. apply is_ok_get, H. Qed.

Definition numF (n : N) : num B64 := lit n 0.

Lemma home_refuted :
  words "G28 X0" = [("g", "28"); ("x", "0")]%string /\
  exists g0 g1 g2 : gcode B64,
    load_gen false home0 ["G1 X5 Y5"]%string = Ok g0 /\
    load_gen false home0 ["G1 X5 Y5"; "G28 X0"]%string = Ok g1 /\
    load_gen false home0 ["G1 X5 Y5"; "G28 X1"]%string = Ok g2 /\
    n_eqb (m_y (g_m g0)) (lit 5 0) = true /\
    n_eqb (m_y (g_m g1)) (lit 0 0) = true /\
    n_eqb (m_y (g_m g2)) (lit 5 0) = true.
Proof.
  split; [reflexivity|]. eexists _, _, _.
  split; [apply loadF_ok; vm_compute; reflexivity|].
  split; [apply loadF_ok; vm_compute; reflexivity|].
  split; [apply loadF_ok; vm_compute; reflexivity|].
  repeat split; vm_compute; reflexivity.
Qed.

Definition rebased : list string := ["G1 X1 E5"; "G92 E0"; "G1 X2 E1"]%string.

(** 5 mm and 1 mm are extruded, the code says 1 mm in total, 5 mm at most, and
    that the second move does not extrude *)
Lemma rebase_refuted :
  exists (g : gcode B64) l, load_gen false home0 ["G1 X1 E5"; "G92 E0"; "G1 X2 E1"]%string = Ok g /\
    nth_error (g_lines g) 2 = Some l /\ t_extruding (lnotes l) = Some false /\
    n_eqb (m_total (g_m g)) (lit 1 0) = true /\ n_eqb (g_filament g) (lit 5 0) = true.
Proof.
  eexists _, (nth 2 (g_lines (loadF rebased)) (new_line "")).
  split; [apply loadF_ok; vm_compute; reflexivity|].
  split; [apply nth_error_nth'; apply Nat.ltb_lt; vm_compute; reflexivity|].
  repeat split; vm_compute; reflexivity.
Qed.

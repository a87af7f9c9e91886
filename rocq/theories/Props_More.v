(** * Properties C11, C23, C35 and C54: what holds of free text, rewritten moves
      and arcs in inches *)
From Coq Require Import List Ascii String ZArith NArith Bool Reals Lra.
From Verif Require Import PyBase Arith ArithQ ArithR ArithB64 Gcoder Filters Arc SpecText SpecLoad SpecMachine SpecFree Samples.
From Verif Require Import P_MachineRefuted P_ArcRefuted P_Free P_Rewrite P_ArcInch.
Import ListNotations.
Local Open Scope list_scope.

(** C11, what holds: text without the letters G, T and M is read without an error
    and leaves the machine alone ... *)
Theorem C11_step_partial :
  forall (A : arith) (m : mstate A) s, plain s = true ->
    exists l, motion_step m (new_line s) = Ok (m, l).
Proof. exact @plain_reads. Qed.
Print Assumptions C11_step_partial.

(** ... so a program loads, or fails with the same error, as if its lines of such
    text were not there, and ends in the same state with the same measures. *)
Theorem C11_program_partial :
  forall (A : arith) light home d1 d2,
    program_text d1 = filter (fun s => negb (plain s)) (program_text d2) ->
    match load_gen (A:=A) light home d1, load_gen light home d2 with
    | Ok g1, Ok g2 => same_run g1 g2
    | Err e1, Err e2 => e1 = e2
    | _, _ => False
    end.
Proof. exact @load_plain. Qed.
Print Assumptions C11_program_partial.

Example C11_example :
  plain "Layer 5: inner wall, X5 F-300" = true /\ plain "Start printing" = false /\
  filter (fun s => negb (plain s)) (program_text ["G1 X5"; "Done here, Y"; ""; "G1 X7 E1"]%string) =
    program_text ["G1 X5"; "G1 X7 E1"]%string.
Proof. repeat split. Qed.

(** C23, what holds: in millimetres a rewritten move asks for the same position,
    extrusion and feedrate, rounded to the decimals written. *)
Theorem C23_move_partial :
  forall (A : arith) (E : exact A) (m m' : mstate A) s l w e f,
    motion_step m (new_line s) = Ok (m', l) -> op_of s = Move w e f -> m_imperial m = false ->
    moves_as 1 w e f (raw (unsplit l)).
Proof. exact @rewrite_mm. Qed.
Print Assumptions C23_move_partial.

(** C35 is false for every rewritten move: in inches its numbers are 25.4 times
    the original ones, while the program still says that they are inches. *)
Theorem C35_scaled_refuted :
  forall (A : arith) (E : exact A) (m m' : mstate A) s l w e f,
    motion_step m (new_line s) = Ok (m', l) -> op_of s = Move w e f -> m_imperial m = true ->
    moves_as (254 / 10) w e f (raw (unsplit l)).
Proof. exact @rewrite_inch. Qed.
Print Assumptions C35_scaled_refuted.

Example C23_C35_example :
  exists (m m' : mstate QA) l w e f,
    motion_step m (new_line "G1 X1.23456 E2") = Ok (m', l) /\ op_of "G1 X1.23456 E2" = Move w e f /\
    m_imperial m = true /\ raw (unsplit l) = "G1 X31.358 E50.80000"%string.
Proof.
  exists (set_modes true false false (init_mstate home0)).
  eexists _, _, _, _, _. split; [reflexivity|]. split; [reflexivity|]. split; [reflexivity|].
  vm_compute. reflexivity.
Qed.

(** C54 is false in inches: the arc ends 25.4 times as far away. *)
Theorem C54_inch_refuted :
  exists g g' : gcode B64, load_gen false home0 arc_inch = Ok g /\ optimize_arcs g = Ok g' /\
    write g' = ["G20"; "G90"; "M82"; "G1 X1.0000 Y0.0000 F47";
      "G3 X0.000 Y25.400 E1.14445 F1193.800 I-25.401 J-0.001; generated from 9 segments"; "M107"]%string /\
    head (run arc_inch (start home_at0)) Y = (254 / 10)%R /\
    head (run ["G20"; "G90"; "M82"; "G1 X1.0000 Y0.0000 F47";
      "G3 X0.000 Y25.400 E1.14445 F1193.800 I-25.401 J-0.001; generated from 9 segments"; "M107"]%string
      (start home_at0)) Y = (64516 / 100)%R.
Proof. exact arc_inch_refuted. Qed.
Print Assumptions C54_inch_refuted.

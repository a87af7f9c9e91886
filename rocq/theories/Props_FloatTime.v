(** * Properties C10 and C21 for IEEE doubles *)
From Coq Require Import List String ZArith Bool Reals Floats.SpecFloat.
From Verif Require Import PyBase Arith ArithB64 Gcoder SpecText SpecLoad SpecMeasure SpecBinary64 SpecFloatTime Samples.
From Verif Require Import P_FloatWf P_FloatTime P_FloatTimeSample.
Import ListNotations.
Local Open Scope list_scope.

(** C10: well-formed programs load, whatever the size of their numbers:
    neither overflow nor underflow makes the timing divide by zero. *)
Theorem C10_binary64_well_formed :
  forall light home data,
    Forall (fun s => line_ok s = true /\ feed_ok s = true) (program_text data) ->
    exists g, load_gen (A:=B64) light home data = Ok g.
Proof. exact load_well_formed_B64. Qed.
Print Assumptions C10_binary64_well_formed.

Theorem C10_binary64_zero_division :
  forall light home data,
    Forall (fun s => feed_ok s = true) (program_text data) ->
    load_gen (A:=B64) light home data <> Err ZeroDivisionError.
Proof. exact load_no_zero_div_B64. Qed.
Print Assumptions C10_binary64_zero_division.

Example C10_binary64_example :
  Forall (fun s => line_ok s = true /\ feed_ok s = true) (program_text paused) /\
  Forall (fun s => line_ok s = true /\ feed_ok s = true) (program_text crawl).
Proof.
  split; apply Forall_forall; intros s Hs; apply andb_true_iff;
    revert s Hs; apply forallb_forall; vm_compute; reflexivity.
Qed.

(** C21: in millimetres, with numbers of at most a million, feed rates of at
    least a millionth (or 0) and dwells of at most a million, the time of every
    layer is a non-negative number and the total is their sum up to one part in
    2^53.  Missing: inches and other numbers. *)
Theorem C21_binary64_partial :
  forall light home data (g : gcode B64),
    Forall modest_timing (program_text data) -> load_gen light home data = Ok g ->
    Forall (fun y => fin (ly_dur y) /\ (0 <= fval (ly_dur y))%R) (g_layers g) /\
    fin (g_total g) /\ (0 <= fval (g_total g))%R /\
    (Rabs (fsum_durations (g_layers g) - fval (g_total g)) <= / 2 ^ 53 * fval (g_total g))%R.
Proof. exact load_durations_B64. Qed.
Print Assumptions C21_binary64_partial.

Example C21_binary64_example :
  Forall modest_timing (program_text paused) /\ load_gen (A:=B64) false home0 paused = Ok pausedF /\
  SFltb (n0 (A:=B64)) (g_total pausedF) = true /\ List.length (g_layers pausedF) = 4.
Proof.
  split; [exact paused_timing|]. split; [exact pausedF_loaded|exact pausedF_takes_time].
Qed.

(** With other numbers it is false: a tiny feed rate makes the total infinite,
    and the time of the next layer no number at all. *)
Theorem C21_binary64_refuted : exists data (g : gcode B64),
  Forall (fun s => feed_ok s = true /\ dwell_nonneg s) (program_text data) /\
  load_gen false home0 data = Ok g /\ exists y, In y (g_layers g) /\ ly_dur y = S754_nan.
Proof. exact crawl_refuted. Qed.
Print Assumptions C21_binary64_refuted.

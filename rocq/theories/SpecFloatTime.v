(** * SpecFloatTime: what C10 and C21 say of IEEE doubles *)
From Coq Require Import List Ascii String ZArith Bool Reals Floats.SpecFloat.
From Verif Require Import PyBase Arith ArithR ArithB64 Gcoder SpecText SpecMachine SpecMeasure SpecBinary64.
Import ListNotations.
Local Open Scope R_scope.

(** the sum of the durations of the layers, as real numbers *)
Definition fsum_durations (ys : list (layer B64)) : R :=
  fold_right (fun y r => fval (ly_dur y) + r) 0 ys.

(** a feed rate, if given, is zero or at least one millionth *)
Definition modest_feed (s : string) : Prop :=
  forall v, number_of "f" (words s) = Some v -> v = 0 \/ / 10 ^ 6 <= v.

(** the P word of the line, if any, is between zero and a million *)
Definition modest_dwell (s : string) : Prop :=
  match find_code "P"%char s with
  | Some p => forall v, py_float (A:=RA) p = Some v -> 0 <= v <= 10 ^ 6
  | None => True
  end.

(** a line in millimetres with modest numbers *)
Definition modest_timing (s : string) : Prop :=
  modest s /\ op_of s <> Inches /\ modest_feed s /\ modest_dwell s.

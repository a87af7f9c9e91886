(** * SpecFree: vocabulary for statements about free text and rewritten moves *)
From Coq Require Import List Ascii String ZArith NArith Bool Reals.
From Verif Require Import PyBase Arith Gcoder SpecText SpecMachine.
Import ListNotations.

(** text without the letters G, T and M, in either case *)
Definition plain (s : string) : bool :=
  lacks "g" (lower s) && lacks "t" (lower s) && lacks "m" (lower s).

(** the same machine at the end of the program, and the same measures except
    those that depend on the layers *)
Definition same_run {A : arith} (g h : gcode A) : Prop :=
  g_m g = g_m h /\ g_filament g = g_filament h /\ g_total g = g_total h /\
  g_xmin g = g_xmin h /\ g_xmax g = g_xmax h /\
  g_ymin g = g_ymin h /\ g_ymax g = g_ymax h.

(** [o] and [p] are both missing, or numbers at most [d] apart *)
Definition apart (d : R) (o p : option R) : Prop :=
  match o, p with
  | None, None => True
  | Some x, Some y => (Rabs (x - y) <= d)%R
  | _, _ => False
  end.

(** the rewritten text [t] asks for the move with the words [w], [e] and [f]
    times [q], rounded to the decimals that are written *)
Definition moves_as (q : R) (w : axis -> option R) (e f : option R) (t : string) : Prop :=
  exists w' e' f', op_of t = Move w' e' f' /\
    (forall a, apart (/ 2000) (w' a) (option_map (Rmult q) (w a))) /\
    apart (/ 200000) e' (option_map (Rmult q) e) /\
    apart (/ 2000) f' (option_map (Rmult q) f).

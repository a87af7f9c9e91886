(** * SpecFloatStretch: settings the stretch is computed with, as doubles *)
From Coq Require Import String Reals.
From Verif Require Import PyBase Arith ArithB64 SpecText SpecMachine SpecBinary64 Stretch SpecStretch.
Local Open Scope R_scope.

(** the double is a number between two bounds *)
Definition sized (lo hi : R) (x : num B64) : Prop := fin x /\ lo <= fval x <= hi.

(** Settings of ordinary sizes, with the edge width [w]: widths from a
    thousandth of a millimetre to a centimetre, ratios and strength up to ten,
    walks from a thousandth to a thousand widths. *)
Definition ordinary (o : options (A:=B64)) (w : num B64) : Prop :=
  sized (/ 1000) 10 w /\ sized (/ 1000) 1000 (o_from o) /\ sized (/ 1000) 1000 (o_cross o) /\
  sized 0 10 (o_loop o) /\ sized 0 10 (o_inside o) /\ sized 0 10 (o_outside o) /\ sized 0 10 (o_strength o).

(** a line in millimetres whose numbers are at most a million and that a
    remark can be added to *)
Definition plain_text (s : string) : Prop := modest s /\ command_name s <> Some "G20"%string /\ markable s.

(** * Properties C98 and C99 for every arithmetic, so also for doubles *)
From Coq Require Import List String NArith Bool.
From Verif Require Import PyBase Arith ArithB64 Gcoder Stretch SpecStretch SpecBend SpecLoops.
From Verif Require Import P_StretchRefuted P_StretchAny P_AnySample.
Import ListNotations.
Local Open Scope list_scope.

(** C98: if a loop of Slic3r ends where it starts, the same words X and Y are
    written for its first and its last point.  No rounding opens it, whatever the
    numbers and options are.  Missing: as in [C98_slic3r_partial]. *)
Theorem C98_any_partial :
  forall (A : arith) profile fuel (o : options (A:=A)) (w most : num A) ps ts,
    redraws_loop profile fuel Slic3r o w most ps ts -> comes_back ps -> comes_back ts.
Proof. exact @any_closed. Qed.
Print Assumptions C98_any_partial.

Example C98_any_example :
  (exists ts, redraws_loop no_profile 100 Slic3r default_options (lit (A:=B64) 4 1)
    (limit default_options (Some (lit (A:=B64) 4 1)) (Some Outer)) diamond_points ts) /\
  comes_back diamond_points.
Proof. exact (conj diamondF_sample diamondF_back). Qed.

(** C99: for two loops with the same points, edge width and largest
    displacement, in whatever programs, the same words X and Y are written.
    Missing: as in [C99_partial]. *)
Theorem C99_any_partial :
  forall (A : arith) profile1 fuel1 profile2 fuel2 d (o : options (A:=A)) (w most : num A) ps ts1 ts2,
    redraws_loop profile1 fuel1 d o w most ps ts1 -> redraws_loop profile2 fuel2 d o w most ps ts2 ->
    d <> Skeinforge -> ts1 = ts2.
Proof. exact @any_det. Qed.
Print Assumptions C99_any_partial.

Example C99_any_example : exists ts, redraws_loop no_profile 100 Slic3r default_options (lit (A:=B64) 4 1)
    (limit default_options (Some (lit (A:=B64) 4 1)) (Some Outer)) diamond_points ts.
Proof. exact diamondF_sample. Qed.

(** C96: no point is lost or added. *)
Theorem C96_points_any :
  forall (A : arith) profile fuel d (o : options (A:=A)) (w most : num A) ps ts,
    redraws_loop profile fuel d o w most ps ts -> List.length ts = List.length ps.
Proof. exact @whole_any_length. Qed.
Print Assumptions C96_points_any.

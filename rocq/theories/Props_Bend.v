(** * Properties C96-C97: how far and where the stretch filters move a point *)
From Coq Require Import List String Ascii Bool Reals Lra.
From Verif Require Import PyBase Arith ArithR ArithB64 Gcoder Stretch SpecStretch SpecBend.
From Verif Require Import P_StretchRefuted P_StretchBend P_BendSample.
Import ListNotations.
Local Open Scope list_scope.
Local Open Scope R_scope.

(** C96: a point is moved by the largest displacement times [bend], which
    SpecBend defines from the neighbours and the points of the path "stretch
    from distance" ahead and behind.  Missing: walks that leave the layer's
    part of the loop, and moves that name only one of X and Y. *)
Theorem C96_formula_partial :
  forall profile fuel d (o : options (A:=RA)) (w most : R) q qs p r rs p' f k,
    stretches profile fuel d o w most (q :: qs) p (r :: rs) p' ->
    0 < w -> 0 < o_cross o -> 0 < o_from o ->
    reaches (o_from o * w) p (r :: rs) f -> reaches (o_from o * w) p (q :: qs) k ->
    close_to p' (plus p (times most (bend (o_from o * w) (w * o_cross o) p r f q k))).
Proof. exact stretches_bent. Qed.
Print Assumptions C96_formula_partial.

Example C96_example : exists p' f k,
  stretches no_profile 100 Slic3r default_options (4 / 10) (4 / 100)
    [(20, 95 / 10); (20, 10)] (203 / 10, 91 / 10) [(207 / 10, 88 / 10); (212 / 10, 88 / 10)] p' /\
  reaches (o_from (A:=RA) default_options * (4 / 10)) (203 / 10, 91 / 10) [(207 / 10, 88 / 10); (212 / 10, 88 / 10)] f /\
  reaches (o_from (A:=RA) default_options * (4 / 10)) (203 / 10, 91 / 10) [(20, 95 / 10); (20, 10)] k /\
  distance (203 / 10, 91 / 10) (207 / 10, 88 / 10) <= 4 / 10 * o_cross (A:=RA) default_options / 3 /\
  distance (203 / 10, 91 / 10) (20, 95 / 10) <= 4 / 10 * o_cross (A:=RA) default_options / 3.
Proof. exact formula_sample. Qed.

(** C97: between two long threads the corner is moved along the earlier thread
    only, by 0.8 (1 + cos) cos of the largest displacement... *)
Theorem C97_corner :
  forall profile fuel d (o : options (A:=RA)) (w most : R) q qs p r rs p',
    stretches profile fuel d o w most (q :: qs) p (r :: rs) p' ->
    0 < w -> 0 < o_cross o -> 0 < o_from o ->
    o_from o * w <= distance p r -> o_from o * w <= distance p q ->
    w * o_cross o <= distance p r -> w * o_cross o <= distance p q ->
    close_to p' (plus p (times (most * - Rmin 1 (8 / 10 * (1 + cosine q p r) * cosine q p r)) (heading p q))).
Proof. exact stretches_corner. Qed.
Print Assumptions C97_corner.

(** ...which is outwards if the angle is sharp... *)
Theorem C97_sharp_partial :
  forall profile fuel d (o : options (A:=RA)) (w most : R) q qs p r rs p',
    stretches profile fuel d o w most (q :: qs) p (r :: rs) p' ->
    0 < w -> 0 < o_cross o -> 0 < o_from o ->
    o_from o * w <= distance p r -> o_from o * w <= distance p q ->
    w * o_cross o <= distance p r -> w * o_cross o <= distance p q ->
    0 <= cosine q p r ->
    exists move, close_to p' (plus p move) /\ inwards q p r move <= 0.
Proof. exact corner_sharp. Qed.
Print Assumptions C97_sharp_partial.

Example C97_sharp_example :
  (exists p', stretches no_profile 100 Slic3r default_options (4 / 10) (4 / 100) [(28, 6)] (28, 16) [(20, 10)] p') /\
  o_from (A:=RA) default_options * (4 / 10) <= distance (28, 16) (20, 10) /\
  o_from (A:=RA) default_options * (4 / 10) <= distance (28, 16) (28, 6) /\
  4 / 10 * o_cross (A:=RA) default_options <= distance (28, 16) (20, 10) /\
  4 / 10 * o_cross (A:=RA) default_options <= distance (28, 16) (28, 6) /\
  cosine (28, 6) (28, 16) (20, 10) = 6 / 10.
Proof. exact sharp_long. Qed.

(** ...and inwards if it is blunt, for every such corner... *)
Theorem C97_blunt_refuted :
  forall profile fuel d (o : options (A:=RA)) (w most : R) q qs p r rs p',
    stretches profile fuel d o w most (q :: qs) p (r :: rs) p' ->
    0 < w -> 0 < o_cross o -> 0 < o_from o ->
    o_from o * w <= distance p r -> o_from o * w <= distance p q ->
    w * o_cross o <= distance p r -> w * o_cross o <= distance p q ->
    -1 < cosine q p r < 0 ->
    exists move, close_to p' (plus p move) /\ 0 < inwards q p r move.
Proof. exact corner_blunt. Qed.
Print Assumptions C97_blunt_refuted.

Example C97_blunt_example :
  (exists p', stretches no_profile 100 Slic3r default_options (4 / 10) (4 / 100) [(20, 0)] (28, 6) [(28, 16)] p') /\
  o_from (A:=RA) default_options * (4 / 10) <= distance (28, 6) (28, 16) /\
  o_from (A:=RA) default_options * (4 / 10) <= distance (28, 6) (20, 0) /\
  4 / 10 * o_cross (A:=RA) default_options <= distance (28, 6) (28, 16) /\
  4 / 10 * o_cross (A:=RA) default_options <= distance (28, 6) (20, 0) /\
  cosine (20, 0) (28, 6) (28, 16) = - (6 / 10).
Proof. exact blunt_long. Qed.

(** ...for instance in binary64: the path turns from (20,0)-(28,6) to
    (28,6)-(28,16), the inside of the angle is to the upper left, and the corner
    goes to (27.994,5.995). *)
Theorem C97_binary64_refuted : exists out, gcode_stretch 100
  ["M83"; "G1 X0 Y0 F1800 ; move to first perimeter point"; "G1 X10 Y0 E1 ; perimeter external";
   "G1 X20 Y0 E1 ; perimeter external"; "G1 X28 Y6 E1 ; perimeter external"; "G1 X28 Y16 E1 ; perimeter external";
   "G1 X20 Y10 E1 ; perimeter external"; "G1 X20 Y9.5 E1 ; perimeter external"; "G1 X20.3 Y9.1 E1 ; perimeter external";
   "G1 X20.7 Y8.8 E1 ; perimeter external"; "G1 X21.2 Y8.8 E1 ; perimeter external"; "G1 X0 Y0 ; done"]%string = Ok out /\
  nth 4 out ""%string = "G1 X27.994 Y5.995 E0.99232 F1800.000"%string /\
  nth 5 out ""%string = "G1 X28.000 Y16.031 E0.96928 F1800.000"%string /\
  nth 8 out ""%string = "G1 X20.284 Y9.084 E0.97737 F1800.000"%string.
Proof. exact corners_stretched. Qed.
Print Assumptions C97_binary64_refuted.

(** On a finely divided curve the point moves straight away from the middle of
    the two points "stretch from distance" ahead and behind. *)
Theorem C97_fine_partial :
  forall profile fuel d (o : options (A:=RA)) (w most : R) q qs p r rs p' f k,
    stretches profile fuel d o w most (q :: qs) p (r :: rs) p' ->
    0 < w -> 0 < o_cross o -> 0 < o_from o ->
    reaches (o_from o * w) p (r :: rs) f -> reaches (o_from o * w) p (q :: qs) k ->
    distance p r <= w * o_cross o / 3 -> distance p q <= w * o_cross o / 3 ->
    exists t, 0 < t /\ close_to p' (plus p (times t (minus p (middle f k)))).
Proof. exact curve_fine. Qed.
Print Assumptions C97_fine_partial.

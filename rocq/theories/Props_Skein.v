(** * Properties C96, C98, C99 and C62 for the loops of Skeinforge *)
From Coq Require Import List String Ascii Bool Reals.
From Verif Require Import PyBase Arith ArithR ArithB64 Gcoder Stretch SpecStretch SpecBend.
From Verif Require Import P_StretchRefuted P_StretchSkein P_SkeinSample.
Import ListNotations.
Local Open Scope list_scope.
Local Open Scope R_scope.

(** C96, all round a loop: every point of a closed loop is moved by the largest
    displacement times [displaced], which SpecBend defines from the ways round
    the loop, ahead and behind.  Missing: loops that are shorter than the
    distance from which a point is stretched, loops after two or more lines of
    the layer that end no extrusion, for which C98 and C99 are false, and moves
    that name only one of X and Y (C100). *)
Theorem C96_skeinforge_partial :
  forall profile fuel (o : options (A:=RA)) (w most : R) ps ps' j p',
    stretches_skein profile fuel o w most ps ps' ->
    0 < w -> 0 < o_cross o -> 0 < o_from o -> closed ps -> o_from o * w <= perimeter ps ->
    nth_error ps' j = Some p' ->
    exists p u v, nth_error ps j = Some p /\
      pull (o_from o * w) p (ahead Skeinforge j ps) u /\ pull (o_from o * w) p (behind Skeinforge j ps) v /\
      close_to p' (plus p (times most (displaced (w * o_cross o) p (ahead Skeinforge j ps) (behind Skeinforge j ps) u v))).
Proof. exact skein_round_all. Qed.
Print Assumptions C96_skeinforge_partial.

(** A loop that is not closed: the points from which both ways are long enough. *)
Theorem C96_skeinforge_open_partial :
  forall profile fuel (o : options (A:=RA)) (w most : R) ps ps' j p p',
    stretches_skein profile fuel o w most ps ps' ->
    0 < w -> 0 < o_cross o -> 0 < o_from o -> nth_error ps j = Some p -> nth_error ps' j = Some p' ->
    o_from o * w <= path_length p (ahead Skeinforge j ps) -> o_from o * w <= path_length p (behind Skeinforge j ps) ->
    exists u v,
      pull (o_from o * w) p (ahead Skeinforge j ps) u /\ pull (o_from o * w) p (behind Skeinforge j ps) v /\
      close_to p' (plus p (times most (displaced (w * o_cross o) p (ahead Skeinforge j ps) (behind Skeinforge j ps) u v))).
Proof. exact skein_round_close. Qed.
Print Assumptions C96_skeinforge_open_partial.

(** No point of the loop is lost or added. *)
Theorem C96_skeinforge_points :
  forall profile fuel (o : options (A:=RA)) (w most : R) ps ps',
    stretches_skein profile fuel o w most ps ps' -> List.length ps' = List.length ps.
Proof. exact skein_length. Qed.
Print Assumptions C96_skeinforge_points.

(** the loop of skeinforge_square.gcode *)
Example C96_skeinforge_example : exists fuel ps',
  stretches_skein no_profile fuel default_options (72 / 100) (72 / 1000) [(-1, 0); (0, 1); (1, 0); (0, -1); (-1, 0)] ps'.
Proof. exact square_sample. Qed.

Example C96_skeinforge_long_example :
  closed [(-1, 0); (0, 1); (1, 0); (0, -1); (-1, 0)] /\ 2 * (72 / 100) <= perimeter [(-1, 0); (0, 1); (1, 0); (0, -1); (-1, 0)].
Proof. exact (conj square_closed square_long). Qed.

(** C98: a loop that ends where it starts still does.  Missing: as in C96. *)
Theorem C98_skeinforge_partial :
  forall profile fuel (o : options (A:=RA)) (w most : R) ps ps',
    stretches_skein profile fuel o w most ps ps' ->
    0 < w -> 0 < o_cross o -> 0 < o_from o -> closed ps -> o_from o * w <= perimeter ps -> closed ps'.
Proof. exact skein_closed. Qed.
Print Assumptions C98_skeinforge_partial.

(** C99: two loops with the same points, edge width and largest displacement, in
    whatever programs, are moved alike.  Missing: as in C96. *)
Theorem C99_skeinforge_partial :
  forall profile1 fuel1 profile2 fuel2 (o : options (A:=RA)) (w most : R) ps ps1 ps2,
    stretches_skein profile1 fuel1 o w most ps ps1 -> stretches_skein profile2 fuel2 o w most ps ps2 ->
    0 < w -> 0 < o_cross o -> 0 < o_from o -> closed ps -> o_from o * w <= perimeter ps -> ps1 = ps2.
Proof. exact skein_det. Qed.
Print Assumptions C99_skeinforge_partial.

(** The square of skeinforge_square.gcode, alone: closed. *)
Example C98_skeinforge_example :
  skein_stretch 100
    ["(<edgeWidth> 0.72 </edgeWidth>)"; "(<edge> outer)";
     "G1 X-1 Y0 Z0.6 F960.0"; "M101"; "G1 X0 Y1 Z0.6 F960.0"; "G1 X1 Y0 Z0.6 F960.0"; "G1 X0 Y-1 Z0.6 F960.0";
     "G1 X-1 Y0 Z0.6 F960.0"; "M103"; "(</edge>)"]%string =
  Ok ["(<edgeWidth> 0.72 </edgeWidth>)"; "(<edge> outer); stretch-loop-start stretch-outer-edge-start";
      "G1 X-1.072 Y-0.000 Z0.600 F960.000"; "M101; stretch-extrusion-on"; "G1 X-0.000 Y1.072 Z0.600 F960.000";
      "G1 X1.072 Y0.000 Z0.600 F960.000"; "G1 X0.000 Y-1.072 Z0.600 F960.000"; "G1 X-1.072 Y-0.000 Z0.600 F960.000";
      "M103; stretch-extrusion-off"; "(</edge>); stretch-loop-stop"]%string.
Proof. exact square_alone. Qed.

(** The same square after other lines of its layer: its first point is moved
    elsewhere, and it is opened.  This refutes C98 and C99. *)
Theorem C98_skeinforge_refuted :
  skein_stretch 100
    ["(<edgeWidth> 0.72 </edgeWidth>)"; "G1 Z0.6 F960.0"; "(<boundaryPerimeter>)"; "(<edge> outer)";
     "G1 X-1 Y0 Z0.6 F960.0"; "M101"; "G1 X0 Y1 Z0.6 F960.0"; "G1 X1 Y0 Z0.6 F960.0"; "G1 X0 Y-1 Z0.6 F960.0";
     "G1 X-1 Y0 Z0.6 F960.0"; "M103"; "(</edge>)"]%string =
  Ok ["(<edgeWidth> 0.72 </edgeWidth>)"; "G1 Z0.6 F960.0"; "(<boundaryPerimeter>)";
      "(<edge> outer); stretch-loop-start stretch-outer-edge-start";
      "G1 X-1.041 Y-0.039 Z0.600 F960.000"; "M101; stretch-extrusion-on"; "G1 X0.001 Y1.072 Z0.600 F960.000";
      "G1 X1.072 Y0.000 Z0.600 F960.000"; "G1 X0.000 Y-1.072 Z0.600 F960.000"; "G1 X-1.072 Y-0.000 Z0.600 F960.000";
      "M103; stretch-extrusion-off"; "(</edge>); stretch-loop-stop"]%string.
Proof. exact square_opens. Qed.
Print Assumptions C98_skeinforge_refuted.

(** So is a triangle whose perimeter, 0.86, is less than the 1.44 that are walked:
    the walk from its first point goes round for ever, the others only once. *)
Theorem C98_skeinforge_short_refuted :
  skein_stretch 100
  ["(<edgeWidth> 0.72 </edgeWidth>)"; "(<edge> outer)"; "G1 X0 Y0 Z0.6 F960.0"; "M101"; "G1 X0.2 Y0 Z0.6 F960.0";
   "G1 X0.2 Y0.3 Z0.6 F960.0"; "G1 X0 Y0 Z0.6 F960.0"; "M103"; "(</edge>)"]%string =
  Ok ["(<edgeWidth> 0.72 </edgeWidth>)"; "(<edge> outer); stretch-loop-start stretch-outer-edge-start";
      "G1 X-0.006 Y-0.009 Z0.600 F960.000"; "M101; stretch-extrusion-on"; "G1 X0.200 Y0.000 Z0.600 F960.000";
      "G1 X0.200 Y0.300 Z0.600 F960.000"; "G1 X0.000 Y0.000 Z0.600 F960.000"; "M103; stretch-extrusion-off";
      "(</edge>); stretch-loop-stop"]%string.
Proof. exact short_opens. Qed.
Print Assumptions C98_skeinforge_short_refuted.

(** C62: the filter ends if every loop that is stretched is closed and long
    enough.  Missing: the other programs, for which it is false. *)
Theorem C62_skeinforge_partial :
  forall profile (o : options (A:=RA)) (g : gcode RA) (w : R) ys,
    setup_filter profile Skeinforge (g_layers g) = Ok (Some w, ys) -> 0 < w -> 0 < o_from o ->
    all_skein o w (o_from o * w) ys ->
    exists N, forall fuel, (N <= fuel)%nat -> stretch profile fuel Skeinforge o g <> Err OutOfFuel.
Proof. exact skein_ends. Qed.
Print Assumptions C62_skeinforge_partial.

Example C62_skeinforge_example : exists (g : gcode RA) ys,
  setup_filter no_profile Skeinforge (g_layers g) = Ok (Some (lit (A:=RA) 72 2), ys) /\
  all_skein default_options (lit (A:=RA) 72 2) (2 * (72 / 100)) ys /\
  exists n y m1 m t, nth_error ys n = Some y /\ ly_lines y = m1 ++ m :: t /\
    to_stretch default_options (Some (lit (A:=RA) 72 2)) (rev (lines_of (firstn n ys) ++ m1 ++ [m])) = true.
Proof. exact square_setup. Qed.

(** A loop without extent is walked round forever. *)
Theorem C62_skeinforge_refuted : forall fuel,
  skein_stretch fuel
    ["(<edgeWidth> 0.72 </edgeWidth>)"; "(<edge> outer)"; "G1 X-1 Y0 Z0.6 F960.0"; "M101"; "G1 X-1 Y0 Z0.6 F960.0";
     "G1 X-1 Y0 Z0.6 F960.0"; "M103"; "(</edge>)"]%string = Err OutOfFuel.
Proof. exact still_loop_forever. Qed.
Print Assumptions C62_skeinforge_refuted.

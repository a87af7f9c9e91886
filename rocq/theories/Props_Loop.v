(** * Properties C96, C98-C100 and C62: stretching whole loops *)
From Coq Require Import List String Ascii Bool Reals.
From Verif Require Import PyBase Arith ArithR ArithB64 Gcoder Stretch SpecStretch SpecBend.
From Verif Require Import P_StretchRefuted P_StretchWhole P_LoopSample.
Import ListNotations.
Local Open Scope list_scope.
Local Open Scope R_scope.

(** C96, all round a loop: every point of it is moved by the largest
    displacement times [displaced], which SpecBend defines from the ways round
    the loop, ahead and behind.  Missing: the loops of Skeinforge (Props_Skein), loops with
    other marks inside, for which it is false (C98, C99), and moves that name
    only one of X and Y (C100). *)
Theorem C96_round_partial :
  forall profile fuel d (o : options (A:=RA)) (w most : R) ps ps' j p',
    stretches_loop profile fuel d o w most ps ps' -> d <> Skeinforge ->
    0 < w -> 0 < o_cross o -> 0 < o_from o -> nth_error ps' j = Some p' ->
    exists p u v, nth_error ps j = Some p /\
      pull (o_from o * w) p (ahead d j ps) u /\ pull (o_from o * w) p (behind d j ps) v /\
      close_to p' (plus p (times most (displaced (w * o_cross o) p (ahead d j ps) (behind d j ps) u v))).
Proof. exact whole_round. Qed.
Print Assumptions C96_round_partial.

(** No point of the loop is lost or added. *)
Theorem C96_points :
  forall profile fuel d (o : options (A:=RA)) (w most : R) ps ps',
    stretches_loop profile fuel d o w most ps ps' -> List.length ps' = List.length ps.
Proof. exact whole_length. Qed.
Print Assumptions C96_points.

Example C96_round_example : exists ps',
  stretches_loop no_profile 100 Slic3r default_options (4 / 10) (4 / 100) [(-1, 0); (0, 1); (1, 0); (0, -1); (-1, 0)] ps'.
Proof. exact diamond_sample. Qed.

(** C98: a loop of Slic3r that ends where it starts still does.  Missing: loops
    with other marks inside and loops of Cura, for which C98 is false, and moves
    that name only one of X and Y. *)
Theorem C98_slic3r_partial :
  forall profile fuel (o : options (A:=RA)) (w most : R) ps ps',
    stretches_loop profile fuel Slic3r o w most ps ps' ->
    0 < w -> 0 < o_cross o -> 0 < o_from o -> closed ps -> closed ps'.
Proof. exact whole_closed. Qed.
Print Assumptions C98_slic3r_partial.

Example C98_example : closed [(-1, 0); (0, 1); (1, 0); (0, -1); (-1, 0)].
Proof. exact diamond_closed. Qed.

(** Two nested squares of Slic3r: the second one is opened. *)
Theorem C98_slic3r_refuted : exists out,
  gcode_stretch 100
    ["M83"; "G1 X10 Y10 F1800 ; move to first perimeter point"; "G1 X11 Y10 E1 ; perimeter";
     "G1 X11 Y11 E1 ; perimeter"; "G1 X10 Y11 E1 ; perimeter"; "G1 X10 Y10 E1 ; perimeter";
     "G1 X9.6 Y9.6 F1800 ; move to first perimeter point"; "G1 X11.4 Y9.6 E1 ; perimeter external";
     "G1 X11.4 Y11.4 E1 ; perimeter external"; "G1 X9.6 Y11.4 E1 ; perimeter external";
     "G1 X9.6 Y9.6 E1 ; perimeter external"; "G1 X0 Y0 ; done"]%string = Ok out /\
  nth 6 out ""%string = "G1 X9.581 Y9.589 F1800.000"%string /\
  nth 10 out ""%string = "G1 X9.595 Y9.595 E0.99321 F1800.000"%string.
Proof. exact nested_opens. Qed.
Print Assumptions C98_slic3r_refuted.

(** So is a wall of Cura. *)
Theorem C98_cura_refuted : exists out,
  gcode_stretch 100
    ["M83"; "; CURA_PROFILE_STRING"; ";TYPE:WALL-OUTER"; "G0 X10 Y10 F1800"; "G1 X11 Y10 E1"; "G1 X11 Y11 E1";
     "G1 X10 Y11 E1"; "G1 X10 Y10 E1"; ";TYPE:FILL"; "G1 X0 Y0 ; done"]%string = Ok out /\
  nth 3 out ""%string = "G0 X9.968 Y9.976 F1800.000"%string /\
  nth 7 out ""%string = "G1 X9.976 Y9.968 E0.96000 F1800.000"%string.
Proof. exact wall_opens. Qed.
Print Assumptions C98_cura_refuted.

(** C99: two loops with the same points, edge width and largest displacement, in
    whatever programs, are moved alike.  Missing: as in C96. *)
Theorem C99_partial :
  forall profile1 fuel1 profile2 fuel2 d (o : options (A:=RA)) (w most : R) ps ps1 ps2,
    stretches_loop profile1 fuel1 d o w most ps ps1 -> stretches_loop profile2 fuel2 d o w most ps ps2 ->
    d <> Skeinforge -> 0 < w -> 0 < o_cross o -> 0 < o_from o -> ps1 = ps2.
Proof. exact whole_det. Qed.
Print Assumptions C99_partial.

Example C99_example : exists ps',
  stretches_loop no_profile 100 Slic3r default_options (4 / 10) (4 / 100) [(-1, 0); (0, 1); (1, 0); (0, -1); (-1, 0)] ps'.
Proof. exact diamond_sample. Qed.

(** The second square of [C98_slic3r_refuted] alone: its second point was moved
    to X11.428 Y9.572 there. *)
Theorem C99_refuted :
  (exists out, gcode_stretch 100
    ["M83"; "G1 X10 Y10 F1800 ; move to first perimeter point"; "G1 X11 Y10 E1 ; perimeter";
     "G1 X11 Y11 E1 ; perimeter"; "G1 X10 Y11 E1 ; perimeter"; "G1 X10 Y10 E1 ; perimeter";
     "G1 X9.6 Y9.6 F1800 ; move to first perimeter point"; "G1 X11.4 Y9.6 E1 ; perimeter external";
     "G1 X11.4 Y11.4 E1 ; perimeter external"; "G1 X9.6 Y11.4 E1 ; perimeter external";
     "G1 X9.6 Y9.6 E1 ; perimeter external"; "G1 X0 Y0 ; done"]%string = Ok out /\
    nth 7 out ""%string = "G1 X11.428 Y9.572 E0.96000 F1800.000"%string) /\
  (exists out, gcode_stretch 100
    ["M83"; "G1 X9.6 Y9.6 F1800 ; move to first perimeter point"; "G1 X11.4 Y9.6 E1 ; perimeter external";
     "G1 X11.4 Y11.4 E1 ; perimeter external"; "G1 X9.6 Y11.4 E1 ; perimeter external";
     "G1 X9.6 Y9.6 E1 ; perimeter external"; "G1 X0 Y0 ; done"]%string = Ok out /\
    nth 2 out ""%string = "G1 X11.405 Y9.595 E0.99321 F1800.000"%string).
Proof. exact neighbour_matters. Qed.
Print Assumptions C99_refuted.

(** The same wall of Cura after different moves: when its first line is not a
    move, as the pushing of the filament is not, the points before the wall count. *)
Theorem C99_cura_refuted :
  (exists out, gcode_stretch 100
    ["M83"; "; CURA_PROFILE_STRING"; "G1 X10 Y20 E1"; "G0 X10 Y10 F9000"; ";TYPE:WALL-OUTER"; "G1 E1 F2400";
     "G1 X10.2 Y10 E1"; "G1 X12 Y10 E1"; "G1 X12 Y12 E1"; "G1 X10 Y12 E1"; "G1 X10 Y10 E1"; ";TYPE:FILL"; "G1 X0 Y0 ; done"]%string = Ok out /\
    nth 6 out ""%string = "G1 X10.176 Y9.996 E0.97573 F959.000"%string) /\
  (exists out, gcode_stretch 100
    ["M83"; "; CURA_PROFILE_STRING"; "G1 X20 Y10 E1"; "G0 X10 Y10 F9000"; ";TYPE:WALL-OUTER"; "G1 E1 F2400";
     "G1 X10.2 Y10 E1"; "G1 X12 Y10 E1"; "G1 X12 Y12 E1"; "G1 X10 Y12 E1"; "G1 X10 Y10 E1"; ";TYPE:FILL"; "G1 X0 Y0 ; done"]%string = Ok out /\
    nth 6 out ""%string = "G1 X10.160 Y10.000 E0.96000 F959.000"%string).
Proof. exact unretract_leaks. Qed.
Print Assumptions C99_cura_refuted.

(** C100: a square, and the same square without the words that change nothing. *)
Theorem C100_refuted :
  gcode_stretch 100
    ["M83"; "G1 X10 Y10 F1800 ; move to first perimeter point"; "G1 X11 Y10 E1 ; perimeter external";
     "G1 X11 Y11 E1 ; perimeter external"; "G1 X10 Y11 E1 ; perimeter external";
     "G1 X10 Y10 E1 ; perimeter external"; "G1 X0 Y0 ; done"]%string =
  Ok ["M83"; "G1 X9.976 Y9.976 F1800.000"; "G1 X11.024 Y9.976 E0.96606 F1800.000";
      "G1 X11.024 Y11.024 E0.96606 F1800.000"; "G1 X9.976 Y11.024 E0.96606 F1800.000";
      "G1 X9.976 Y9.976 E0.96606 F1800.000"; "G1 X0 Y0 ; done ; stretch-extrusion-off ; stretch-loop-stop"]%string /\
  gcode_stretch 100
    ["M83"; "G1 X10 Y10 F1800 ; move to first perimeter point"; "G1 X11 E1 ; perimeter external";
     "G1 Y11 E1 ; perimeter external"; "G1 X10 E1 ; perimeter external"; "G1 Y10 E1 ; perimeter external"; "G1 X0 Y0 ; done"]%string =
  Ok ["M83"; "G1 X9.968 Y9.976 F1800.000"; "G1 X11.024 Y9.976 E0.96606 F1800.000"; "G1 X11.038 Y11.012 E0.96000 F1800.000";
      "G1 X9.976 Y11.032 E0.96000 F1800.000"; "G1 X9.968 Y9.976 E0.96000 F1800.000";
      "G1 X0 Y0 ; done ; stretch-extrusion-off ; stretch-loop-stop"]%string.
Proof. exact (conj small_square_stretched short_words). Qed.
Print Assumptions C100_refuted.

(** C62: this program of Cura is never finished: a wall of one move. *)
Theorem C62_cura_refuted : forall fuel,
  gcode_stretch fuel
    ["M83"; "; CURA_PROFILE_STRING"; ";TYPE:WALL-OUTER"; "G1 X0 Y0 E1 F960"; "G1 F2400 E0"; ";TYPE:WALL-INNER";
     "G1 X0.3 Y0 E1"; ";TYPE:FILL"; "G1 X2"]%string = Err OutOfFuel.
Proof. exact short_wall_forever. Qed.
Print Assumptions C62_cura_refuted.

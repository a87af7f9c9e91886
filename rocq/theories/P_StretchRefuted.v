(** * P_StretchRefuted: witnesses for C56, C60-C63, C78-C82 *)
From Coq Require Import List Ascii String ZArith NArith Bool Lia.
From Verif Require Import PyBase Arith ArithB64 Gcoder Filters Stretch SpecLoad SpecText SpecStretch Samples.
From Verif Require Import P_Load P_MachineRefuted P_ArcRefuted.
Import ListNotations.
Local Open Scope list_scope.

(** gcode_stretch in binary64 with its default settings; a Cura profile cannot be
    decoded with Python 3 *)
Definition no_profile (s : string) : res (option string) := Err TypeError.
Definition gcode_stretch (fuel : nat) (data : list string) : res (list string) :=
  stretch_main (A:=B64) no_profile fuel default_options data.

(** a small square, drawn as Slic3r does *)
Definition small_square : list string :=
  ["M83"; "G1 X10 Y10 F1800 ; move to first perimeter point"; "G1 X11 Y10 E1 ; perimeter external";
   "G1 X11 Y11 E1 ; perimeter external"; "G1 X10 Y11 E1 ; perimeter external";
   "G1 X10 Y10 E1 ; perimeter external"; "G1 X0 Y0 ; done"]%string.

Lemma small_square_stretched : gcode_stretch 100 small_square =
  Ok ["M83"; "G1 X9.976 Y9.976 F1800.000"; "G1 X11.024 Y9.976 E0.96606 F1800.000";
      "G1 X11.024 Y11.024 E0.96606 F1800.000"; "G1 X9.976 Y11.024 E0.96606 F1800.000";
      "G1 X9.976 Y9.976 E0.96606 F1800.000"; "G1 X0 Y0 ; done ; stretch-extrusion-off ; stretch-loop-stop"]%string.
Proof. vm_compute. reflexivity. Qed.

(** the same with absolute extrusion *)
Definition small_square_absolute : list string :=
  ["M82"; "G1 X10 Y10 F1800 ; move to first perimeter point"; "G1 X11 Y10 E1 ; perimeter external";
   "G1 X11 Y11 E2 ; perimeter external"; "G1 X10 Y11 E3 ; perimeter external";
   "G1 X10 Y10 E4 ; perimeter external"; "G1 X0 Y0 ; done"]%string.

Lemma absolute_unstretched : gcode_stretch 100 small_square_absolute =
  Ok ["M83"; "G1 X10 Y10 F1800 ; move to first perimeter point";
      "G1 X11.000 Y10.000 E1.00000 ; stretch-extrusion-on"; "G1 X11.000 Y11.000 E1.00000";
      "G1 X10.000 Y11.000 E1.00000"; "G1 X10.000 Y10.000 E1.00000"; "G1 X0 Y0 ; done"]%string.
Proof. vm_compute. reflexivity. Qed.

(** feedrates set before the loop *)
Lemma feed_lost : gcode_stretch 100
  ["M83"; "G1 F1800"; "G1 X10 Y10 ; move to first perimeter point"; "G1 X11 Y10 E1 ; perimeter external";
   "G1 X11 Y11 E1 ; perimeter external"; "G1 X0 Y0 ; done"]%string =
  Ok ["M83"; "G1 F1800"; "G1 X9.960 Y10.000 F959.000"; "G1 X11.024 Y9.976 E0.96606 F959.000";
      "G1 X11.000 Y11.040 E0.96000 F959.000"; "G1 X0 Y0 ; done ; stretch-extrusion-off ; stretch-loop-stop"]%string.
Proof. vm_compute. reflexivity. Qed.

(** a loop that begins with a move along X from Y10 *)
Lemma position_lost : gcode_stretch 100
  ["M83"; "G1 X10 Y10 F1800"; "G1 X20 E1 ; perimeter external"; "G1 X20 Y20 E1 ; perimeter external";
   "G1 X10 Y20 E1 ; perimeter external"; "G1 X10 Y10 E1 ; perimeter external"; "G1 X0 Y0 ; done"]%string =
  Ok ["M83"; "G1 X10 Y10 F1800"; "G1 X20.018 Y-0.036 E0.96000 F959.000"; "G1 X20.040 Y20.000 E0.96000 F959.000";
      "G1 X10.000 Y20.000 E1.00000 F959.000"; "G1 X10.000 Y9.961 E0.96137 F959.000";
      "G1 X0 Y0 ; done ; stretch-extrusion-off ; stretch-loop-stop"]%string.
Proof. vm_compute. reflexivity. Qed.

(** a loop of Cura with one move, the last of its layer; a profile *)
Lemma cura_index_error :
  gcode_stretch 100 ["M83"; "; CURA_PROFILE_STRING"; ";TYPE:WALL-OUTER"; "G1 X20 Y10 E1"]%string = Err IndexError.
Proof. vm_compute. reflexivity. Qed.

Lemma cura_type_error :
  gcode_stretch 100 ["M83"; ";TYPE:WALL-OUTER"; "G1 X20 Y10 E1"; ";CURA_PROFILE_STRING:eNrtWm1v"]%string = Err TypeError.
Proof. vm_compute. reflexivity. Qed.

(** a loop at the end of a program *)
Lemma message_printed : gcode_stretch 100
  ["M83"; "G1 X10 Y10 F1800 ; move to first perimeter point"; "G1 X20 Y10 E1 ; perimeter external"]%string =
  Ok ["This should never happen in stretch, no deactivate command was found for this thread.";
      "This should never happen in stretch, no deactivate command was found for this thread.";
      "M83"; "G1 X9.968 Y10.000 F1800.000"; "G1 X20.032 Y10.000 E0.96800 F1800.000"]%string.
Proof. vm_compute. reflexivity. Qed.

(** then the output cannot be read back *)
Lemma message_unreadable : exists out, gcode_stretch 100
  ["M83"; "G1 X10 Y10 F1800 ; move to first perimeter point"; "G1 X20 Y10 E1 ; perimeter external"]%string = Ok out /\
  load_gen (A:=B64) false home0 out = Err ValueError.
Proof. eexists. split; [vm_compute; reflexivity|]. apply is_err_eq. vm_compute. reflexivity. Qed.

(** where the head is after a program, and at which feedrate it last moved *)
Definition ends_at (data : list string) : string * string * string :=
  let m := g_m (loadF data) in (fmt 3 (abs_x m), fmt 3 (abs_y m), fmt 3 (m_f m)).

(** inches *)
Definition inch_loop : list string :=
  ["G20"; "M83"; "G1 X1 Y1 F60 ; move to first perimeter point"; "G1 X2 Y1 E1 ; perimeter external";
   "G1 X2 Y2 E1 ; perimeter external"; "G1 X1 Y1 E1 ; perimeter external"; "G1 X0 Y0 ; done"]%string.

Lemma inches_lost : exists out, gcode_stretch 100 inch_loop = Ok out /\
  ends_at (firstn 6 inch_loop) = ("25.400", "25.400", "1524.000")%string /\
  ends_at (firstn 6 out) = ("644.474", "644.474", "38709.600")%string.
Proof. eexists. split; [vm_compute; reflexivity|]. split; vm_compute; reflexivity. Qed.

(** relative positions: two sides of a square, three moves each *)
Definition relative_loop_text : list string :=
  ["M83"; "G91"; "G1 X10 Y10 F1800 ; move to first perimeter point"; "G1 X1 Y0 E1 ; perimeter external";
   "G1 X1 Y0 E1 ; perimeter external"; "G1 X1 Y0 E1 ; perimeter external"; "G1 X0 Y1 E1 ; perimeter external";
   "G1 X0 Y1 E1 ; perimeter external"; "G1 X0 Y1 E1 ; perimeter external"; "G1 X0 Y0 ; done"]%string.

Lemma relative_drifts : exists out, gcode_stretch 100 relative_loop_text = Ok out /\
  ends_at (firstn 6 relative_loop_text) = ("13.000", "10.000", "1800.000")%string /\
  ends_at (firstn 6 out) = ("13.022", "9.928", "1800.000")%string.
Proof. eexists. split; [vm_compute; reflexivity|]. split; vm_compute; reflexivity. Qed.

(** the infill of the layer after an unfinished loop *)
Lemma leak_slic3r : gcode_stretch 100
  ["M83"; "G1 Z0.2"; "G1 X10 Y10 F1800 ; move to first perimeter point"; "G1 X11 Y10 E1 ; perimeter external";
   "G1 X11 Y11 E1 ; perimeter external"; "G1 Z0.4"; "G1 X30 Y30 ; infill"; "G1 X40 Y30 E1 ; infill"]%string =
  Ok ["This should never happen in stretch, no deactivate command was found for this thread.";
      "This should never happen in stretch, no deactivate command was found for this thread.";
      "M83"; "G1 Z0.2"; "G1 X9.968 Y10.000 F1800.000"; "G1 X11.024 Y9.976 E0.96606 F1800.000";
      "G1 X11.000 Y11.032 E0.96800 F1800.000"; "G1 Z0.4"; "G1 X29.968 Y30.000 F1800.000";
      "G1 X40.032 Y30.000 E0.96800 F1800.000"]%string.
Proof. vm_compute. reflexivity. Qed.

(** the support after a wall *)
Lemma leak_cura : gcode_stretch 100
  ["; CURA_PROFILE_STRING"; "M83"; "G1 X10 Y10 F1800"; ";TYPE:WALL-OUTER"; "G1 X11 Y10 E1"; "G1 X11 Y11 E1";
   "G1 X10 Y11 E1"; "G1 X10 Y10 E1"; ";TYPE:SUPPORT"; "G1 X30 Y10 E1"; "G1 X30 Y30 E1"; "M107"]%string =
  Ok ["; CURA_PROFILE_STRING"; "M83"; "G1 X10 Y10 F1800"; ";TYPE:WALL-OUTER"; "G1 X10.972 Y9.971 E0.96000 F959.000";
      "G1 X11.024 Y11.024 E0.96606 F959.000"; "G1 X9.976 Y11.024 E0.96606 F959.000";
      "G1 X9.976 Y10.000 E0.97600 F959.000"; ";TYPE:SUPPORT"; "G1 X30.000 Y10.000 E1.00000 F959.000";
      "G1 X30.000 Y30.040 E0.96000 F959.000"; "M107 ; stretch-loop-stop"]%string.
Proof. vm_compute. reflexivity. Qed.

(** ** A program that stretches forever *)

Section Stuck.
Context {A : arith}.
Variable profile : string -> res (option string).

(** an extrusion stop right after the latest loop start: the search begins again
    where it is *)
Lemma scan_stuck : forall fuel (ls : list (line A)) f i l,
  line_at ls i = Some l -> is_first (Some f) i = false -> has off_marker l = true ->
  reset_index Slic3r Forward ls i = Some i -> scan fuel Slic3r Forward ls (Some f) i = Err OutOfFuel.
Proof.
  induction fuel as [|n IH]; intros ls f i l Hl Hf Ho Hr; [reflexivity|].
  cbn [scan]. rewrite Hl, Hf, Ho, Hr. cbn [andb stops_on_off]. apply (IH ls f i l Hl Hf Ho Hr).
Qed.

(** the check that the second line of the first layer is a move of a loop, and
    that the search from it gets stuck at the fourth *)
Definition stuck_lines (o : options (A:=A)) (w : option (num A)) (ls : list (line A)) : bool :=
  match ls with
  | l0 :: l1 :: l2 :: l3 :: _ =>
      let s := SState (option_map (edge_lengths o) w) n0 false None (lit 9590 1) in
      match read_markers s l0 with
      | Ok s0 =>
          negb (is_linear l0) && is_ok (reparse l0) &&
          match read_markers s0 l1 with
          | Ok s1 => is_linear l1 && st_loop s1 && has_xy l1 && n_ltb n0 (st_max s1) &&
                     match st_lengths s1 with Some _ => true | None => false end
          | Err _ => false
          end
      | Err _ => false
      end &&
      negb (has off_marker l2) && negb (is_linear l2 && has_xy l2) && has off_marker l3 &&
      match reparse l0 with
      | Ok l0' => match reset_index Slic3r Forward (l0' :: tl ls) 3 with Some 3%Z => true | _ => false end
      | Err _ => false
      end
  | _ => false
  end.

Lemma lines_stuck : forall fuel o w (ls : list (line A)), stuck_lines o w ls = true ->
  stretch_lines fuel Slic3r (SState (option_map (edge_lengths o) w) n0 false None (lit 9590 1)) [] ls = Err OutOfFuel.
Proof.
  intros fuel o w ls H. destruct ls as [|l0 [|l1 [|l2 [|l3 t]]]]; try discriminate H.
  unfold stuck_lines in H. cbn [tl] in H.
  set (s := SState _ _ _ _ _) in *.
  destruct (read_markers s l0) as [s0|e] eqn:E0; [|discriminate H].
  destruct (reparse l0) as [l0'|e] eqn:Er; [|rewrite !andb_false_r in H; discriminate H].
  destruct (is_linear l0) eqn:El0; [discriminate H|].
  destruct (read_markers s0 l1) as [s1|e] eqn:E1; [|discriminate H].
  destruct (is_linear l1) eqn:El1; [|discriminate H].
  destruct (st_loop s1) eqn:Elp; [|discriminate H].
  destruct (has_xy l1) eqn:Ex; [|discriminate H].
  destruct (n_ltb n0 (st_max s1)) eqn:Em; [|discriminate H].
  destruct (st_lengths s1) as [wl|] eqn:Ew; [|discriminate H].
  destruct (has off_marker l2) eqn:Eo2; [discriminate H|].
  destruct (is_linear l2 && has_xy l2) eqn:Ex2; [discriminate H|].
  destruct (has off_marker l3) eqn:Eo3; [|discriminate H].
  cbn [andb negb is_ok] in H.
  destruct (reset_index Slic3r Forward (l0' :: l1 :: l2 :: l3 :: t) 3) as [j|] eqn:Ej; [|discriminate H].
  assert (Hj : j = 3%Z).
  { destruct j as [|p|p]; try discriminate H. destruct p as [p|p|]; try discriminate H.
    destruct p as [p|p|]; try discriminate H. reflexivity. }
  subst j. clear H.
  assert (Hn : forall n it, i_first it = None -> i_index it = 2%Z ->
    get_next n Slic3r Forward (l0' :: l1 :: l2 :: l3 :: t) it = Err OutOfFuel).
  { intros n [f i] H1 H2. cbn in H1, H2. subst f i. unfold get_next. cbn [wraps bind i_index i_first].
    destruct n as [|n]; [reflexivity|]. cbn [scan].
    change (line_at (l0' :: l1 :: l2 :: l3 :: t) 2) with (Some l2).
    cbn [is_first]. rewrite Eo2. cbn [andb]. rewrite Ex2. cbn [increment].
    change (2 + 1)%Z with 3%Z. apply (scan_stuck n _ 2%Z 3%Z l3); [reflexivity|reflexivity|exact Eo3|exact Ej]. }
  assert (Ha : forall old mx p, absolute_stretch fuel Slic3r wl (l0' :: l1 :: l2 :: l3 :: t) 1 old mx p = Err OutOfFuel).
  { intros old mx p. unfold absolute_stretch, relative_stretch, new_iter.
    destruct fuel as [|n]; [reflexivity|]. cbn [relative_loop].
    change (1 + 1)%Z with 2%Z. rewrite Hn by reflexivity. reflexivity. }
  cbn [stretch_lines]. unfold parse_line at 1. rewrite E0. cbn [bind]. rewrite El0. cbn [andb bind].
  rewrite Er. cbn [bind]. unfold is_stretched at 1. rewrite El0. cbn [andb].
  unfold parse_line. cbn [app List.length]. rewrite E1. cbn [bind]. rewrite El1, Elp, Ex. cbn [andb].
  unfold stretch_line. rewrite Em, Ew. change (Z.of_nat 1) with 1%Z. rewrite Ha. reflexivity.
Qed.

Definition stuck (o : options (A:=A)) (data : list string) : bool :=
  match load_gen false home0 data with
  | Ok g =>
      match to_relative_extrusion g with
      | Ok g1 =>
          negb (is_cura_gcode g1) &&
          match setup_filter profile Slic3r (g_layers g1) with
          | Ok (w, y :: _) => stuck_lines o w (ly_lines y)
          | _ => false
          end
      | Err _ => false
      end
  | Err _ => false
  end.

Lemma stuck_forever : forall o data, stuck o data = true ->
  forall fuel, stretch_main profile fuel o data = Err OutOfFuel.
Proof.
  intros o data H fuel. unfold stuck in H. unfold stretch_main.
  destruct (load_gen false home0 data) as [g|e]; [|discriminate H]. cbn [bind].
  destruct (to_relative_extrusion g) as [g1|e]; [|discriminate H]. cbn [bind].
  destruct (is_cura_gcode g1); [discriminate H|]. cbn [negb andb] in H. unfold stretch.
  destruct (setup_filter profile Slic3r (g_layers g1)) as [[w ys]|e]; [|discriminate H]. cbn [bind].
  destruct ys as [|y ys]; [discriminate H|]. cbn [stretch_layers]. rewrite lines_stuck by exact H. reflexivity.
Qed.
End Stuck.

Definition endless : list string :=
  ["M83"; "G1 X0 E1 ; perimeter external"; "G92 E0 ; perimeter"; "G1 X5"]%string.

Lemma endless_stuck : forall fuel, gcode_stretch fuel endless = Err OutOfFuel.
Proof. apply stuck_forever. vm_compute. reflexivity. Qed.

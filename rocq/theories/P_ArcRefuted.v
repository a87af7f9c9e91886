(** * P_ArcRefuted: witnesses for C52, C53, C54, C77 *)
From Coq Require Import List Ascii String ZArith NArith Bool Reals Lra.
From Verif Require Import PyBase Arith ArithR ArithB64 Gcoder Filters Arc SpecLoad SpecText SpecMachine SpecFilter SpecArc Samples.
From Verif Require Import P_Load P_Machine P_MachineRefuted P_FilterRefuted P_ArcErr.
Import ListNotations.
Local Open Scope list_scope.

(** a quarter circle of 9 segments, counter-clockwise, absolute extrusion *)
Definition arc_ccw : list string :=
  ["G90"; "M82"; "G1 X10.000 Y0.000 F1200"; "G1 X9.848 Y1.736 E0.05";
   "G1 X9.397 Y3.420 E0.10"; "G1 X8.660 Y5.000 E0.15"; "G1 X7.660 Y6.428 E0.20"; "G1 X6.428 Y7.660 E0.25";
   "G1 X5.000 Y8.660 E0.30"; "G1 X3.420 Y9.397 E0.35"; "G1 X1.736 Y9.848 E0.40"; "G1 X0.000 Y10.000 E0.45";
   "M107"]%string.

(** the same clockwise *)
Definition arc_cw : list string :=
  ["G90"; "M82"; "G1 X10.000 Y0.000 F1200"; "G1 X9.848 Y-1.736 E0.05";
   "G1 X9.397 Y-3.420 E0.10"; "G1 X8.660 Y-5.000 E0.15"; "G1 X7.660 Y-6.428 E0.20"; "G1 X6.428 Y-7.660 E0.25";
   "G1 X5.000 Y-8.660 E0.30"; "G1 X3.420 Y-9.397 E0.35"; "G1 X1.736 Y-9.848 E0.40"; "G1 X0.000 Y-10.000 E0.45";
   "M107"]%string.

(** the same in relative extrusion mode *)
Definition arc_rel_e : list string :=
  ["G90"; "M83"; "G1 X10.000 Y0.000 F1200"; "G1 X9.848 Y-1.736 E0.05";
   "G1 X9.397 Y-3.420 E0.05"; "G1 X8.660 Y-5.000 E0.05"; "G1 X7.660 Y-6.428 E0.05"; "G1 X6.428 Y-7.660 E0.05";
   "G1 X5.000 Y-8.660 E0.05"; "G1 X3.420 Y-9.397 E0.05"; "G1 X1.736 Y-9.848 E0.05"; "G1 X0.000 Y-10.000 E0.05";
   "M107"]%string.

(** the first one, behind a G92 *)
Definition arc_rebased_x : list string :=
  ["G92 X5"; "G90"; "M82"; "G1 X10.000 Y0.000 F1200";
   "G1 X9.848 Y1.736 E0.05"; "G1 X9.397 Y3.420 E0.10"; "G1 X8.660 Y5.000 E0.15"; "G1 X7.660 Y6.428 E0.20";
   "G1 X6.428 Y7.660 E0.25"; "G1 X5.000 Y8.660 E0.30"; "G1 X3.420 Y9.397 E0.35"; "G1 X1.736 Y9.848 E0.40";
   "G1 X0.000 Y10.000 E0.45"; "M107"]%string.

(** the first one in relative coordinates *)
Definition arc_relative : list string :=
  ["G1 X10.000 Y0 F1200"; "G91"; "G1 X-0.152 Y1.736 E0.05"; "G1 X-0.451 Y1.684 E0.05";
   "G1 X-0.737 Y1.580 E0.05"; "G1 X-1.000 Y1.428 E0.05"; "G1 X-1.232 Y1.232 E0.05"; "G1 X-1.428 Y1.000 E0.05";
   "G1 X-1.580 Y0.737 E0.05"; "G1 X-1.684 Y0.451 E0.05"; "G1 X-1.736 Y0.152 E0.05"; "M107"]%string.

(** the first one; its first segment goes up to Z1 *)
Definition arc_lifted : list string :=
  ["G90"; "M82"; "G1 X10.000 Y0.000 F1200"; "G1 X9.848 Y1.736 E0.05 Z1";
   "G1 X9.397 Y3.420 E0.10"; "G1 X8.660 Y5.000 E0.15"; "G1 X7.660 Y6.428 E0.20"; "G1 X6.428 Y7.660 E0.25";
   "G1 X5.000 Y8.660 E0.30"; "G1 X3.420 Y9.397 E0.35"; "G1 X1.736 Y9.848 E0.40"; "G1 X0.000 Y10.000 E0.45";
   "M107"]%string.

(** the first one, behind a comment *)
Definition arc_comment : list string :=
  ["; start"; "G1 X9.848 Y1.736 E0.05"; "G1 X9.397 Y3.420 E0.10"; "G1 X8.660 Y5.000 E0.15";
   "G1 X7.660 Y6.428 E0.20"; "G1 X6.428 Y7.660 E0.25"; "G1 X5.000 Y8.660 E0.30"; "G1 X3.420 Y9.397 E0.35";
   "G1 X1.736 Y9.848 E0.40"; "G1 X0.000 Y10.000 E0.45"; "M107"]%string.

(** the first one without extrusion *)
Definition arc_travel : list string :=
  ["G90"; "M82"; "G1 X10.000 Y0.000 F1200"; "G1 X9.848 Y1.736";
   "G1 X9.397 Y3.420"; "G1 X8.660 Y5.000"; "G1 X7.660 Y6.428"; "G1 X6.428 Y7.660";
   "G1 X5.000 Y8.660"; "G1 X3.420 Y9.397"; "G1 X1.736 Y9.848"; "G1 X0.000 Y10.000";
   "M107"]%string.

(** a diagonal *)
Definition arc_line : list string :=
  ["G1 X1 Y1 E1"; "G1 X2 Y2 E2"; "G1 X3 Y3 E3"; "G1 X4 Y4 E4";
   "G1 X5 Y5 E5"; "G1 X6 Y6 E6"; "G1 X7 Y7 E7"; "G1 X8 Y8 E8";
   "G1 X9 Y9 E9"; "G1 X10 Y10 E10"; "G1 X11 Y11 E11"]%string.

(** extrusion without moving *)
Definition arc_prime : list string :=
  ["G1 E1"; "G1 E2"; "G1 E3"; "G1 E4";
   "G1 E5"; "G1 E6"; "G1 E7"; "G1 E8";
   "G1 E9"; "G1 E10"; "G1 E11"]%string.

(** clockwise, 8 steps of 5 degrees and one of 45 degrees *)
Definition arc_cut : list string :=
  ["G90"; "M82"; "G1 X10.000 Y0.000 F1200"; "G1 X9.962 Y-0.872 E0.02618"; "G1 X9.848 Y-1.736 E0.05233";
   "G1 X9.659 Y-2.588 E0.07851"; "G1 X9.397 Y-3.420 E0.10468"; "G1 X9.063 Y-4.226 E0.13085";
   "G1 X8.660 Y-5.000 E0.15703"; "G1 X8.192 Y-5.736 E0.18320"; "G1 X7.660 Y-6.428 E0.20938";
   "G1 X0.872 Y-9.962 E0.43897"; "M107"]%string.

(** 8 steps of 4 degrees to the left, then 40 degrees back *)
Definition arc_hairpin : list string :=
  ["G90"; "M82"; "G1 X30.000 Y0.000 F1200"; "G1 X29.927 Y2.093 E0.06283"; "G1 X29.708 Y4.175 E0.12563";
   "G1 X29.344 Y6.237 E0.18845"; "G1 X28.838 Y8.269 E0.25127"; "G1 X28.191 Y10.261 E0.31410";
   "G1 X27.406 Y12.202 E0.37692"; "G1 X26.488 Y14.084 E0.43973"; "G1 X25.441 Y15.898 E0.50257";
   "G1 X29.708 Y-4.175 E1.11821"; "M107"]%string.

Definition arcF (g : gcode B64) : gcode B64 := get empty_program (optimize_arcs g).
Lemma arcF_ok : forall g, is_ok (optimize_arcs (A:=B64) g) = true -> optimize_arcs g = Ok (arcF g).
Proof. intros g H. apply is_ok_get, H. Qed.

Ltac load_and_optimise :=
  eexists _, _; split; [apply loadF_ok; vm_compute; reflexivity|];
  split; [apply arcF_ok; vm_compute; reflexivity|]; split; [vm_compute; reflexivity|].

(** the example used beside the theorems: an arc is found *)
Lemma arc_found :
  exists g g' : gcode B64, load_gen false home0 arc_ccw = Ok g /\ optimize_arcs g = Ok g' /\
    write g' = ["G90"; "M82"; "G1 X10.000 Y0.000 F1200";
      "G3 X0.000 Y10.000 E0.45057 F1200.000 I-10.001 J-0.001; generated from 9 segments"; "M107"]%string.
Proof. eexists _, _. split; [apply loadF_ok; vm_compute; reflexivity|].
  split; [apply arcF_ok; vm_compute; reflexivity|vm_compute; reflexivity]. Qed.

(** *** C52 *)

Definition arc_raises (e : exn) (data : list string) : Prop :=
  exists g : gcode B64, load_gen false home0 data = Ok g /\ optimize_arcs g = Err e.

Definition is_err {T} (e : exn) (r : res T) : bool :=
  match r, e with
  | Err TypeError, TypeError | Err ValueError, ValueError | Err ZeroDivisionError, ZeroDivisionError => true
  | _, _ => false
  end.
Lemma is_err_eq : forall T e (r : res T), is_err e r = true -> r = Err e.
Proof. intros T e [x|[]] H; cbn in H; destruct e; try discriminate H; reflexivity. Qed.

Lemma arc_crashes : arc_raises TypeError arc_comment /\ arc_raises ZeroDivisionError arc_travel /\
  arc_raises ZeroDivisionError arc_line /\ arc_raises ZeroDivisionError arc_prime.
Proof.
  repeat apply conj; eexists; (split; [apply loadF_ok; vm_compute; reflexivity|]);
    apply is_err_eq; vm_compute; reflexivity.
Qed.

(** *** C53 *)

Definition home_at0 : axis -> R := fun _ => 0%R.

Lemma arc_clockwise_refuted :
  exists g g' : gcode B64, load_gen false home0 arc_cw = Ok g /\ optimize_arcs g = Ok g' /\
    write g' = ["G90"; "M82"; "G1 X10.000 Y0.000 F1200";
      "G2 X0.000 Y-10.000 E-0.45057 F1200.000 I-10.001 J0.001; generated from 9 segments"; "M107"]%string /\
    extruder (run arc_cw (start home_at0)) = (45 / 100)%R /\
    extruder (run ["G90"; "M82"; "G1 X10.000 Y0.000 F1200";
      "G2 X0.000 Y-10.000 E-0.45057 F1200.000 I-10.001 J0.001; generated from 9 segments"; "M107"]%string
      (start home_at0)) = (- 45057 / 100000)%R.
Proof. load_and_optimise. split; run_machine. Qed.

(** *** C54 *)

Lemma arc_rebased_refuted :
  exists g g' : gcode B64, load_gen false home0 arc_rebased_x = Ok g /\ optimize_arcs g = Ok g' /\
    write g' = ["G92 X5"; "G90"; "M82"; "G1 X10.000 Y0.000 F1200";
      "G3 X-5.000 Y10.000 E0.45057 F1200.000 I-10.001 J-0.001; generated from 9 segments"; "M107"]%string /\
    head (run arc_rebased_x (start home_at0)) X = (-5)%R /\
    head (run ["G92 X5"; "G90"; "M82"; "G1 X10.000 Y0.000 F1200";
      "G3 X-5.000 Y10.000 E0.45057 F1200.000 I-10.001 J-0.001; generated from 9 segments"; "M107"]%string
      (start home_at0)) X = (-10)%R.
Proof. load_and_optimise. split; run_machine. Qed.

Lemma arc_relative_refuted :
  exists g g' : gcode B64, load_gen false home0 arc_relative = Ok g /\ optimize_arcs g = Ok g' /\
    write g' = ["G1 X10.000 Y0 F1200"; "G91"; "G1 X-0.152 Y1.736 E0.05";
      "G3 X0.000 Y10.000 E0.40051 F1200.000 I-9.849 J-1.737; generated from 8 segments"; "M107"]%string /\
    head (run arc_relative (start home_at0)) X = 0%R /\
    head (run ["G1 X10.000 Y0 F1200"; "G91"; "G1 X-0.152 Y1.736 E0.05";
      "G3 X0.000 Y10.000 E0.40051 F1200.000 I-9.849 J-1.737; generated from 8 segments"; "M107"]%string
      (start home_at0)) X = (9848 / 1000)%R.
Proof. load_and_optimise. split; run_machine. Qed.

(** *** C77 *)

Lemma arc_height_refuted :
  exists g g' : gcode B64, load_gen false home0 arc_lifted = Ok g /\ optimize_arcs g = Ok g' /\
    write g' = ["G90"; "M82"; "G1 X10.000 Y0.000 F1200";
      "G3 X0.000 Y10.000 E0.45057 F1200.000 I-10.001 J-0.001; generated from 9 segments"; "M107"]%string /\
    head (run arc_lifted (start home_at0)) Z = 1%R /\
    head (run ["G90"; "M82"; "G1 X10.000 Y0.000 F1200";
      "G3 X0.000 Y10.000 E0.45057 F1200.000 I-10.001 J-0.001; generated from 9 segments"; "M107"]%string
      (start home_at0)) Z = 0%R.
Proof. load_and_optimise. split; run_machine. Qed.

(** *** C94, C95 *)

Lemma arc_spacing_refuted :
  exists g g' : gcode B64, load_gen false home0 arc_cut = Ok g /\ optimize_arcs g = Ok g' /\
    write g' = ["G90"; "M82"; "G1 X10.000 Y0.000 F1200";
      "G2 X0.872 Y-9.962 E-0.44505 F1200.000 I-10.000 J0.000; generated from 9 segments"; "M107"]%string /\
    (distance 0 0 ((7660 + 872) / 2 / 1000) (- (6428 + 9962) / 2 / 1000) < 925 / 100)%R.
Proof.
  load_and_optimise. unfold distance.
  apply Rle_lt_trans with (sqrt ((924 / 100) * (924 / 100))); [apply sqrt_le_1; lra|].
  rewrite sqrt_square by lra. lra.
Qed.

Lemma arc_turn_refuted :
  exists g g' : gcode B64, load_gen false home0 arc_hairpin = Ok g /\ optimize_arcs g = Ok g' /\
    write g' = ["G90"; "M82"; "G1 X30.000 Y0.000 F1200";
      "G3 X29.708 Y-4.175 E-0.12566 F1200.000 I-29.998 J0.000; generated from 9 segments"; "M107"]%string /\
    (left_of (2 / 1000) 0 (30, 0) (29708 / 1000, - 4175 / 1000) < 0)%R.
Proof. load_and_optimise. unfold left_of. cbn [fst snd]. lra. Qed.

(** * P_FilterRefuted: witnesses for C28, C31, C33, C34, C35 *)
From Coq Require Import List Ascii String ZArith NArith Bool Reals Lra.
From Verif Require Import PyBase Arith ArithR ArithB64 Gcoder Filters SpecLoad SpecText SpecMachine SpecFilter Samples.
From Verif Require Import P_Load P_Machine P_MachineRefuted.
Import ListNotations.
Local Open Scope list_scope.

Definition relF (g : gcode B64) : gcode B64 := get empty_program (to_relative_extrusion g).
Definition trF (x y : option (num B64)) (g : gcode B64) : gcode B64 := get empty_program (translate x y g).

Lemma relF_ok : forall g, is_ok (to_relative_extrusion (A:=B64) g) = true -> to_relative_extrusion g = Ok (relF g).
Proof. intros g H. apply is_ok_get, H. Qed.
Lemma trF_ok : forall x y g, is_ok (translate (A:=B64) x y g) = true -> translate x y g = Ok (trF x y g).
Proof. intros x y g H. apply is_ok_get, H. Qed.

Definition some_num (n : N) : option (num B64) := Some (lit n 0).

Ltac run_machine :=
  cbv -[Rplus Rminus Rmult Rdiv Rinv Ropp IZR pow]; cbn [pow]; lra.

(** *** C28 *)

Lemma rel_undeclared_refuted :
  exists g g' : gcode B64,
    load_gen false home0 ["G1 X1 E1"; "G1 X2 E2"]%string = Ok g /\ to_relative_extrusion g = Ok g' /\
    write g' = ["G1 X1.000 E1.00000"; "G1 X2.000 E1.00000"]%string /\
    extruder (run ["G1 X1 E1"; "G1 X2 E2"]%string (start (fun _ => 0%R))) = 2%R /\
    extruder (run ["G1 X1.000 E1.00000"; "G1 X2.000 E1.00000"]%string (start (fun _ => 0%R))) = 1%R.
Proof.
  eexists _, _. split; [apply loadF_ok; vm_compute; reflexivity|].
  split; [apply relF_ok; vm_compute; reflexivity|]. split; [vm_compute; reflexivity|].
  split; run_machine.
Qed.

Lemma rel_g90_refuted :
  exists g g' : gcode B64,
    load_gen false home0 ["M82"; "G90"; "G1 X1 E1"; "G1 X2 E2"]%string = Ok g /\ to_relative_extrusion g = Ok g' /\
    write g' = ["M83"; "G90"; "G1 X1.000 E1.00000"; "G1 X2.000 E1.00000"]%string /\
    extruder (run ["M82"; "G90"; "G1 X1 E1"; "G1 X2 E2"]%string (start (fun _ => 0%R))) = 2%R /\
    extruder (run ["M83"; "G90"; "G1 X1.000 E1.00000"; "G1 X2.000 E1.00000"]%string (start (fun _ => 0%R))) = 1%R.
Proof.
  eexists _, _. split; [apply loadF_ok; vm_compute; reflexivity|].
  split; [apply relF_ok; vm_compute; reflexivity|]. split; [vm_compute; reflexivity|].
  split; run_machine.
Qed.

Lemma rel_g91_refuted :
  exists g g' : gcode B64,
    load_gen false home0 ["M82"; "G1 X1 E100"; "G91"; "G1 E-1"]%string = Ok g /\ to_relative_extrusion g = Ok g' /\
    write g' = ["M83"; "G1 X1.000 E100.00000"; "G91"; "G1 E-101.00000"]%string /\
    extruder (run ["M82"; "G1 X1 E100"; "G91"; "G1 E-1"]%string (start (fun _ => 0%R))) = 99%R /\
    extruder (run ["M83"; "G1 X1.000 E100.00000"; "G91"; "G1 E-101.00000"]%string (start (fun _ => 0%R))) = (-1)%R.
Proof.
  eexists _, _. split; [apply loadF_ok; vm_compute; reflexivity|].
  split; [apply relF_ok; vm_compute; reflexivity|]. split; [vm_compute; reflexivity|].
  split; run_machine.
Qed.

Lemma rel_stale_refuted :
  exists g g' : gcode B64,
    load_gen false home0 ["M83"; "G1 X1 E5"; "M82"; "G1 X2 E6"]%string = Ok g /\ to_relative_extrusion g = Ok g' /\
    write g' = ["M83"; "G1 X1 E5"; "M83"; "G1 X2.000 E6.00000"]%string /\
    extruder (run ["M83"; "G1 X1 E5"; "M82"; "G1 X2 E6"]%string (start (fun _ => 0%R))) = 6%R /\
    extruder (run ["M83"; "G1 X1 E5"; "M83"; "G1 X2.000 E6.00000"]%string (start (fun _ => 0%R))) = 11%R.
Proof.
  eexists _, _. split; [apply loadF_ok; vm_compute; reflexivity|].
  split; [apply relF_ok; vm_compute; reflexivity|]. split; [vm_compute; reflexivity|].
  split; run_machine.
Qed.

(** *** C31 *)

Lemma rel_twice_refuted :
  exists g g1 g2 : gcode B64,
    load_gen false home0 ["G1 X1 E1"; "G1 X2 E2"]%string = Ok g /\
    to_relative_extrusion g = Ok g1 /\ to_relative_extrusion g1 = Ok g2 /\
    write g1 = ["G1 X1.000 E1.00000"; "G1 X2.000 E1.00000"]%string /\
    write g2 = ["G1 X1.000 E1.00000"; "G1 X2.000 E0.00000"]%string.
Proof.
  eexists _, _, _. split; [apply loadF_ok; vm_compute; reflexivity|].
  split; [apply relF_ok; vm_compute; reflexivity|]. split; [apply relF_ok; vm_compute; reflexivity|].
  split; vm_compute; reflexivity.
Qed.

(** *** C33 *)

(** no G90: nothing is shifted; in relative mode nothing is shifted either *)
Lemma tr_undeclared_refuted :
  exists g g' : gcode B64, load_gen false home0 ["G28"; "G1 X5 Y5"]%string = Ok g /\
    translate (some_num 10) None g = Ok g' /\ write g' = ["G28"; "G1 X5 Y5"]%string.
Proof.
  eexists _, _. split; [apply loadF_ok; vm_compute; reflexivity|].
  split; [apply trF_ok; vm_compute; reflexivity|]. vm_compute; reflexivity.
Qed.

Lemma tr_relative_refuted :
  exists g g' : gcode B64, load_gen false home0 ["G28"; "G90"; "G91"; "G1 X5 Y5"]%string = Ok g /\
    translate (some_num 10) None g = Ok g' /\ write g' = ["G28"; "G90"; "G91"; "G1 X5 Y5"]%string.
Proof.
  eexists _, _. split; [apply loadF_ok; vm_compute; reflexivity|].
  split; [apply trF_ok; vm_compute; reflexivity|]. vm_compute; reflexivity.
Qed.

(** after a G92 E0 in the middle of the print the head is off by 25 *)
Lemma tr_rebase_refuted :
  exists g g' : gcode B64,
    load_gen false home0 ["G90"; "G1 X5 Y5"; "G92 E0"; "G1 X6 Y6"]%string = Ok g /\
    translate (some_num 10) None g = Ok g' /\
    write g' = ["G90"; "G1 X15.000 Y5.000"; "G92 X-10.000 Y-0.000 E0.00000"; "G1 X6 Y6"]%string /\
    head (run ["G90"; "G1 X5 Y5"; "G92 E0"; "G1 X6 Y6"]%string (start (fun _ => 0%R))) X = 6%R /\
    head (run ["G90"; "G1 X15.000 Y5.000"; "G92 X-10.000 Y-0.000 E0.00000"; "G1 X6 Y6"]%string
              (start (fun _ => 0%R))) X = 31%R.
Proof.
  eexists _, _. split; [apply loadF_ok; vm_compute; reflexivity|].
  split; [apply trF_ok; vm_compute; reflexivity|]. split; [vm_compute; reflexivity|].
  split; run_machine.
Qed.

(** *** C34 *)

Lemma tr_zero_refuted :
  exists g g' : gcode B64,
    load_gen false home0 ["G90"; "G1 X5 Y5"; "G92 E0"; "G1 X6 Y6"]%string = Ok g /\
    translate (some_num 0) (some_num 0) g = Ok g' /\
    write g' = ["G90"; "G1 X5 Y5"; "G92 X-0.000 Y-0.000 E0.00000"; "G1 X6 Y6"]%string /\
    head (run ["G90"; "G1 X5 Y5"; "G92 E0"; "G1 X6 Y6"]%string (start (fun _ => 0%R))) X = 6%R /\
    head (run ["G90"; "G1 X5 Y5"; "G92 X-0.000 Y-0.000 E0.00000"; "G1 X6 Y6"]%string
              (start (fun _ => 0%R))) X = 11%R.
Proof.
  eexists _, _. split; [apply loadF_ok; vm_compute; reflexivity|].
  split; [apply trF_ok; vm_compute; reflexivity|]. split; [vm_compute; reflexivity|].
  split; run_machine.
Qed.

(** *** C35 *)

Lemma tr_inch_refuted :
  exists g g' : gcode B64,
    load_gen false home0 ["G20"; "G90"; "G1 X1"]%string = Ok g /\
    translate (some_num 1) None g = Ok g' /\ write g' = ["G20"; "G90"; "G1 X26.400"]%string /\
    head (run ["G20"; "G90"; "G1 X1"]%string (start (fun _ => 0%R))) X = (254 / 10)%R /\
    head (run ["G20"; "G90"; "G1 X26.400"]%string (start (fun _ => 0%R))) X = (67056 / 100)%R.
Proof.
  eexists _, _. split; [apply loadF_ok; vm_compute; reflexivity|].
  split; [apply trF_ok; vm_compute; reflexivity|]. split; [vm_compute; reflexivity|].
  split; run_machine.
Qed.

Lemma rel_inch_refuted :
  exists g g' : gcode B64,
    load_gen false home0 ["G20"; "M82"; "G1 X1 E1"]%string = Ok g /\
    to_relative_extrusion g = Ok g' /\ write g' = ["G20"; "M83"; "G1 X25.400 E25.40000"]%string /\
    head (run ["G20"; "M82"; "G1 X1 E1"]%string (start (fun _ => 0%R))) X = (254 / 10)%R /\
    head (run ["G20"; "M83"; "G1 X25.400 E25.40000"]%string (start (fun _ => 0%R))) X = (64516 / 100)%R.
Proof.
  eexists _, _. split; [apply loadF_ok; vm_compute; reflexivity|].
  split; [apply relF_ok; vm_compute; reflexivity|]. split; [vm_compute; reflexivity|].
  split; run_machine.
Qed.

(** ** For the examples *)

(** a filter that doubles every M104 and drops the comments *)
Definition demo_filter (n : nat) (l : line B64) : res (nat * fresult) :=
  match command l with
  | None => Ok (S n, FList [])
  | Some c => if String.eqb c "M104" then Ok (S n, FList [l; l]) else Ok (S n, FNone)
  end.

Definition rebasing : list string :=
  ["M83"; "G1 E-1"; "M82"; "G92 E0"; "G1 X1 E1"; "G1 X2 E2.5"; "M83"; "G1 E-1"; "G1 E1"; "M82"; "G92 E0";
   "G1 X3 E7.123456"]%string.

Definition declares (l : line B64) : bool := is_command "M82" l || is_command "M83" l.
Fixpoint e_declaredb (seen : bool) (ls : list (line B64)) : bool :=
  match ls with
  | [] => true
  | l :: t => (seen || negb (is_motion l && match l_e l with Some _ => true | None => false end))
              && e_declaredb (seen || declares l) t
  end.

Lemma e_declaredb_ok : forall ls seen, e_declaredb seen ls = true ->
  forall i l, nth_error ls i = Some l -> is_motion l = true -> l_e l <> None ->
    seen = true \/ exists l0, In l0 (firstn i ls) /\ (is_command "M82" l0 = true \/ is_command "M83" l0 = true).
Proof.
  induction ls as [|a ls IH]; intros seen H i l Hi Hm He; [destruct i; discriminate Hi|].
  cbn [e_declaredb] in H. apply andb_prop in H as [H1 H2]. destruct i as [|i]; cbn in Hi.
  - injection Hi as <-. rewrite Hm in H1. destruct (l_e a); [|congruence]. left.
    destruct seen; [reflexivity|discriminate H1].
  - destruct (IH _ H2 i l Hi Hm He) as [Hs|(l0 & Hin & Hl)].
    + apply orb_prop in Hs as [Hs|Hs]; [now left|]. right. exists a. split; [now left|].
      apply orb_prop in Hs. exact Hs.
    + right. exists l0. split; [now right|exact Hl].
Qed.

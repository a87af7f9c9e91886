(** * P_TempcalRefuted: witnesses for C44-C46, and examples *)
From Coq Require Import List Ascii String ZArith NArith Bool Reals.
From Verif Require Import PyBase Arith ArithQ ArithB64 Gcoder Samples Tempcal SpecTempcal.
From Verif Require Import P_Tempcal.
Import ListNotations.
Local Open Scope list_scope.

(** five layers *)
Definition tower : list string :=
  ["G90"; "M83"; "G1 Z1"; "G1 X1 E1"; "G1 Z2"; "G1 X1 E1"; "G1 Z3"; "G1 X1 E1";
   "G1 Z4"; "G1 X1 E1"; "G1 Z5"; "G1 X1 E1"]%string.

Lemma overshoot_refuted :
  exists out, tempcal_main (A:=B64) false None 220 210 (lit 1 1)
    ["G90"; "M83"; "G1 Z1"; "G1 X1 E1"; "G1 Z2"; "G1 X1 E1"; "G1 Z3"; "G1 X1 E1";
     "G1 Z4"; "G1 X1 E1"; "G1 Z5"; "G1 X1 E1"]%string = (out, None) /\
    added out = ["M104 S217.8"; "M104 S215.6"; "M104 S213.4"; "M104 S211.2"; "M104 S209.0"]%string.
Proof. eexists. split; vm_compute; reflexivity. Qed.

Lemma steps_refuted :
  exists (g : gcode B64) out, load_gen false home0
    ["G90"; "M83"; "G1 Z1"; "G1 X1 E1"; "G1 Z2"; "G1 X1 E1"; "G1 Z3"; "G1 X1 E1";
     "G1 Z4"; "G1 X1 E1"; "G1 Z5"; "G1 X1 E1"]%string = Ok g /\
    tempcal (Steps (StepsInt 2)) (lit 200 0) (lit 220 0) (lit 1 1) g = (out, None) /\
    NoDup (added out) /\ List.length (added out) = 4.
Proof.
  exists (get empty_program (load_gen (A:=B64) false home0 tower)).
  eexists. split; [apply is_ok_get; vm_compute; reflexivity|]. split; [vm_compute; reflexivity|].
  split; [|reflexivity]. vm_compute.
  repeat (constructor; [intros H; repeat (destruct H as [H|H]; [discriminate H|]); exact H|]). constructor.
Qed.

Lemma min_z_refuted :
  exists out, tempcal_main (A:=B64) true None 220 210 (lit 3 0)
    ["G90"; "M83"; "G1 Z1"; "G1 X1 E1"; "G1 Z2"; "G1 X1 E1"; "G1 Z3"; "G1 X1 E1";
     "G1 Z4"; "G1 X1 E1"; "G1 Z5"; "G1 X1 E1"]%string = (out, None) /\
    firstn 6 (map text_of out) =
      ["G90"; "M83"; "M104 S218.0"; "G1 Z1"; "G1 X1 E1"; "M104 S216.0"]%string.
Proof. eexists. split; vm_compute; reflexivity. Qed.

(** the same program in exact arithmetic *)
Definition towerQ : gcode QA := get empty_program (load_gen (A:=QA) false home0 tower).
Lemma towerQ_loaded : load_gen (A:=QA) false home0 tower = Ok towerQ.
Proof. apply is_ok_get. vm_compute. reflexivity. Qed.

Lemma towerQ_lowest : exists z, lowest exactQ (val exactQ (lit 1 1)) (start_heights (g_layers towerQ)) z /\
  (z < val exactQ (g_zmax towerQ))%R.
Proof.
  destruct (find_zmin (lit 1 1) towerQ) as [z|e] eqn:H.
  - exists (val exactQ z). exact (find_zmin_ok exactQ _ _ _ H).
  - exfalso. assert (Ho : is_ok (find_zmin (lit 1 1) towerQ) = true) by (vm_compute; reflexivity).
    rewrite H in Ho. discriminate Ho.
Qed.

(** a program without height *)
Definition flatQ : gcode QA := get empty_program (load_gen (A:=QA) false home0 ["G90"; "M83"; "G1 X1 E1"]%string).

Lemma flatQ_refused : tempcal Continuous (lit 200 0) (lit 220 0) (lit 1 1) flatQ = ([], Some RuntimeError).
Proof. vm_compute. reflexivity. Qed.

(** a program that starts above the limit and goes below it *)
Definition hanging : list string :=
  ["G1 Z1"; "M83"; "G1 X1 E1"; "G1 Z0.2"; "G1 X2 E1"; "G1 Z3"; "G1 X1 E1"]%string.

Lemma above_example :
  exists g : gcode QA, load_gen false home0 ["G1 Z1"; "M83"; "G1 X1 E1"; "G1 Z0.2"; "G1 X2 E1"; "G1 Z3"; "G1 X1 E1"]%string
    = Ok g /\
  map (fun z => fmt 1 z) (start_heights (g_layers g)) = ["1.0"; "0.2"; "3.0"]%string /\
  added (fst (tempcal (A:=QA) Continuous (lit 210 0) (lit 220 0) (lit 5 1) g)) =
  ["M104 S210.0"; "M104 S220.0"]%string.
Proof.
  exists (get empty_program (load_gen (A:=QA) false home0 hanging)).
  split; [apply is_ok_get; vm_compute; reflexivity|]. split; vm_compute; reflexivity.
Qed.

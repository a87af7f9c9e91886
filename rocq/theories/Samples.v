(** * Samples: concrete programs used by the examples and refutations *)
From Coq Require Import List String ZArith.
From Verif Require Import PyBase Arith ArithQ ArithB64 Gcoder.
Import ListNotations.
Local Open Scope string_scope.

(** A small two-layer print in absolute coordinates. *)
Definition cube : list string :=
  ["; sample"; "G28"; "G90"; "M82"; "  "; "G92 E0"; "G1 Z0.3 F1200"; "G1 X10 Y10 E1";
   "G1 X20 Y10 E2.5 "; "G1 Z0.6"; "G1 X20 Y20 E4"; "M104 S200"; "G1 X10 Y20 E5"].

Definition is_ok {T} (r : res T) : bool := match r with Ok _ => true | Err _ => false end.
Definition get {T} (d : T) (r : res T) : T := match r with Ok x => x | Err _ => d end.

Definition empty_program {A : arith} : gcode A :=
  GCode false [] [] [] [] [] 0 (init_mstate home0) n0 n0 n0 n0 n0 n0 n0 n0 None.

Lemma is_ok_get : forall T (d : T) r, is_ok r = true -> r = Ok (get d r).
Proof. intros T d [x|e] H; [reflexivity|discriminate H]. Qed.

(** [vm_compute] must only be used on goals whose normal form does not mention
    the arithmetic record, hence the detour through [is_ok]. *)
Definition cubeQ : gcode QA := get empty_program (load_gen (A:=QA) false home0 cube).
Definition cubeF : gcode B64 := get empty_program (load_gen (A:=B64) false home0 cube).

Lemma cubeQ_loaded : load_gen (A:=QA) false home0 cube = Ok cubeQ.
Proof. apply is_ok_get. vm_compute. reflexivity. Qed.
Lemma cubeF_loaded : load_gen (A:=B64) false home0 cube = Ok cubeF.
Proof. apply is_ok_get. vm_compute. reflexivity. Qed.

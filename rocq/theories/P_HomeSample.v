(** * P_HomeSample: programs loaded with two home positions (C130) *)
From Coq Require Import List Bool String NArith.
From Verif Require Import PyBase Arith ArithB64 Gcoder SpecText SpecLoad SpecMachine SpecHome Samples.
Import ListNotations.
Open Scope bool_scope.

Definition home_away : num B64 * num B64 * num B64 := (lit 100 0, lit 50 0, n0).

(** relative moves: after homing they start at the home position *)
Definition from_home : list string := ["G28"; "G91"; "G1 Z0.2"; "G1 X5 Y5 E1 F600"; "G1 Z0.2"; "G1 X5 E1"]%string.
Definition from_here : list string := ["G91"; "G1 Z0.2"; "G1 X5 Y5 E1 F600"; "G1 Z0.2"; "G1 X5 E1"]%string.

Definition reaches (home : num B64 * num B64 * num B64) (data : list string) (x : num B64) : bool :=
  match load_gen (A:=B64) false home data with Ok g => n_eqb (g_xmax g) x && Nat.leb 3 (List.length (g_layers g)) | Err _ => false end.

Lemma two_homes : reaches home0 from_home (lit 10 0) = true /\ reaches home_away from_home (lit 110 0) = true /\
  reaches home0 from_here (lit 10 0) = true.
Proof. split; [|split]; vm_compute; reflexivity. Qed.

Lemma reaches_loaded : forall home data x, reaches home data x = true ->
  exists g, load_gen (A:=B64) false home data = Ok g /\ n_eqb (g_xmax g) x = true.
Proof.
  intros home data x H. unfold reaches in H. destruct (load_gen (A:=B64) false home data) as [g|e]; [|discriminate H].
  apply andb_prop in H as [H _]. exists g. split; [reflexivity|exact H].
Qed.

Lemma homes_loaded :
  (exists g, load_gen (A:=B64) false home0 from_home = Ok g /\ n_eqb (g_xmax g) (lit 10 0) = true) /\
  (exists g, load_gen (A:=B64) false home_away from_home = Ok g /\ n_eqb (g_xmax g) (lit 110 0) = true) /\
  (exists g, load_gen (A:=B64) false home0 from_here = Ok g /\ n_eqb (g_xmax g) (lit 10 0) = true) /\
  Forall (fun s => goes_home s = false) (program_text from_here).
Proof.
  destruct two_homes as (H1 & H2 & H3). split; [exact (reaches_loaded _ _ _ H1)|]. split; [exact (reaches_loaded _ _ _ H2)|].
  split; [exact (reaches_loaded _ _ _ H3)|]. repeat constructor.
Qed.

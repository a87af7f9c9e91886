(** * P_DwellSample: a program that waits; dwells that are not counted (C129) *)
From Coq Require Import List Bool String Ascii ZArith NArith Lia.
From Verif Require Import PyBase Arith ArithB64 ArithQ Gcoder SpecText SpecLoad SpecMachine SpecTool SpecDwell Samples.
Import ListNotations.
Open Scope bool_scope.

Definition waiting : list string :=
  ["G28"; "G4 P500"; "G1 X10 F600"; "G4 P1250 ; cool down"; "G1 X20"; "M107"]%string.

Lemma waiting_waits : waits (program_text waiting) 1750.
Proof.
  change 1750%Z with (decimal 0 "500" + (decimal 0 "1250" + 0))%Z.
  apply waits_other; [reflexivity|].
  apply (waits_dwell "500" ""); [reflexivity|discriminate|reflexivity|left; reflexivity|].
  apply waits_other; [reflexivity|].
  apply (waits_dwell "1250" " ; cool down"); [reflexivity|discriminate|reflexivity|right; eexists; reflexivity|].
  apply waits_other; [reflexivity|]. apply waits_other; [reflexivity|]. exact waits_end.
Qed.

Definition waiting_seen : bool :=
  match load_gen (A:=QA) false (n0, n0, n0) waiting with Ok _ => true | Err _ => false end.

Lemma waiting_loaded : exists g : gcode QA, load_gen false (n0, n0, n0) waiting = Ok g.
Proof.
  assert (H : waiting_seen = true) by (vm_compute; reflexivity). unfold waiting_seen in H.
  destruct (load_gen (A:=QA) false (n0, n0, n0) waiting) as [g|e]; [exists g; reflexivity|discriminate H].
Qed.

Definition lasts (data : list string) (t : num B64) : bool :=
  match load_gen (A:=B64) false home0 data with Ok g => n_eqb (g_total g) t | Err _ => false end.

Lemma uncounted : lasts ["G4 P2000"]%string (lit 2 0) = true /\
  lasts ["g4 p2000"]%string n0 = true /\ lasts ["G4 S2"]%string n0 = true.
Proof. split; [|split]; vm_compute; reflexivity. Qed.

Lemma lasts_loaded : forall data t, lasts data t = true ->
  exists g, load_gen (A:=B64) false home0 data = Ok g /\ n_eqb (g_total g) t = true.
Proof.
  intros data t H. unfold lasts in H. destruct (load_gen (A:=B64) false home0 data) as [g|e]; [|discriminate H].
  exists g. split; [reflexivity|exact H].
Qed.

Lemma dwells_uncounted : exists g g' g'' : gcode B64,
  load_gen false home0 ["G4 P2000"]%string = Ok g /\ load_gen false home0 ["g4 p2000"]%string = Ok g' /\
  load_gen false home0 ["G4 S2"]%string = Ok g'' /\
  n_eqb (g_total g) (lit 2 0) = true /\ n_eqb (g_total g') n0 = true /\ n_eqb (g_total g'') n0 = true.
Proof.
  destruct uncounted as (H1 & H2 & H3).
  destruct (lasts_loaded _ _ H1) as (g1 & L1 & T1). destruct (lasts_loaded _ _ H2) as (g2 & L2 & T2).
  destruct (lasts_loaded _ _ H3) as (g3 & L3 & T3). exists g1, g2, g3. auto 10.
Qed.

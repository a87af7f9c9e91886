(** * P_ArcTimeSample: a quarter of a circle takes its time until it is an arc (C128) *)
From Coq Require Import List Bool String NArith.
From Verif Require Import PyBase Arith ArithB64 Gcoder Filters Arc SpecLoad SpecArcTime Samples P_ArcBox.
Import ListNotations.
Open Scope bool_scope.

Definition hurry_seen : bool :=
  match load_gen (A:=B64) false home0 arc_bulge with
  | Ok g => match optimize_arcs g with
            | Ok g' => match load_gen (A:=B64) false home0 arc_bulged with
                       | Ok h => n_ltb (lit 10 1) (g_total g) && n_ltb (g_total h) (lit 8 1) &&
                                 (if list_eq_dec string_dec (write g') arc_bulged then true else false)
                       | Err _ => false end
            | Err _ => false end
  | Err _ => false end.

Lemma hurry_refuted :
  exists g g' h : gcode B64, load_gen false home0 arc_bulge = Ok g /\ optimize_arcs g = Ok g' /\
    load_gen false home0 (write g') = Ok h /\
    n_ltb (lit 10 1) (g_total g) = true /\ n_ltb (g_total h) (lit 8 1) = true.
Proof.
  assert (H : hurry_seen = true) by (vm_compute; reflexivity). unfold hurry_seen in H.
  destruct (load_gen (A:=B64) false home0 arc_bulge) as [g|e] eqn:Hg; [|discriminate H].
  destruct (optimize_arcs g) as [g'|e] eqn:Hg'; [|discriminate H].
  destruct (load_gen (A:=B64) false home0 arc_bulged) as [h|e] eqn:Hh; [|discriminate H].
  apply andb_prop in H as [H H3]. apply andb_prop in H as [H1 H2].
  destruct (list_eq_dec string_dec (write g') arc_bulged) as [Hw|]; [|discriminate H3].
  exists g, g', h. split; [reflexivity|]. split; [exact Hg'|]. split; [rewrite Hw; exact Hh|]. split; assumption.
Qed.

(** the optimised quarter loads, and one of its lines is an arc *)
Definition arcs_loaded : bool :=
  match load_gen (A:=B64) false home0 arc_bulged with
  | Ok _ => Nat.eqb (List.length arc_bulged) 5 && Nat.eqb (List.length (without_arcs arc_bulged)) 4
  | Err _ => false end.

Lemma arcs_loaded_true : arcs_loaded = true.
Proof. vm_compute. reflexivity. Qed.

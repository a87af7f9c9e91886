(** * P_ArcReloadRefuted: arcs at negative feed rates (C119) *)
From Coq Require Import List String Bool.
From Verif Require Import PyBase Arith ArithB64 Gcoder Filters Arc SpecLoad Samples P_KeptSample.
Import ListNotations.

(** a quarter of a circle between two moves that differ in the sign of the speed;
    arcs take no time, so that the second follows the first *)
Definition arc_backward : list string :=
  ["G90"; "M83"; "G1 X7.071 Y-7.071 F-60"; "G1 X8.192 Y-5.736 E0.05 F1200"; "G1 X9.063 Y-4.226 E0.05";
   "G1 X9.659 Y-2.588 E0.05"; "G1 X9.962 Y-0.872 E0.05"; "G1 X9.962 Y0.872 E0.05"; "G1 X9.659 Y2.588 E0.05";
   "G1 X9.063 Y4.226 E0.05"; "G1 X8.192 Y5.736 E0.05"; "G1 X7.071 Y7.071 E0.05"; "G1 X20 Y-20 F60"]%string.

Definition arc_backward' : list string :=
  ["G90"; "M83"; "G1 X7.071 Y-7.071 F-60";
   "G3 X7.071 Y7.071 E0.45057 F1200.000 I-7.072 J7.071; generated from 9 segments"; "G1 X20 Y-20 F60"]%string.

Definition backward_seen : bool :=
  match load_gen (A:=B64) false home0 arc_backward with
  | Ok g => match optimize_arcs g with
            | Ok g' => divides_zero (load_gen (A:=B64) false home0 arc_backward') &&
                       (if list_eq_dec string_dec (write g') arc_backward' then true else false)
            | Err _ => false end
  | Err _ => false end.

Lemma arc_backward_refuted :
  exists g g' : gcode B64, load_gen false home0 arc_backward = Ok g /\ optimize_arcs g = Ok g' /\
    write g' = ["G90"; "M83"; "G1 X7.071 Y-7.071 F-60";
      "G3 X7.071 Y7.071 E0.45057 F1200.000 I-7.072 J7.071; generated from 9 segments"; "G1 X20 Y-20 F60"]%string /\
    load_gen (A:=B64) false home0 (write g') = Err ZeroDivisionError.
Proof.
  assert (H : backward_seen = true) by (vm_compute; reflexivity). unfold backward_seen in H.
  destruct (load_gen (A:=B64) false home0 arc_backward) as [g|e] eqn:Hg; [|discriminate H].
  destruct (optimize_arcs g) as [g'|e] eqn:Hg'; [|discriminate H].
  apply andb_prop in H as [H1 H2].
  destruct (list_eq_dec string_dec (write g') arc_backward') as [Hw|]; [|discriminate H2].
  exists g, g'. split; [reflexivity|]. split; [exact Hg'|]. split; [exact Hw|].
  rewrite Hw. apply divides_zero_ok, H1.
Qed.

(** * Property C130: the home position *)
From Coq Require Import List String NArith.
From Verif Require Import PyBase Arith ArithB64 Gcoder SpecLoad SpecHome Samples P_Home P_HomeSample.
Import ListNotations.

(** C130, every arithmetic: a program without G28 is loaded in the same way
    whatever the home position is. *)
Theorem C130_unused :
  forall (A : arith) light home home' data (g : gcode A), load_gen light home data = Ok g ->
    Forall (fun s => goes_home s = false) (program_text data) -> load_gen light home' data = Ok (rehomed home' g).
Proof. exact @load_home. Qed.
Print Assumptions C130_unused.

(** C130, every arithmetic: any program loaded with another home position has the
    same layers with the same texts, heights and durations, and the same height,
    duration and filament length. *)
Theorem C130_measures :
  forall (A : arith) light home home' data (g : gcode A), load_gen light home data = Ok g ->
    exists g', load_gen light home' data = Ok g' /\ same_but_place g g'.
Proof. exact @load_place. Qed.
Print Assumptions C130_measures.

(** two programs, in doubles, with and without G28; with it the part is
    elsewhere *)
Example C130_example :
  (exists g, load_gen (A:=B64) false home0 from_home = Ok g /\ n_eqb (g_xmax g) (lit 10 0) = true) /\
  (exists g, load_gen (A:=B64) false home_away from_home = Ok g /\ n_eqb (g_xmax g) (lit 110 0) = true) /\
  (exists g, load_gen (A:=B64) false home0 from_here = Ok g /\ n_eqb (g_xmax g) (lit 10 0) = true) /\
  Forall (fun s => goes_home s = false) (program_text from_here).
Proof. exact homes_loaded. Qed.

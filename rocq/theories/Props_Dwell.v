(** * Property C129: the time a program waits *)
From Coq Require Import List String ZArith NArith Reals.
From Verif Require Import PyBase Arith ArithB64 ArithQ Gcoder SpecLoad SpecDwell Samples P_Dwell P_DwellSample.
Import ListNotations.

(** C129, exact arithmetic: a program lasts as long as it does without its G4
    commands, plus the milliseconds they name.  Missing: G4 commands written in
    any other way than with an upper-case P and some digits. *)
Theorem C129_dwells_partial :
  forall (A : arith) (E : exact A) light home data (g : gcode A) ms, load_gen light home data = Ok g ->
    waits (program_text data) ms ->
    exists g', load_gen light home (without_dwells data) = Ok g' /\
      val E (g_total g) = (val E (g_total g') + IZR ms / 1000)%R.
Proof. exact @dwells_count. Qed.
Print Assumptions C129_dwells_partial.

(** a program that waits twice, 1750 milliseconds in all *)
Example C129_example :
  (exists g : gcode QA, load_gen false (n0, n0, n0) waiting = Ok g) /\ waits (program_text waiting) 1750.
Proof. exact (conj waiting_loaded waiting_waits). Qed.

(** C129 is false of the code for the other ways: of three programs that wait
    two seconds, only the one with an upper-case P lasts two seconds; the others
    last no time. *)
Theorem C129_spelling_refuted :
  exists g g' g'' : gcode B64,
    load_gen false home0 ["G4 P2000"]%string = Ok g /\ load_gen false home0 ["g4 p2000"]%string = Ok g' /\
    load_gen false home0 ["G4 S2"]%string = Ok g'' /\
    n_eqb (g_total g) (lit 2 0) = true /\ n_eqb (g_total g') n0 = true /\ n_eqb (g_total g'') n0 = true.
Proof. exact dwells_uncounted. Qed.
Print Assumptions C129_spelling_refuted.

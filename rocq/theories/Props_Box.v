(** * Properties C111 and C112, and more about C18: the measured box *)
From Coq Require Import List String NArith Reals.
From Verif Require Import PyBase Arith ArithQ ArithB64 Gcoder Filters SpecText SpecLoad SpecMachine SpecMeasure SpecFilter SpecMod SpecBox Samples.
From Verif Require Import P_Load P_FilterRefuted P_BoxShift P_BoxRelative P_ComposeSample P_BoxSample.
Import ListNotations.
Local Open Scope list_scope.

(** C18 in terms of the reference machine: the box is that of the places where
    the head is after the lines that advance the extruder. *)
Theorem C18_machine :
  forall (A : arith) (E : exact A) home data (g : gcode A), load_gen false home data = Ok g ->
    Forall clear_words (program_text data) -> Forall no_rebase_e (program_text data) -> (0 < val E (g_filament g))%R ->
    let k i := run (firstn i (program_text data)) (start (home_of E home)) in
    let p := prints (program_text data) (start (home_of E home)) in
    (forall i, p i -> (val E (g_xmin g) <= head (k (S i)) X <= val E (g_xmax g))%R /\
                      (val E (g_ymin g) <= head (k (S i)) Y <= val E (g_ymax g))%R) /\
    (exists i, p i /\ head (k (S i)) X = val E (g_xmin g)) /\ (exists i, p i /\ head (k (S i)) X = val E (g_xmax g)) /\
    (exists i, p i /\ head (k (S i)) Y = val E (g_ymin g)) /\ (exists i, p i /\ head (k (S i)) Y = val E (g_ymax g)).
Proof. exact @box_machine. Qed.
Print Assumptions C18_machine.

(** C111, exact arithmetic: a translated program, read again, reports the box
    shifted by the translation and the same filament, up to rounding.  Missing:
    G92, relative modes, extrusion below the last written place of E (C111 is
    false there), printing before X and Y were moved. *)
Theorem C111_box_partial :
  forall (A : arith) (E : exact A) home data x y (g g1 h : gcode A), load_gen false home data = Ok g ->
    translate x y g = Ok g1 -> load_gen false home (write g1) = Ok h ->
    (forall a, home_of E home a = 0%R) -> declared (program_text data) = true ->
    Forall e_plain (program_text data) -> Forall clear_words (program_text data) ->
    sharp (program_text data) (start (fun _ => 0%R)) -> placed (program_text data) (start (fun _ => 0%R)) ->
    (/ 200000 < val E (g_filament g))%R ->
    (Rabs (val E (g_filament h) - val E (g_filament g)) <= / 200000)%R /\
    (Rabs (val E (g_xmin h) - (val E (g_xmin g) + amount E x)) <= / 1000)%R /\
    (Rabs (val E (g_xmax h) - (val E (g_xmax g) + amount E x)) <= / 1000)%R /\
    (Rabs (val E (g_ymin h) - (val E (g_ymin g) + amount E y)) <= / 1000)%R /\
    (Rabs (val E (g_ymax h) - (val E (g_ymax g) + amount E y)) <= / 1000)%R.
Proof. exact @box_shift. Qed.
Print Assumptions C111_box_partial.

Example C111_example :
  (load_gen false home0 corner = Ok cornerQ /\
   translate (numQ 7) (numQ 9) cornerQ = Ok (movedby (numQ 7) (numQ 9) cornerQ) /\
   load_gen false home0 (write (movedby (numQ 7) (numQ 9) cornerQ)) = Ok (again (movedby (numQ 7) (numQ 9) cornerQ)) /\
   (forall a, home_of exactQ home0 a = 0%R) /\ declared (program_text corner) = true /\
   Forall e_plain (program_text corner) /\ Forall clear_words (program_text corner) /\
   Forall no_rebase_e (program_text corner) /\
   (/ 200000 < val exactQ (g_filament cornerQ))%R) /\
  sharp (program_text corner) (start (fun _ => 0%R)) /\ placed (program_text corner) (start (fun _ => 0%R)).
Proof. exact (conj corner_session (conj corner_sharp corner_placed)). Qed.

(** C111 is false where the extruder advances by less than E is written with:
    the box loses 80 mm. *)
Theorem C111_faint_refuted : exists g g1 h : gcode B64,
  load_gen false home0 faint = Ok g /\ translate (some_num 5) None g = Ok g1 /\ load_gen false home0 (write g1) = Ok h /\
  n_eqb (g_xmax g) (lit 90 0) = true /\ n_eqb (g_xmax h) (lit 15 0) = true.
Proof. exact faint_refuted. Qed.
Print Assumptions C111_faint_refuted.

(** C112, exact arithmetic: a program converted to relative extrusion, read
    again, reports the same filament and the same box, up to rounding.
    Missing: inches, G92 of E, extrusion below the last written place of E
    (C112 is false there), and, for the sharp bound on the box, relative
    positioning. *)
Theorem C112_measures_partial :
  forall (A : arith) (E : exact A) home data (g g1 h : gcode A), load_gen false home data = Ok g ->
    to_relative_extrusion g = Ok g1 -> load_gen false home (write g1) = Ok h ->
    e_ready (program_text data) = true -> Forall clear_words (program_text data) -> Forall no_rebase_e (program_text data) ->
    sharp (program_text data) (start (home_of E home)) ->
    let near (d : R) a b := (Rabs (val E b - val E a) <= d)%R in
    let drift := (INR (feed_count (program_text data)) * / 200000)%R in
    near drift (g_filament g) (g_filament h) /\
    ((drift < val E (g_filament g))%R ->
      forall n, (drive_count X (program_text data) <= n)%nat -> (drive_count Y (program_text data) <= n)%nat ->
      let d := (INR n * / 2000)%R in
      near d (g_xmin g) (g_xmin h) /\ near d (g_xmax g) (g_xmax h) /\ near d (g_ymin g) (g_ymin h) /\ near d (g_ymax g) (g_ymax h)) /\
    ((drift < val E (g_filament g))%R -> fixed_axis X (program_text data) -> fixed_axis Y (program_text data) ->
      let d := (/ 2000)%R in
      near d (g_xmin g) (g_xmin h) /\ near d (g_xmax g) (g_xmax h) /\ near d (g_ymin g) (g_ymin h) /\ near d (g_ymax g) (g_ymax h)).
Proof. exact @relative_measures. Qed.
Print Assumptions C112_measures_partial.

Example C112_example :
  (load_gen false home0 corner = Ok cornerQ /\ to_relative_extrusion cornerQ = Ok (fed cornerQ) /\
   load_gen false home0 (write (fed cornerQ)) = Ok (again (fed cornerQ)) /\
   e_ready (program_text corner) = true /\
   (INR (feed_count (program_text corner)) * / 200000 < val exactQ (g_filament cornerQ))%R /\
   fixed_axis X (program_text corner) /\ fixed_axis Y (program_text corner)) /\
  Forall clear_words (program_text corner) /\ Forall no_rebase_e (program_text corner) /\
  sharp (program_text corner) (start (home_of exactQ home0)).
Proof.
  exact (conj corner_relative (match corner_session with
    conj _ (conj _ (conj _ (conj _ (conj _ (conj _ (conj H (conj K _))))))) => conj H (conj K corner_sharp_home) end)).
Qed.

(** C112 is false where the extruder advances by less than E is written with. *)
Theorem C112_faint_refuted : exists g g1 h : gcode B64,
  load_gen false home0 faint = Ok g /\ to_relative_extrusion g = Ok g1 /\ load_gen false home0 (write g1) = Ok h /\
  n_eqb (g_xmax g) (lit 90 0) = true /\ n_eqb (g_xmax h) (lit 10 0) = true.
Proof. exact faint_relative. Qed.
Print Assumptions C112_faint_refuted.

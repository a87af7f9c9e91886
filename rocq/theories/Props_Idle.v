(** * Properties C115 and C116: commands that do not move *)
From Coq Require Import List String Ascii ZArith Bool Reals.
From Verif Require Import PyBase Arith ArithQ ArithR ArithB64 Gcoder Filters Visit Tempcal.
From Verif Require Import SpecLoad SpecText SpecMachine SpecFree SpecFilter SpecArc SpecIdle SpecVisit SpecTempcal SpecBinary64 Samples.
From Verif Require Import P_MachineRefuted P_VisitRefuted P_TempcalRefuted P_FloatTempcal P_IdleNum P_IdleWrite.
Import ListNotations.
Local Open Scope list_scope.

(** C115: with exact arithmetic, a program [d'] that is [d] with further idle
    lines (M commands other than M82 and M83, comments, blank text) loads
    exactly when [d] does, fails with the same exception, leaves the machine in
    the same state, has the same box, filament and duration and, if [d] is not
    blank, the same layers at the same heights. *)
Theorem C115_idle :
  forall (A : arith) (E : exact A) light home d d',
    more (fun s => idle s = true) (program_text d) (program_text d') ->
    match load_gen (A:=A) light home d, load_gen light home d' with
    | Ok g, Ok h => same_run g h /\ (program_text d <> [] -> same_levels g h)
    | Err e, Err e' => e = e'
    | _, _ => False
    end.
Proof. exact load_idle_exact. Qed.
Print Assumptions C115_idle.

(** The same with doubles, for programs whose numbers are at most a million. *)
Theorem C115_idle_binary64 :
  forall light home d d', Forall modest (program_text d) ->
    more (fun s => idle s = true) (program_text d) (program_text d') ->
    match load_gen (A:=B64) light home d, load_gen light home d' with
    | Ok g, Ok h => same_run g h /\ (program_text d <> [] -> same_levels g h)
    | Err e, Err e' => e = e'
    | _, _ => False
    end.
Proof. exact load_idle_B64. Qed.
Print Assumptions C115_idle_binary64.

Example C115_example :
  Forall modest (program_text cube) /\ program_text cube <> [] /\
  forallb idle ["M104 S200"; "M117 G1 X5"; "; G1 X500 E3"; "M107"]%string = true /\
  forallb (fun s => negb (idle s)) ["M82"; "M83 ; relative"; "G4 P5"; "T1"; "G92 E0"]%string = true /\
  more (fun s => idle s = true) (program_text cube) (program_text ("M117 G1 X5" :: firstn 8 cube ++ "; G1 X500 E3" :: skipn 8 cube ++ ["M107"])%string%list).
Proof.
  split; [apply modest_all; vm_compute; reflexivity|]. split; [discriminate|].
  split; [vm_compute; reflexivity|]. split; [vm_compute; reflexivity|].
  vm_compute program_text. repeat (constructor; try reflexivity).
Qed.

(** C116: a calibrated program, read again, is the program that was calibrated
    but for the temperature commands: same end state, box, filament, duration,
    layers and heights. *)
Theorem C116_calibrated :
  forall (A : arith) (E : exact A) gr s e mz home data (g : gcode A) out,
    load_gen false home data = Ok g -> tempcal gr s e mz g = (out, None) ->
    exists h, load_gen false home (map text_of out) = Ok h /\ same_run g h /\ same_levels g h.
Proof. exact calibrated_exact. Qed.
Print Assumptions C116_calibrated.

Theorem C116_calibrated_binary64 :
  forall gr s e mz home data (g : gcode B64) out, Forall modest (program_text data) ->
    load_gen false home data = Ok g -> tempcal gr s e mz g = (out, None) ->
    exists h, load_gen false home (map text_of out) = Ok h /\ same_run g h /\ same_levels g h.
Proof. exact calibrated_B64. Qed.
Print Assumptions C116_calibrated_binary64.

Example C116_calibrated_example :
  load_gen (A:=QA) false home0 tower = Ok towerQ /\
  (exists out, tempcal (A:=QA) (Steps (StepsInt 10)) (lit 220 0) (lit 210 0) (lit 1 1) towerQ = (out, None) /\
     List.length (added out) = 5) /\
  Forall modest (program_text tower).
Proof.
  split; [exact towerQ_loaded|]. split; [eexists; split; vm_compute; reflexivity|].
  apply modest_all; vm_compute; reflexivity.
Qed.

(** So is a program with pauses. *)
Theorem C116_paused :
  forall (A : arith) (E : exact A) digits L home data (g g' : gcode A),
    load_gen false home data = Ok g -> pause digits L g = Ok g' ->
    exists h, load_gen false home (write g') = Ok h /\ same_run g h /\ (program_text data <> [] -> same_levels g h).
Proof. exact paused_exact. Qed.
Print Assumptions C116_paused.

Theorem C116_paused_binary64 :
  forall digits L home data (g g' : gcode B64), Forall modest (program_text data) ->
    load_gen false home data = Ok g -> pause digits L g = Ok g' ->
    exists h, load_gen false home (write g') = Ok h /\ same_run g h /\ (program_text data <> [] -> same_levels g h).
Proof. exact paused_B64. Qed.
Print Assumptions C116_paused_binary64.

Example C116_paused_example :
  Forall modest (program_text cube) /\ load_gen (A:=B64) false home0 cube = Ok cubeF /\
  is_ok (pause 2 [1%Z] cubeF) = true /\
  List.length (write (pauseF 2 [1%Z] cubeF)) = S (List.length (write cubeF)).
Proof.
  split; [apply modest_all; vm_compute; reflexivity|]. split; [exact cubeF_loaded|]. split; vm_compute; reflexivity.
Qed.

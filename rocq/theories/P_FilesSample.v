(** * P_FilesSample: concrete runs for the properties about files *)
From Coq Require Import List Ascii String ZArith Bool.
From Verif Require Import PyBase Arith ArithB64 Gcoder Filters Visit Tempcal Arc Stretch Files SpecFiles SpecLoad
  P_MachineRefuted P_ArcRefuted P_Files P_FilesText.
Import ListNotations.
Local Open Scope string_scope.

(** Python 3 (stretch.py 716) *)
Definition no_profile (_ : string) : res (option string) := Err TypeError.

Definition runF := run (A:=B64) no_profile 100.

(** part.gcode is a program; bad.gcode extrudes before any Z word (C39), so
    gcode_mod fails on it; flat.gcode has one height only; the arc optimizer fails on travel.gcode (C52) and the
    Cura stretch plug-in on cura.gcode (C63); out.gcode is an
    older result *)
Definition disk : files := fun p =>
  if String.eqb p "part.gcode" then Some (lines_text ["G90"; "M83"; "G1 Z1"; "G1 X1 E1"; "G1 Z2"; "G1 X2 E1"])
  else if String.eqb p "bad.gcode" then Some (lines_text ["G1 X1 E1"; "G1 Z1"])
  else if String.eqb p "flat.gcode" then Some (lines_text ["G1 Z1"; "G1 X1 E1"; "M104 S0"])
  else if String.eqb p "travel.gcode" then Some (lines_text arc_travel)
  else if String.eqb p "cura.gcode" then Some (lines_text ["M83"; ";TYPE:WALL-OUTER"; "G1 X20 Y10 E1"])
  else if String.eqb p "out.gcode" then Some (lines_text ["G1 X5"])
  else None.

Definition shift5 : command (A:=B64) := Mod (ModOptions (Some (numF 5)) None false None).

Lemma part_shifted :
  after (runF shift5 (Some "part.gcode") (Some "out.gcode") "" disk) disk "out.gcode" =
  Some (lines_text ["G90"; "M83"; "G1 Z1"; "G1 X6.000 E1.00000"; "G1 Z2"; "G1 X7.000 E1.00000"]) /\
  e_end (runF shift5 (Some "part.gcode") (Some "out.gcode") "" disk) = Finished.
Proof. split; vm_compute; reflexivity. Qed.

Lemma old_result_lost :
  disk "out.gcode" = Some (lines_text ["G1 X5"]) /\
  e_end (runF shift5 (Some "bad.gcode") (Some "out.gcode") "" disk) = Raised TypeError /\
  after (runF shift5 (Some "bad.gcode") (Some "out.gcode") "" disk) disk "out.gcode" = Some "".
Proof. repeat split; vm_compute; reflexivity. Qed.

Lemma arcs_inplace_done :
  e_end (runF (Arcs true) (Some "part.gcode") None "" disk) = Finished /\
  after (runF (Arcs true) (Some "part.gcode") None "" disk) disk "part.gcode" = disk "part.gcode".
Proof. split; vm_compute; reflexivity. Qed.

Lemma arcs_inplace_fails :
  e_end (runF (Arcs true) (Some "travel.gcode") None "" disk) = Raised ZeroDivisionError.
Proof. vm_compute. reflexivity. Qed.

Lemma plugin_fails :
  e_end (stretch_plugin (A:=B64) no_profile 100 (numF 1) "cura.gcode" disk) = Raised IndexError.
Proof. vm_compute. reflexivity. Qed.

(** two names for the results of an in-place run *)
Lemma outfile_emptied :
  e_end (runF (Arcs true) (Some "part.gcode") (Some "out.gcode") "" disk) = Finished /\
  after (runF (Arcs true) (Some "part.gcode") (Some "out.gcode") "" disk) disk "out.gcode" = Some "".
Proof. split; vm_compute; reflexivity. Qed.

Lemma flat_lost :
  disk "flat.gcode" = Some (lines_text ["G1 Z1"; "G1 X1 E1"; "M104 S0"]) /\
  e_end (tempcal_plugin (A:=B64) (numF 200) (numF 240) (numF 3) 10 "flat.gcode" disk) = Raised RuntimeError /\
  after (tempcal_plugin (A:=B64) (numF 200) (numF 240) (numF 3) 10 "flat.gcode" disk) disk "flat.gcode" = Some "".
Proof. repeat split; vm_compute; reflexivity. Qed.

(** * Props_Files: C85-C93 *)
From Coq Require Import List Ascii String ZArith Bool.
From Verif Require Import PyBase Arith ArithB64 Gcoder Visit Tempcal Arc Stretch Files SpecFiles SpecLoad
  P_MachineRefuted P_Files P_FilesText P_FilesSample.
Import ListNotations.
Local Open Scope string_scope.

(** C85: at every moment of a run of a command, every file but the output file
    (and, with --inplace, the input file) is what it was... *)
Theorem C85_others :
  forall (A : arith) profile fuel (c : command (A:=A)) infile outfile stdin f f' q,
    moment (run profile fuel c infile outfile stdin f) f f' ->
    outfile <> Some q -> (c = Arcs true -> infile <> Some q) -> f' q = f q.
Proof. exact @others_kept. Qed.
Print Assumptions C85_others.

Example C85_example :
  e_end (runF shift5 (Some "part.gcode") (Some "out.gcode") "" disk) = Finished /\
  after (runF shift5 (Some "part.gcode") (Some "out.gcode") "" disk) disk "out.gcode" <>
  disk "out.gcode".
Proof. split; [apply part_shifted|vm_compute; discriminate]. Qed.

(** ... and so for the plug-ins and the files other than their program. *)
Theorem C85_stretch_plugin :
  forall (A : arith) profile fuel (s : num A) p f f' q, p <> q ->
    moment (stretch_plugin profile fuel s p f) f f' -> f' q = f q.
Proof. exact @plugin_others. Qed.
Print Assumptions C85_stretch_plugin.

Theorem C85_tempcal_plugin :
  forall (A : arith) (a b z : num A) n p f f' q, p <> q ->
    moment (tempcal_plugin a b z n p f) f f' -> f' q = f q.
Proof. exact @tempcal_plugin_others. Qed.
Print Assumptions C85_tempcal_plugin.

(** C86 is false of the code: a failing run leaves an empty output file... *)
Theorem C86_old_result_refuted :
  disk "out.gcode" = Some (lines_text ["G1 X5"]) /\
  e_end (runF shift5 (Some "bad.gcode") (Some "out.gcode") "" disk) = Raised TypeError /\
  after (runF shift5 (Some "bad.gcode") (Some "out.gcode") "" disk) disk "out.gcode" =
  Some EmptyString.
Proof. exact old_result_lost. Qed.
Print Assumptions C86_old_result_refuted.

(** ... always, ... *)
Theorem C86_emptied :
  forall (A : arith) profile fuel (c : command (A:=A)) p q stdin f e,
    f p <> None -> p <> q -> (forall a b d g h, c <> Tempcal a b d g h) ->
    e_end (run profile fuel c (Some p) (Some q) stdin f) = Raised e ->
    after (run profile fuel c (Some p) (Some q) stdin f) f q = Some EmptyString.
Proof. exact @failed_empty. Qed.
Print Assumptions C86_emptied.

(** ... and what was in the output file is lost in every run that has an input
    file; ... *)
Theorem C86_lost :
  forall (A : arith) profile fuel (c : command (A:=A)) p q stdin f text s, f p = Some text -> p <> q ->
    after (run profile fuel c (Some p) (Some q) stdin f) f q =
    after (run profile fuel c (Some p) (Some q) stdin (set_file q s f)) (set_file q s f) q.
Proof. exact @old_lost. Qed.
Print Assumptions C86_lost.

(** ... a missing input file is noticed in time. *)
Theorem C86_missing_partial :
  forall (A : arith) profile fuel (c : command (A:=A)) infile outfile stdin f,
    (e_end (run profile fuel c infile outfile stdin f) = Usage <-> exists p, infile = Some p /\ f p = None).
Proof. exact @usage_iff. Qed.
Print Assumptions C86_missing_partial.

Theorem C86_harmless_partial :
  forall (A : arith) profile fuel (c : command (A:=A)) infile outfile stdin f f',
    e_end (run profile fuel c infile outfile stdin f) = Usage ->
    moment (run profile fuel c infile outfile stdin f) f f' -> f' = f.
Proof. exact @usage_harmless. Qed.
Print Assumptions C86_harmless_partial.

Example C86_example : e_end (runF shift5 (Some "none.gcode") (Some "out.gcode") "" disk) = Usage.
Proof. vm_compute. reflexivity. Qed.

(** C87 is false of the code: with one name for both files, every command loses
    the program. *)
Theorem C87_same_file_refuted :
  forall (A : arith) profile fuel (c : command (A:=A)) p stdin f text, f p = Some text ->
    after (run profile fuel c (Some p) (Some p) stdin f) f p = Some EmptyString.
Proof. exact @same_file_lost. Qed.
Print Assumptions C87_same_file_refuted.

Example C87_example : exists text, disk "part.gcode" = Some text /\ text <> EmptyString.
Proof. eexists. split; [reflexivity|discriminate]. Qed.

(** C88: a failing in-place run changes nothing... *)
Theorem C88_fails :
  forall (A : arith) profile fuel p stdin f f' e,
    e_end (run (A:=A) profile fuel (Arcs true) (Some p) None stdin f) = Raised e ->
    moment (run (A:=A) profile fuel (Arcs true) (Some p) None stdin f) f f' -> f' = f.
Proof. exact @inplace_fails. Qed.
Print Assumptions C88_fails.

Example C88_fails_example :
  e_end (runF (Arcs true) (Some "travel.gcode") None "" disk) = Raised ZeroDivisionError.
Proof. exact arcs_inplace_fails. Qed.

(** ... and a finished one leaves the optimised program... *)
Theorem C88_done :
  forall (A : arith) profile fuel p stdin f text, f p = Some text ->
    e_end (run (A:=A) profile fuel (Arcs true) (Some p) None stdin f) = Finished ->
    exists out, optimize_arcs_main (A:=A) (read_lines text) = Ok out /\
      after (run (A:=A) profile fuel (Arcs true) (Some p) None stdin f) f p = Some (lines_text out).
Proof. exact @inplace_done. Qed.
Print Assumptions C88_done.

Example C88_done_example : e_end (runF (Arcs true) (Some "part.gcode") None "" disk) = Finished.
Proof. apply arcs_inplace_done. Qed.

(** ... but there is a moment in every such run at which neither is there. *)
Theorem C88_gap_refuted :
  forall (A : arith) profile fuel p stdin f,
    e_end (run (A:=A) profile fuel (Arcs true) (Some p) None stdin f) = Finished ->
    exists f', moment (run (A:=A) profile fuel (Arcs true) (Some p) None stdin f) f f' /\
      f' p = Some EmptyString.
Proof. exact @inplace_gap. Qed.
Print Assumptions C88_gap_refuted.

(** C89 is false of the code: with --inplace a named output file is emptied. *)
Theorem C89_outfile_refuted :
  forall (A : arith) profile fuel p q stdin f, f p <> None -> p <> q ->
    after (run (A:=A) profile fuel (Arcs true) (Some p) (Some q) stdin f) f q = Some EmptyString.
Proof. exact @inplace_outfile. Qed.
Print Assumptions C89_outfile_refuted.

Example C89_example :
  e_end (runF (Arcs true) (Some "part.gcode") (Some "out.gcode") "" disk) = Finished.
Proof. apply outfile_emptied. Qed.

(** C90 holds for the stretch plug-in... *)
Theorem C90_stretch_partial :
  forall (A : arith) profile fuel (s : num A) p f f' e,
    e_end (stretch_plugin profile fuel s p f) = Raised e ->
    moment (stretch_plugin profile fuel s p f) f f' -> f' = f.
Proof. exact @stretch_plugin_fails. Qed.
Print Assumptions C90_stretch_partial.

Example C90_example :
  e_end (stretch_plugin (A:=B64) no_profile 100 (numF 1) "cura.gcode" disk) = Raised IndexError.
Proof. exact plugin_fails. Qed.

(** ... and is false of the temperature plug-in, which replaces the program by
    what it has written so far. *)
Theorem C90_tempcal_refuted :
  disk "flat.gcode" = Some (lines_text ["G1 Z1"; "G1 X1 E1"; "M104 S0"]) /\
  e_end (tempcal_plugin (A:=B64) (numF 200) (numF 240) (numF 3) 10 "flat.gcode" disk) = Raised RuntimeError /\
  after (tempcal_plugin (A:=B64) (numF 200) (numF 240) (numF 3) 10 "flat.gcode" disk) disk "flat.gcode" =
  Some EmptyString.
Proof. exact flat_lost. Qed.
Print Assumptions C90_tempcal_refuted.

Theorem C90_tempcal :
  forall (A : arith) (a b z : num A) n p f (g : gcode A) out e,
    load_file (text_in p f) = Ok g -> tempcal (Steps (StepsInt n)) a b z g = (out, e) ->
    after (tempcal_plugin a b z n p f) f p = Some (lines_text (map text_of out)) /\
    e_end (tempcal_plugin a b z n p f) = ending_of e.
Proof. exact @tempcal_plugin_after. Qed.
Print Assumptions C90_tempcal.

(** C91: gcode_mod without options copies the program... *)
Theorem C91_copy :
  forall (A : arith) profile fuel p q stdin f text, f p = Some text -> p <> q ->
    e_end (run (A:=A) profile fuel no_change (Some p) (Some q) stdin f) = Finished ->
    after (run (A:=A) profile fuel no_change (Some p) (Some q) stdin f) f q =
    Some (lines_text (program_text (read_lines text))).
Proof. exact @copy_text. Qed.
Print Assumptions C91_copy.

(** ... a copy of the copy is the same text... *)
Theorem C91_again :
  forall (A : arith) profile fuel p q stdin f text s, f p = Some text -> p <> q ->
    e_end (run (A:=A) profile fuel no_change (Some p) (Some q) stdin f) = Finished ->
    forall f2 q2 p2, f2 = after (run (A:=A) profile fuel no_change (Some p) (Some q) stdin f) f ->
      p2 = q -> p2 <> q2 ->
      e_end (run (A:=A) profile fuel no_change (Some p2) (Some q2) s f2) = Finished /\
      after (run (A:=A) profile fuel no_change (Some p2) (Some q2) s f2) f2 q2 = f2 q.
Proof. exact @copy_again. Qed.
Print Assumptions C91_again.

(** ... and every command does to the copy what it does to the program. *)
Theorem C91_then :
  forall (A : arith) profile fuel (c : command (A:=A)) p q r stdin s f text,
    f p = Some text -> p <> q -> p <> r -> q <> r ->
    program_text (read_lines text) <> [] -> c <> Arcs true ->
    e_end (run (A:=A) profile fuel no_change (Some p) (Some q) stdin f) = Finished ->
    forall f2, f2 = after (run (A:=A) profile fuel no_change (Some p) (Some q) stdin f) f ->
      run profile fuel c (Some q) (Some r) s f2 = run profile fuel c (Some p) (Some r) s f.
Proof. exact @copy_then. Qed.
Print Assumptions C91_then.

Example C91_example :
  e_end (runF no_change (Some "part.gcode") (Some "copy.gcode") "" disk) = Finished.
Proof. vm_compute. reflexivity. Qed.

(** C92: the file holds what the command prints when it is used in a pipe;
    besides the program only stretch prints anything (C78). *)
Theorem C92_pipe :
  forall (A : arith) profile fuel (c : command (A:=A)) p q stdin f text,
    f p = Some text -> p <> q -> c <> Arcs true ->
    exists out,
      e_printed (run profile fuel c None None text f) =
        (e_printed (run profile fuel c (Some p) (Some q) stdin f) ++ out)%list /\
      after (run profile fuel c (Some p) (Some q) stdin f) f q = Some (lines_text out) /\
      e_end (run profile fuel c None None text f) = e_end (run profile fuel c (Some p) (Some q) stdin f) /\
      e_ops (run profile fuel c None None text f) = [].
Proof. exact @pipe. Qed.
Print Assumptions C92_pipe.

Example C92_example :
  e_printed (runF shift5 None None (lines_text ["G90"; "M83"; "G1 Z1"; "G1 X1 E1"]) disk) =
  ["G90"; "M83"; "G1 Z1"; "G1 X6.000 E1.00000"]%list.
Proof. vm_compute. reflexivity. Qed.

(** C93: the line ends of DOS change nothing. *)
Theorem C93_line_ends :
  forall (A : arith) profile fuel (c : command (A:=A)) p outfile stdin f s,
    f p = Some s -> ~ has_char CR s -> outfile <> Some p ->
    run profile fuel c (Some p) outfile stdin (set_file p (dos s) f) =
    run profile fuel c (Some p) outfile stdin f.
Proof. exact @run_dos. Qed.
Print Assumptions C93_line_ends.

Example C93_example :
  e_printed (runF shift5 (Some "part.gcode") None "" (set_file "part.gcode" (dos (text_in "part.gcode" disk)) disk)) =
  ["G90"; "M83"; "G1 Z1"; "G1 X6.000 E1.00000"; "G1 Z2"; "G1 X7.000 E1.00000"]%list.
Proof. vm_compute. reflexivity. Qed.

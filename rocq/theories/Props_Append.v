(** * Props_Append: commands that are tracked but not stored (C126) *)
From Coq Require Import List String.
From Verif Require Import PyBase Arith ArithB64 Gcoder SpecLoad Append SpecAppend Samples P_AppendWith.
Import ListNotations.

(** C126, every arithmetic: a command appended without storing it changes
    nothing but the state of the machine: no line, layer, table or measure. *)
Theorem C126_untouched :
  forall (A : arith) cmd (g g' : gcode A) r, append_with false cmd g = Ok (g', r) -> g' = set_mstate (g_m g') g.
Proof. exact @unstored. Qed.
Print Assumptions C126_untouched.

(** whether it is stored or not, it succeeds or fails alike, is tracked alike
    and returns the same line *)
Theorem C126_alike :
  forall (A : arith) cmd (g : gcode A), used g ->
    match append_with false cmd g, append_with true cmd g with
    | Ok (g1, r1), Ok (g2, r2) => g_m g1 = g_m g2 /\ r1 = r2
    | Err e1, Err e2 => e1 = e2
    | _, _ => False
    end.
Proof. exact @unstored_agrees. Qed.
Print Assumptions C126_alike.

(** After loading [a] and any session of commands, some stored and some not, the
    machine is where it is after loading [a] and all commands as one program;
    the stored lines are the lines of that program, its commands are those that
    were to be stored, in order. *)
Theorem C126_session :
  forall (A : arith) light home a calls (g : gcode A), load_gen light home (a ++ sent calls) = Ok g ->
    exists g1 g2, load_gen light home a = Ok g1 /\ session calls g1 = Ok g2 /\
      g_m g2 = g_m g /\
      g_lines g2 = (g_lines g1 ++ chosen calls (skipn (List.length (g_lines g1)) (g_lines g)))%list /\
      write g2 = (write g1 ++ program_text (to_store calls))%list.
Proof. exact @session_tracks. Qed.
Print Assumptions C126_session.

(** [append] of the model of C05 and C06 is the storing one *)
Theorem C126_stored :
  forall (A : arith) cmd (g : gcode A),
    append cmd g = match append_with true cmd g with Ok (g', _) => Ok g' | Err e => Err e end.
Proof. exact @stored_append. Qed.
Print Assumptions C126_stored.

Example C126_example : used cubeF /\ session_seen = true.
Proof. exact (conj (us_load _ _ _ _ cubeF_loaded) session_sample). Qed.

(** * Props_Tool: the tool of a move (C127) *)
From Coq Require Import List ZArith String.
From Verif Require Import PyBase Arith ArithB64 Gcoder SpecLoad SpecMachine SpecTool P_Tool.
Import ListNotations.

(** C127, every arithmetic: a move is noted with the tool of the last T command
    before it, tool 0 if there is none; the program ends with the last tool
    selected. *)
Theorem C127_tool :
  forall (A : arith) light home data (g : gcode A), load_gen light home data = Ok g ->
    m_tool (g_m g) = tool_after (program_text data) /\
    (light = false -> forall i l, nth_error (g_lines g) i = Some l -> is_move l = true ->
       t_tool (lnotes l) = Some (tool_after (firstn i (program_text data)))).
Proof. exact @load_tool. Qed.
Print Assumptions C127_tool.

(** a program with three tools: the notes of its lines *)
Example C127_example :
  tools_seen = true /\ tool_after (firstn 5 two_tools) = 12%Z /\ tool_after two_tools = 0%Z.
Proof. exact (conj tools_sample (conj eq_refl eq_refl)). Qed.

(** * Properties C07-C11 and C71: how the text of a line is understood *)
From Coq Require Import List String Ascii ZArith Bool Reals.
From Verif Require Import PyBase Arith ArithQ ArithR ArithB64 Gcoder SpecLoad SpecText Samples.
From Verif Require Import P_Text P_Report P_Wf P_TextRefuted.
Import ListNotations.
Local Open Scope list_scope.

(** C07, what holds: for every machine state a trailing ";" comment changes
    neither the state reached nor the arguments read; if the line is
    recognised (contains some word) it changes neither command nor notes.
    Missing: a line that is one parenthesis with others nested inside, and
    the command (only) of free text; both are refuted below. *)
Theorem C07_comment_partial :
  forall (A : arith) (m : mstate A) s t, commented s t ->
    agree (recognised s) (motion_step m (new_line s)) (motion_step m (new_line t)).
Proof. exact @trailing_comment. Qed.
Print Assumptions C07_comment_partial.

(** C07 for whole programs: commenting any lines changes nothing that is
    reported, including the failure if loading fails. *)
Theorem C07_program :
  forall (A : arith) light home d1 d2,
    Forall2 (fun s t => commented s t /\ recognised s = true) (program_text d1) (program_text d2) ->
    (d1 = [] <-> d2 = []) ->
    same_outcome (load_gen light home d1) (load_gen (A:=A) light home d2).
Proof. exact load_commented. Qed.
Print Assumptions C07_program.

Example C07_example :
  Forall2 (fun s t => commented s t /\ recognised s = true)
    (program_text ["G1 X5 E2"; "M104 S200"]%string)
    (program_text ["G1 X5 E2 ; skirt (G1 X9"; "M104 S200"]%string).
Proof.
  constructor; [split; [|reflexivity]|constructor; [split; [|reflexivity]|constructor]].
  - right. split; [reflexivity|]. split; [reflexivity|].
    exists " ; skirt (G1 X9"%string. split; [|reflexivity].
    exists " "%string, " skirt (G1 X9"%string. repeat split.
  - left. reflexivity.
Qed.

(** C07 as stated is false: "(G1 X5 (note))" is a comment, but with a trailing
    comment it moves the head. *)
Theorem C07_comment_refuted :
  exists (m : mstate B64) s c, lacks nl s = true /\ lacks nl c = true /\
    (exists l, motion_step m (new_line s) = Ok (m, l) /\ command l = None) /\
    (exists m' l, motion_step m (new_line (s ++ String ";" c)) = Ok (m', l) /\
       command l = Some "G1"%string /\ n_eqb (m_x m) n0 = true /\ n_eqb (m_x m') (lit 5 0) = true).
Proof. exact nested_paren_refuted. Qed.
Print Assumptions C07_comment_refuted.

(** C08: comment lines do nothing and read as nothing. *)
Theorem C08_comment_line :
  forall (A : arith) (m : mstate A) s, comment_line s ->
    motion_step m (new_line s) = Ok (m, new_line s).
Proof. exact @comment_step. Qed.
Print Assumptions C08_comment_line.

Example C08_example : comment_line "; G1 X5" /\ comment_line "(a (G1 X5) b)".
Proof.
  split; [exists " G1 X5"%string|exists "a (G1 X5) b"%string];
    (split; [reflexivity|]); [left|right; split]; reflexivity.
Qed.

(** C09: letter case does not matter, line by line and for whole programs (if
    the upper-case P words, the only ones searched case-sensitively, agree). *)
Theorem C09_case :
  forall (A : arith) (m : mstate A) s t, lower s = lower t ->
    agree (recognised s) (motion_step m (new_line s)) (motion_step m (new_line t)).
Proof. exact @case_insensitive. Qed.
Print Assumptions C09_case.

Theorem C09_program :
  forall (A : arith) light home d1 d2,
    Forall2 (fun s t => lower s = lower t /\ recognised s = true /\
                        find_code "P" s = find_code "P" t) (program_text d1) (program_text d2) ->
    (d1 = [] <-> d2 = []) ->
    same_outcome (load_gen light home d1) (load_gen (A:=A) light home d2).
Proof. exact load_case. Qed.
Print Assumptions C09_program.

Example C09_example :
  Forall2 (fun s t => lower s = lower t /\ recognised s = true /\
                      find_code "P" s = find_code "P" t)
    (program_text ["g1 x5 E2"; "G4 P10"]%string) (program_text ["G1 X5 e2"; "g4 P10"]%string).
Proof. repeat constructor. Qed.

(** C10: loading fails only on malformed lines or on opposite feedrates, and
    always fails on malformed lines... *)
Theorem C10_only_errors :
  forall (A : arith) light home data e, load_gen (A:=A) light home data = Err e ->
    e = ValueError \/ e = ZeroDivisionError.
Proof. exact @load_errors. Qed.
Print Assumptions C10_only_errors.

Theorem C10_value_error :
  forall (A : arith) light home data, load_gen (A:=A) light home data = Err ValueError ->
    exists s, In s (program_text data) /\ line_ok s = false.
Proof. exact @load_value_error. Qed.
Print Assumptions C10_value_error.

Theorem C10_malformed :
  forall (A : arith) light home data s, In s (program_text data) -> line_ok s = false ->
    exists e, load_gen (A:=A) light home data = Err e.
Proof. exact @load_malformed. Qed.
Print Assumptions C10_malformed.

(** ... and never on well-formed programs without negative feedrates. *)
Theorem C10_well_formed :
  forall (A : arith) (X : exact A) light home data,
    Forall (fun s => line_ok s = true /\ feed_ok s = true) (program_text data) ->
    exists g, load_gen (A:=A) light home data = Ok g.
Proof. exact @load_well_formed. Qed.
Print Assumptions C10_well_formed.

Example C10_example :
  Forall (fun s => line_ok s = true /\ feed_ok s = true) (program_text cube) /\
  line_ok "G1 X-"%string = false /\ line_ok "G4 P"%string = false /\ line_ok "T1.5"%string = false /\
  feed_ok "G1 X1 F-100"%string = false.
Proof. split; [repeat constructor|repeat split; reflexivity]. Qed.

(** the second kind of error is real: opposite feedrates *)
Theorem C10_zero_division :
  load_gen (A:=B64) false home0 ["G1 X1 F-60"; "G1 X2 F60"]%string = Err ZeroDivisionError.
Proof. exact opposite_feeds. Qed.
Print Assumptions C10_zero_division.

(** C11 is false: free text starting with "t" raises ValueError. *)
Theorem C11_free_text_refuted :
  forall (A : arith) light home, load_gen (A:=A) light home ["Start printing"%string] = Err ValueError.
Proof. exact free_text_refuted. Qed.
Print Assumptions C11_free_text_refuted.

(** C71 is false: a parenthesised comment in front of a command hides the
    command, whatever it is. *)
Theorem C71_hidden_command_refuted :
  forall (A : arith) (m : mstate A) c s,
    lacks nl c = true -> lacks "(" c = true -> lacks ")" c = true ->
    motion_step m (new_line (String "(" (c ++ ")" ++ s))) =
      Ok (m, new_line (String "(" (c ++ ")" ++ s))).
Proof. exact hidden_command. Qed.
Print Assumptions C71_hidden_command_refuted.

(** C72: line numbers and checksums are transparent. *)
Theorem C72_framed :
  forall (A : arith) (m : mstate A) s t, framed s t -> unnumbered s ->
    lacks nl s = true -> no_outer_paren s = true ->
    agree (recognised s) (motion_step m (new_line s)) (motion_step m (new_line t)).
Proof. exact @framed_agree. Qed.
Print Assumptions C72_framed.

Example C72_example : framed "G1 X5" "N12 G1 X5*71" /\ unnumbered "G1 X5" /\
  lacks nl "G1 X5" = true /\ no_outer_paren "G1 X5" = true /\ recognised "G1 X5" = true.
Proof.
  split; [exists "12"%string, "71"%string; repeat split|].
  split; [intros v w; vm_compute; discriminate|]. repeat split.
Qed.

(** * Props_Edits: edits of layers compose (C125) *)
From Coq Require Import List String.
From Verif Require Import PyBase Arith ArithB64 Gcoder SpecLoad SpecEdits Samples P_Edits.
Import ListNotations.

(** C125, every arithmetic, after any edits: two edits of different layers give
    the same program, tables and all, in either order. *)
Theorem C125_commute :
  forall (A : arith) (g : gcode A), edited g -> forall e1 e2 g1 g2 r1 r2, layer_of e1 <> layer_of e2 ->
    make e1 g = Ok (g1, r1) -> make e2 g1 = Ok (g2, r2) ->
    exists g1', make e2 g = Ok (g1', r2) /\ make e1 g1' = Ok (g2, r1).
Proof. exact @edits_commute. Qed.
Print Assumptions C125_commute.

(** prepending to what was prepended or rewritten is doing it at once *)
Theorem C125_join :
  forall (A : arith) (g : gcode A), edited g -> forall cmds1 cmds2 k g1 g2 r1 r2,
    (prepend_to_layer cmds1 k g = Ok (g1, r1) -> prepend_to_layer cmds2 k g1 = Ok (g2, r2) ->
     prepend_to_layer (cmds2 ++ cmds1) k g = Ok (g2, (r2 ++ r1)%list)) /\
    (rewrite_layer cmds1 k g = Ok (g1, r1) -> prepend_to_layer cmds2 k g1 = Ok (g2, r2) ->
     rewrite_layer (cmds2 ++ cmds1) k g = Ok (g2, (r2 ++ r1)%list)).
Proof. exact @edits_join. Qed.
Print Assumptions C125_join.

(** a rewriting succeeds after an edit of the same layer and leaves nothing of
    it.  Missing: after an edit that emptied the layer, where it is false. *)
Theorem C125_rewriting_partial :
  forall (A : arith) (g : gcode A), edited g -> forall e g1 r1 cmds,
    make e g = Ok (g1, r1) ->
    match e with Prepend _ _ => True | Rewrite cmds1 _ => program_text cmds1 <> [] end ->
    exists g2, rewrite_layer cmds (layer_of e) g1 = Ok (g2, program_text cmds) /\
               rewrite_layer cmds (layer_of e) g = Ok (g2, program_text cmds).
Proof. exact @rewriting_wins. Qed.
Print Assumptions C125_rewriting_partial.

(** C125 is false of the code for a layer that was emptied: the table no longer
    has its number, and it can never be edited again. *)
Theorem C125_emptied_refuted :
  forall (A : arith) (g : gcode A), edited g -> forall cmds1 k g1 r1, program_text cmds1 = [] ->
    rewrite_layer cmds1 k g = Ok (g1, r1) ->
    forall cmds, prepend_to_layer cmds k g1 = Err ValueError /\ rewrite_layer cmds k g1 = Err ValueError.
Proof. exact @emptied. Qed.
Print Assumptions C125_emptied_refuted.

(** a program to edit: its second layer can be emptied, and its first two layers
    can be edited one after the other *)
Example C125_example : edited cubeF /\ edits_seen = true.
Proof. exact (conj (ed_load _ _ _ _ cubeF_loaded) edits_sample). Qed.

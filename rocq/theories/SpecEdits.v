(** * SpecEdits: one edit of a layer, for C125 *)
From Coq Require Import List String.
From Verif Require Import PyBase Arith Gcoder.

Inductive edit := Prepend (cmds : list string) (k : nat) | Rewrite (cmds : list string) (k : nat).

Definition layer_of (e : edit) : nat := match e with Prepend _ k | Rewrite _ k => k end.

Definition make {A : arith} (e : edit) (g : gcode A) : res (gcode A * list string) :=
  match e with Prepend cmds k => prepend_to_layer cmds k g | Rewrite cmds k => rewrite_layer cmds k g end.

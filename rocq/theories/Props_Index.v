(** * Props_Index: numbers that count from the end (C124) *)
From Coq Require Import List ZArith String.
From Verif Require Import PyBase Arith ArithB64 Gcoder Index SpecLoad Samples P_Index.
Import ListNotations.

(** C124, every arithmetic: in a program that was loaded and edited any number
    of times, line -1, -2, ... is found where the last line, the one before, ...
    is, and a number out of range on either side raises IndexError. *)
Theorem C124_lines_partial :
  forall (A : arith) (g : gcode A), edited g ->
    (forall j l, nth_error (rev (g_lines g)) j = Some l ->
       exists n k b, idxs_at g (- Z.of_nat (S j)) = Ok (n, k) /\ nth_error (blocks g) n = Some b /\
                     nth_error b k = Some l) /\
    (forall i, (i < - Z.of_nat (List.length (g_lines g)) \/ Z.of_nat (List.length (g_lines g)) <= i)%Z ->
       idxs_at g i = Err IndexError).
Proof. exact @idxs_from_end. Qed.
Print Assumptions C124_lines_partial.

(** numbers that count from the start are those of C03 and C04 *)
Theorem C124_from_start :
  forall (A : arith) cmds k (g : gcode A),
    prepend_at cmds (Z.of_nat k) g = prepend_to_layer cmds k g /\
    rewrite_at cmds (Z.of_nat k) g = rewrite_layer cmds k g.
Proof. exact @edits_from_start. Qed.
Print Assumptions C124_from_start.

(** C124 is false of the code for layers: a layer that can be read as layer -1,
    -2, ... cannot be edited under that number. *)
Theorem C124_layers_refuted :
  forall (A : arith) cmds k (g : gcode A), (k < 0)%Z ->
    let e := if (k <? - Z.of_nat (List.length (g_layers g)))%Z then IndexError else ValueError in
    prepend_at cmds k g = Err e /\ rewrite_at cmds k g = Err e.
Proof. exact @edits_from_end. Qed.
Print Assumptions C124_layers_refuted.

(** the last line of a program, and its last layer under both its numbers *)
Example C124_example :
  load_gen (A:=B64) false home0 cube = Ok cubeF /\ index_seen = true.
Proof. exact (conj cubeF_loaded index_sample). Qed.

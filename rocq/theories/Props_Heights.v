(** * Property C109, and more about C20: printed heights and layers *)
From Coq Require Import List String Reals.
From Verif Require Import PyBase Arith ArithQ ArithB64 Gcoder Summary SpecLoad SpecMeasure SpecHeights SpecBinary64 Samples.
From Verif Require Import P_Load P_HeightsUse.
Import ListNotations.
Local Open Scope list_scope.

(** C109, exact arithmetic: the reported number of layers is the number of heights
    printed at.  [hs] is any list of these heights without repetition.  Missing:
    moves that print and change the height at once, and heights less than a
    fiftieth of a millimetre apart; C109 is false for both. *)
Theorem C109_count_partial :
  forall (A : arith) (E : exact A) home data (g : gcode A), load_gen false home data = Ok g ->
    level (val E) (g_lines g) -> spaced (val E) (g_lines g) ->
    forall hs, NoDup hs -> (forall h, In h hs <-> prints_at (val E) (g_lines g) h) ->
      layers_count g = List.length hs.
Proof. exact @layers_exact. Qed.
Print Assumptions C109_count_partial.

Example C109_example :
  load_gen (A:=QA) false home0 cube = Ok cubeQ /\ level (val exactQ) (g_lines cubeQ) /\
  spaced (val exactQ) (g_lines cubeQ) /\ layers_count cubeQ = 2.
Proof. exact (conj cubeQ_loaded (conj cubeQ_level (conj cubeQ_spaced eq_refl))). Qed.

(** the same with doubles, for heights up to a kilometre *)
Theorem C109_binary64_partial :
  forall home data (g : gcode B64), load_gen false home data = Ok g ->
    (forall i z, z_after (firstn i (g_lines g)) = Some z -> fin z /\ (Rabs (fval z) <= 1000000)%R) ->
    level fval (g_lines g) -> spaced fval (g_lines g) ->
    forall hs, NoDup hs -> (forall h, In h hs <-> prints_at fval (g_lines g) h) ->
      layers_count g = List.length hs.
Proof. exact layers_B64. Qed.
Print Assumptions C109_binary64_partial.

Example C109_binary64_example :
  load_gen (A:=B64) false home0 cube = Ok cubeF /\
  (forall i z, z_after (firstn i (g_lines cubeF)) = Some z -> fin z /\ (Rabs (fval z) <= 1000000)%R) /\
  level fval (g_lines cubeF) /\ spaced fval (g_lines cubeF).
Proof. exact (conj cubeF_loaded (conj cubeF_heights (conj cubeF_level cubeF_spaced))). Qed.

(** C109 is false: a print that rises while it prints counts one layer for two
    heights... *)
Theorem C109_spiral_refuted : exists g : gcode B64,
  load_gen false home0 ["G1 Z1"; "G1 X1 E1"; "G1 X2 Z2 E2"]%string = Ok g /\
  printed_texts (g_lines g) = ["1.00"; "2.00"]%string /\ layers_count g = 1.
Proof. exact spiral_refuted. Qed.
Print Assumptions C109_spiral_refuted.

(** ... and three heights a hundredth apart count two. *)
Theorem C109_close_refuted : exists g : gcode B64,
  load_gen false home0 ["G1 Z0.2"; "G1 X1 E1"; "G1 Z0.21"; "G1 X2 E2"; "G1 Z0.22"; "G1 X3 E3"]%string = Ok g /\
  printed_texts (g_lines g) = ["0.20"; "0.21"; "0.22"]%string /\ layers_count g = 2.
Proof. exact close_refuted. Qed.
Print Assumptions C109_close_refuted.

(** C20, the other direction: a new layer starts with every line that changes the
    height, so that the layer of a line is the number of changes up to it; for
    changes of at least a fiftieth of a millimetre. *)
Theorem C20_numbered :
  forall (A : arith) (E : exact A) home data (g : gcode A), load_gen false home data = Ok g ->
    spaced (val E) (g_lines g) ->
    forall i, i < List.length (g_lines g) ->
      nth_error (g_lidx g) i = Some (changes (firstn (S i) (g_lines g))).
Proof. exact @numbered_exact. Qed.
Print Assumptions C20_numbered.

Theorem C20_binary64_numbered :
  forall home data (g : gcode B64), load_gen false home data = Ok g ->
    (forall i z, z_after (firstn i (g_lines g)) = Some z -> fin z /\ (Rabs (fval z) <= 1000000)%R) ->
    spaced fval (g_lines g) ->
    forall i, i < List.length (g_lines g) ->
      nth_error (g_lidx g) i = Some (changes (firstn (S i) (g_lines g))).
Proof. exact numbered_B64. Qed.
Print Assumptions C20_binary64_numbered.

Example C20_numbered_example :
  map (fun i => changes (firstn (S i) (g_lines cubeF))) (seq 0 (List.length (g_lines cubeF))) =
  [0; 0; 0; 0; 0; 1; 1; 1; 2; 2; 2; 2].
Proof. vm_compute. reflexivity. Qed.

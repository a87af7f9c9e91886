(** * P_FloatStretchSample: a square for the examples of Props_FloatStretch *)
From Coq Require Import List Ascii String ZArith NArith Bool Lia Reals Lra Floats.SpecFloat.
From Flocq Require Import Core.
From Verif Require Import PyBase Arith ArithR ArithB64 Gcoder Filters Stretch SpecLoad SpecText SpecFilter SpecStretch SpecLoop SpecBinary64 SpecFloatStretch Samples.
From Verif Require Import P_Load P_MachineRefuted P_Stretch P_StretchRefuted P_StretchSample P_Float P_FloatText P_FloatTempcal P_FloatSample P_FloatHypot P_FloatStretch.
Import ListNotations.
Local Open Scope list_scope.
Local Open Scope R_scope.

Lemma square_plain : Forall plain_text (program_text small_square).
Proof.
  repeat (constructor; [split; [apply modestb_ok; vm_compute; reflexivity|split; [discriminate|split; [reflexivity|left; reflexivity]]]|]). constructor.
Qed.

Lemma lit_sized : forall m k lo hi, lo + / 1000000000000 <= dval false m k <= hi - / 1000000000000 -> 0 <= lo -> hi <= 4000 ->
  sized lo hi (lit (A:=B64) m k).
Proof.
  intros m k lo hi H H1 H2. assert (Hb : Rabs (dval false m k) <= 4000) by (rewrite Rabs_pos_eq by lra; lra).
  destruct (f_of_dec_val false m k) as [F V]; [apply million_big; lra|]. split; [exact F|].
  change (lit (A:=B64) m k) with (f_of_dec false m k). rewrite V. pose proof (Rabs_le_both _ _ (near2000 _ Hb)). lra.
Qed.

Lemma default_ordinary : ordinary default_options (lit (A:=B64) 4 1).
Proof.
  unfold ordinary, default_options. cbn [o_from o_cross o_loop o_inside o_outside o_strength].
  refine (conj _ (conj _ (conj _ (conj _ (conj _ (conj _ _)))))); apply lit_sized; unfold dval; cbn; lra.
Qed.

Lemma markedF_edge : fst markedF = Some (lit (A:=B64) 4 1).
Proof. vm_compute. reflexivity. Qed.

Lemma squareF_ordinary : forall we, fst markedF = Some we -> ordinary default_options we.
Proof. rewrite markedF_edge. intros we H. apply (f_equal (fun o => match o with Some x => x | None => we end)) in H. cbn beta iota in H. subst we. exact default_ordinary. Qed.

Lemma squareF_to_stretch : forall k, (1 <= k <= 5)%nat -> to_stretch default_options (fst markedF) (upto k (lines_of (snd markedF))) = true.
Proof. intros [|[|[|[|[|[|k]]]]]] H; try lia; vm_compute; reflexivity. Qed.

(** 0.4 times 0.1 is a double below 1 *)
Lemma squareF_limit : fval (limit default_options (fst markedF) (loop_of (map raw (upto 2 (lines_of (snd markedF)))))) <= 1.
Proof.
  rewrite markedF_edge. destruct one_bnd as [[F1 _] V1]. rewrite <- V1.
  apply fleb_val; [split; vm_compute; reflexivity | exact F1 | vm_compute; reflexivity].
Qed.

Lemma squareF_feed : loop_move (upto 1 (lines_of (snd markedF))) = true /\
  map (fun l => option_map (n_eqb (a:=B64) (lit 1800 0)) (l_f l)) (firstn 6 (all_lines squareF)) =
    [None; Some true; None; None; None; None].
Proof. split; vm_compute; reflexivity. Qed.

Lemma squareF_from : loop_move (upto 1 (lines_of (snd markedF))) = true /\
  to_stretch default_options (fst markedF) (upto 2 (lines_of (snd markedF))) = true /\
  map (fun l => (option_map (n_eqb (a:=B64) (lit 10 0)) (l_x l), option_map (n_eqb (a:=B64) (lit 10 0)) (l_y l)))
    (firstn 2 (all_lines squareF)) = [(None, None); (Some true, Some true)].

Proof. split; [|split]; vm_compute; reflexivity. Qed.

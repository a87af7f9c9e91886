(** * P_Index: numbers that count from the end (C124) *)
From Coq Require Import List ZArith Bool String Lia.
From Verif Require Import PyBase Arith Gcoder Index SpecLoad P_Load P_Edit ArithB64 Samples.
Import ListNotations.
Local Open Scope list_scope.

Lemma position_nat : forall n i, position n (Z.of_nat i) = if (i <? n)%nat then Some i else None.
Proof.
  intros n i. unfold position. replace (Z.of_nat i <? 0)%Z with false by (symmetry; apply Z.ltb_ge; lia).
  replace (0 <=? Z.of_nat i)%Z with true by (symmetry; apply Z.leb_le; lia). cbn [andb]. rewrite Nat2Z.id.
  destruct (Nat.ltb_spec i n); [replace (Z.of_nat i <? Z.of_nat n)%Z with true by (symmetry; apply Z.ltb_lt; lia); reflexivity|].
  replace (Z.of_nat i <? Z.of_nat n)%Z with false by (symmetry; apply Z.ltb_ge; lia). reflexivity.
Qed.

Lemma position_neg : forall n j, position n (- Z.of_nat (S j)) = if (j <? n)%nat then Some (n - S j)%nat else None.
Proof.
  intros n j. unfold position. replace (- Z.of_nat (S j) <? 0)%Z with true by (symmetry; apply Z.ltb_lt; lia).
  destruct (Nat.ltb_spec j n).
  - replace (0 <=? Z.of_nat n + - Z.of_nat (S j))%Z with true by (symmetry; apply Z.leb_le; lia).
    replace (Z.of_nat n + - Z.of_nat (S j) <? Z.of_nat n)%Z with true by (symmetry; apply Z.ltb_lt; lia).
    cbn [andb]. f_equal. lia.
  - replace (0 <=? Z.of_nat n + - Z.of_nat (S j))%Z with false by (symmetry; apply Z.leb_gt; lia). reflexivity.
Qed.

Lemma nth_rev : forall T (l : list T) j x, nth_error (rev l) j = Some x ->
  (j < List.length l)%nat /\ nth_error l (List.length l - S j) = Some x.
Proof.
  intros T l j x H. assert (Hj : (j < List.length l)%nat) by (rewrite <- (rev_length l); apply nth_error_Some; congruence).
  split; [exact Hj|]. rewrite (nth_error_nth' l x) by lia. rewrite (nth_error_nth' (rev l) x) in H by (rewrite rev_length; lia).
  rewrite rev_nth in H by exact Hj. exact H.
Qed.

Section Any.
Context {A : arith}.

Lemma edited_lengths : forall g : gcode A, edited g ->
  List.length (g_lidx g) = List.length (g_lines g) /\ List.length (g_kidx g) = List.length (g_lines g).
Proof.
  intros g Hg. pose proof (edited_consistent _ Hg) as Hc.
  assert (Hk : List.length (g_kidx g) = List.length (g_lines g)) by apply (consistent_idxs_right _ Hc).
  split; [|exact Hk]. rewrite <- Hk. destruct Hc as (_ & H2 & H3). rewrite H2, H3, !map_length. reflexivity.
Qed.

Lemma idxs_from_start : forall (g : gcode A) i, idxs_at g (Z.of_nat i) = idxs g i.
Proof.
  intros g i. unfold idxs_at, idxs. rewrite !position_nat.
  destruct (Nat.ltb_spec i (List.length (g_lidx g))) as [H|H].
  - destruct (Nat.ltb_spec i (List.length (g_kidx g))) as [H'|H']; [reflexivity|].
    rewrite (proj2 (nth_error_None (g_kidx g) i) H'). destruct (nth_error (g_lidx g) i); reflexivity.
  - rewrite (proj2 (nth_error_None (g_lidx g) i) H). reflexivity.
Qed.

Lemma idxs_from_end : forall g : gcode A, edited g ->
  (forall j l, nth_error (rev (g_lines g)) j = Some l ->
     exists n k b, idxs_at g (- Z.of_nat (S j)) = Ok (n, k) /\ nth_error (blocks g) n = Some b /\
                   nth_error b k = Some l) /\
  (forall i, (i < - Z.of_nat (List.length (g_lines g)) \/ Z.of_nat (List.length (g_lines g)) <= i)%Z ->
     idxs_at g i = Err IndexError).
Proof.
  intros g Hg. destruct (edited_lengths g Hg) as [Hl Hk].
  destruct (consistent_idxs_right _ (edited_consistent _ Hg)) as (H1 & H2 & _). split.
  - intros j l H. destruct (nth_rev _ _ _ _ H) as [Hj Hn]. destruct (H1 _ _ Hn) as (n & k & b & Hi & Hb).
    exists n, k, b. split; [|exact Hb]. unfold idxs_at. rewrite !position_neg, Hl, Hk.
    replace (j <? List.length (g_lines g))%nat with true by (symmetry; apply Nat.ltb_lt; exact Hj). exact Hi.
  - intros i [Hi|Hi].
    + replace i with (- Z.of_nat (S (Z.to_nat (- i - 1))))%Z by lia. unfold idxs_at. rewrite position_neg, Hl.
      replace (Z.to_nat (- i - 1) <? List.length (g_lines g))%nat with false by (symmetry; apply Nat.ltb_ge; lia). reflexivity.
    + replace i with (Z.of_nat (Z.to_nat i)) by lia. rewrite idxs_from_start. apply H2. lia.
Qed.

Lemma find_index_ext : forall T (p q : T -> bool) l, (forall x, p x = q x) -> find_index p l = find_index q l.
Proof. intros T p q l H. induction l as [|x l IH]; cbn; [reflexivity|]. rewrite H, IH. reflexivity. Qed.

Lemma find_index_none : forall T (p : T -> bool) l, (forall x, p x = false) -> find_index p l = None.
Proof. intros T p l H. induction l as [|x l IH]; cbn; [reflexivity|]. rewrite H, IH. reflexivity. Qed.

Lemma edit_at_nat : forall T (edit : nat -> gcode A -> res T) k g,
  edit_at edit (Z.of_nat k) g =
  match nth_error (g_layers g) k with
  | None => Err IndexError
  | Some _ => match find_index (Nat.eqb k) (g_lidx g) with None => Err ValueError | Some _ => edit k g end
  end.
Proof.
  intros T edit k g. unfold edit_at. rewrite position_nat, Nat2Z.id.
  rewrite (find_index_ext _ (fun j => (Z.of_nat j =? Z.of_nat k)%Z) (Nat.eqb k)).
  2:{ intros x. destruct (Nat.eqb_spec k x); [subst; apply Z.eqb_refl|apply Z.eqb_neq; lia]. }
  destruct (Nat.ltb_spec k (List.length (g_layers g))) as [H|H].
  - apply nth_error_Some in H. destruct (nth_error (g_layers g) k); [reflexivity|congruence].
  - rewrite (proj2 (nth_error_None (g_layers g) k) H). reflexivity.
Qed.

Lemma edits_from_start : forall cmds k (g : gcode A),
  prepend_at cmds (Z.of_nat k) g = prepend_to_layer cmds k g /\
  rewrite_at cmds (Z.of_nat k) g = rewrite_layer cmds k g.
Proof.
  intros cmds k g. unfold prepend_at, rewrite_at. rewrite !edit_at_nat. unfold prepend_to_layer, rewrite_layer.
  destruct (nth_error (g_layers g) k); [|split; reflexivity].
  destruct (find_index (Nat.eqb k) (g_lidx g)); split; reflexivity.
Qed.

Lemma edits_from_end : forall cmds k (g : gcode A), (k < 0)%Z ->
  let e := if (k <? - Z.of_nat (List.length (g_layers g)))%Z then IndexError else ValueError in
  prepend_at cmds k g = Err e /\ rewrite_at cmds k g = Err e.
Proof.
  intros cmds k g Hk. unfold prepend_at, rewrite_at, edit_at.
  rewrite find_index_none by (intros x; apply Z.eqb_neq; lia).
  replace k with (- Z.of_nat (S (Z.to_nat (- k - 1))))%Z by lia. rewrite position_neg.
  destruct (Nat.ltb_spec (Z.to_nat (- k - 1)) (List.length (g_layers g))) as [H|H].
  - replace (- Z.of_nat (S (Z.to_nat (- k - 1))) <? - Z.of_nat (List.length (g_layers g)))%Z with false
      by (symmetry; apply Z.ltb_ge; lia). split; reflexivity.
  - replace (- Z.of_nat (S (Z.to_nat (- k - 1))) <? - Z.of_nat (List.length (g_layers g)))%Z with true
      by (symmetry; apply Z.ltb_lt; lia). split; reflexivity.
Qed.

End Any.

Definition same_place (a b : res (nat * nat)) : bool :=
  match a, b with Ok (n, k), Ok (n', k') => Nat.eqb n n' && Nat.eqb k k' | _, _ => false end.

Definition value_error {T} (r : res T) : bool := match r with Err ValueError => true | _ => false end.

(** the last line and the first, counted from the end; the last layer edited by
    its number from the start, not by its number from the end *)
Definition index_seen : bool :=
  let n := List.length (g_lines cubeF) in
  let m := List.length (g_layers cubeF) in
  (3 <=? n)%nat && (2 <=? m)%nat &&
  same_place (idxs_at cubeF (-1)) (idxs cubeF (n - 1)) && same_place (idxs_at cubeF (- Z.of_nat n)) (idxs cubeF 0) &&
  is_ok (prepend_at ["M117 end"%string] 1 cubeF) &&
  value_error (prepend_at ["M117 end"%string] (1 - Z.of_nat m) cubeF).

Lemma index_sample : index_seen = true.
Proof. vm_compute. reflexivity. Qed.

(** * P_Visit: proofs about visiting, pausing and gcode_mod *)
From Coq Require Import List Ascii String ZArith NArith Bool Reals Lia Lra Permutation Sorting.Sorted.
From Verif Require Import PyBase Arith Gcoder Filters Visit SpecLoad SpecText SpecMachine SpecMeasure SpecFilter SpecVisit.
From Verif Require Import P_Load P_Edit P_Machine P_Measure P_Layers P_Filter.
Import ListNotations.
Local Open Scope list_scope.

Section PVisit.
Context {A : arith}.
Notation line := (line A).
Notation layer := (layer A).
Notation gcode := (gcode A).

(** ** Heights *)

Lemma insert_sorted_perm : forall (x : num A) l, Permutation (x :: l) (insert_sorted x l).
Proof.
  intros x l. induction l as [|y l IH]; cbn; [reflexivity|].
  destruct (n_ltb x y); [reflexivity|].
  rewrite perm_swap. apply perm_skip, IH.
Qed.

Lemma sorted_perm : forall l : list (num A), Permutation l (py_sorted l).
Proof.
  intros l. unfold py_sorted.
  assert (H : forall l acc : list (num A), Permutation (acc ++ l) (fold_left (fun acc x => insert_sorted x acc) l acc)).
  { clear l. induction l as [|x l IH]; intros acc; cbn; [now rewrite app_nil_r|].
    rewrite <- IH, <- insert_sorted_perm. rewrite <- Permutation_middle. reflexivity. }
  apply (H l []).
Qed.

Lemma existsb_perm : forall T (p : T -> bool) a b, Permutation a b -> existsb p a = existsb p b.
Proof.
  intros T p a b H. induction H as [|x a b H IH|x y a|a b c H1 IH1 H2 IH2]; cbn.
  - reflexivity.
  - now rewrite IH.
  - destruct (p x), (p y); reflexivity.
  - now rewrite IH1.
Qed.

Lemma existsb_find_index : forall T (p : T -> bool) l, existsb p l = is_some (find_index p l).
Proof.
  intros T p l. induction l as [|x l IH]; cbn; [reflexivity|].
  destruct (p x); cbn; [reflexivity|]. rewrite IH. destruct (find_index p l); reflexivity.
Qed.

Lemma round_zs_ok : forall (digits : nat) zs, ~ In None zs ->
  round_zs (A:=A) digits zs = Ok (map (py_round digits) (somes zs)).
Proof.
  intros digits zs. induction zs as [|[z|] zs IH]; intros H; cbn.
  - reflexivity.
  - rewrite IH; [reflexivity|]. intros Hn. apply H. now right.
  - exfalso. apply H. now left.
Qed.

Lemma round_zs_err : forall (digits : nat) zs, In None zs -> round_zs (A:=A) digits zs = Err TypeError.
Proof.
  intros digits zs. induction zs as [|[z|] zs IH]; intros H; cbn.
  - destruct H.
  - destruct H as [H|H]; [discriminate H|]. now rewrite IH.
  - reflexivity.
Qed.

Lemma iterator_zs_ok : forall (digits : nat) (g : gcode), heights_known g ->
  iterator_zs digits g = Ok (py_sorted (heights digits g)).
Proof. intros digits g H. unfold iterator_zs. now rewrite round_zs_ok. Qed.

Lemma iterator_zs_err : forall (digits : nat) (g : gcode), In None (g_zs g) -> iterator_zs digits g = Err TypeError.
Proof. intros digits g H. unfold iterator_zs. now rewrite round_zs_err. Qed.

Lemma layer_numbering_ok : forall (digits : nat) (g : gcode) i y,
  layer_numbering digits (py_sorted (heights digits g)) i y = (shown_number digits g i y, printed digits g y).
Proof.
  intros digits g i y. unfold layer_numbering, shown_number, printed, rank.
  destruct (ly_z y) as [z|]; [|reflexivity].
  rewrite (existsb_perm _ _ _ _ (sorted_perm (heights digits g))), existsb_find_index.
  destruct (find_index _ _); reflexivity.
Qed.

(** ** Places *)

Lemma index_from_ok : forall light i (y : layer) ys j,
  j <= i ->
  index_from light j i y ys =
  match find (fun k => Nat.eqb k i ||
                match nth_error ys (k - j) with
                | Some a => lines_eqb light (ly_lines a) (ly_lines y) | None => false end)
             (seq j (Nat.min (List.length ys) (S i - j))) with
  | Some k => k | None => i
  end.
Proof.
  intros light i y ys. induction ys as [|a ys IH]; intros j Hj; cbn [index_from List.length].
  - reflexivity.
  - replace (Nat.min (S (List.length ys)) (S i - j)) with (S (Nat.min (List.length ys) (i - j))) by lia.
    cbn [seq find]. rewrite Nat.sub_diag. cbn [nth_error].
    destruct (Nat.eqb j i || lines_eqb light (ly_lines a) (ly_lines y)) eqn:E; [reflexivity|].
    apply orb_false_elim in E as [E1 E2]. apply Nat.eqb_neq in E1.
    rewrite IH by lia. replace (S i - S j) with (i - j) by lia.
    assert (Hf : forall n j0, j < j0 ->
      find (fun k => Nat.eqb k i || match nth_error ys (k - S j) with
        | Some a0 => lines_eqb light (ly_lines a0) (ly_lines y) | None => false end) (seq j0 n) =
      find (fun k => Nat.eqb k i || match nth_error (a :: ys) (k - j) with
        | Some a0 => lines_eqb light (ly_lines a0) (ly_lines y) | None => false end) (seq j0 n)).
    { induction n as [|n IHn]; intros j0 Hj0; cbn [seq find]; [reflexivity|].
      replace (j0 - j) with (S (j0 - S j)) by lia. cbn [nth_error].
      destruct (_ || _); [reflexivity|]. apply IHn. lia. }
    rewrite Hf by lia. reflexivity.
Qed.

Lemma layer_index_place : forall (g : gcode) i y, nth_error (g_layers g) i = Some y ->
  layer_index g i y = place g i.
Proof.
  intros g i y Hi. unfold layer_index, place. rewrite index_from_ok by lia.
  assert (Hl : i < List.length (g_layers g)) by (apply nth_error_Some; congruence).
  replace (Nat.min (List.length (g_layers g)) (S i - 0)) with (S i) by lia.
  assert (Hf : forall l, find (fun k => Nat.eqb k i || match nth_error (g_layers g) (k - 0) with
        | Some a => lines_eqb (g_light g) (ly_lines a) (ly_lines y) | None => false end) l =
      find (fun j => Nat.eqb j i || same_lines g j i) l).
  { induction l as [|k l IH]; cbn [find]; [reflexivity|]. unfold same_lines at 1. rewrite Hi, Nat.sub_0_r.
    destruct (nth_error (g_layers g) k); rewrite IH; reflexivity. }
  rewrite Hf. reflexivity.
Qed.

Lemma place_spec : forall (g : gcode) i, place g i <= i /\
  (place g i = i \/ same_lines g (place g i) i = true) /\
  (forall j, j < place g i -> same_lines g j i = false).
Proof.
  intros g i. unfold place.
  destruct (find (fun j => Nat.eqb j i || same_lines g j i) (seq 0 (S i))) as [j|] eqn:E.
  - pose proof (find_some _ _ E) as [H1 H2]. apply in_seq in H1. split; [lia|]. split.
    + apply orb_prop in H2 as [H2|H2]; [left; apply Nat.eqb_eq, H2|now right].
    + intros k Hk. assert (Hg : forall n a, find (fun j => Nat.eqb j i || same_lines g j i) (seq a n) = Some j ->
        forall k, a <= k < j -> same_lines g k i = false).
      { clear E k Hk. induction n as [|n IH]; intros a E k Hk; [discriminate E|]. cbn [seq find] in E.
        destruct (Nat.eqb a i || same_lines g a i) eqn:Ea.
        - injection E as <-. lia.
        - apply orb_false_elim in Ea as [_ Ea]. destruct (Nat.eq_dec a k) as [<-|Hak]; [exact Ea|].
          apply (IH (S a) E). lia. }
      apply (Hg _ _ E). lia.
  - exfalso. assert (Hin : In i (seq 0 (S i))) by (apply in_seq; lia).
    pose proof (find_none _ _ E i Hin) as Hn. cbn beta in Hn. rewrite Nat.eqb_refl in Hn. discriminate Hn.
Qed.

(** ** Visiting *)

Section Observe.
Context {St : Type}.
Variable f : St -> event A -> res St.

Lemma foldM_app : forall S X (h : S -> X -> res S) a b s,
  foldM h (a ++ b) s = do s' <- foldM h a s; foldM h b s'.
Proof.
  intros S X h a. induction a as [|x a IH]; intros b s; cbn; [reflexivity|].
  destruct (h s x) as [s'|e]; cbn; [apply IH|reflexivity].
Qed.

Lemma visit_lines_ok : forall (g : gcode) num idx pr ls n s,
  visit_lines (observer f) g num idx pr n s ls =
  do s' <- foldM f (map (fun p => VisitLine (snd p) (Info num idx (Z.of_nat (fst p)) pr)) (numbered n ls)) s;
  Ok (s', n + List.length ls).
Proof.
  intros g num idx pr ls. induction ls as [|l ls IH]; intros n s.
  - cbn. now rewrite Nat.add_0_r.
  - unfold numbered in *. cbn [visit_lines List.length seq combine map foldM fst snd observer v_line].
    destruct (f s _) as [s1|e]; cbn [bind]; [|reflexivity]. rewrite IH.
    destruct (foldM _ _ _); cbn [bind]; [|reflexivity]. do 2 f_equal. lia.
Qed.

Lemma lines_before_S : forall (g : gcode) i y, nth_error (g_layers g) i = Some y ->
  lines_before g (S i) = lines_before g i + List.length (ly_lines y).
Proof.
  intros g i y H. unfold lines_before, blocks. rewrite !firstn_map.
  destruct (nth_error_split _ _ H) as (a & b & Hg & Ha). rewrite Hg.
  replace (S i) with (List.length (a ++ [y])) by (rewrite app_length; cbn; lia).
  replace (a ++ y :: b) with ((a ++ [y]) ++ b) at 1 by (rewrite <- app_assoc; reflexivity).
  rewrite firstn_app_len by reflexivity. rewrite <- Ha, firstn_app_len by reflexivity.
  rewrite map_app, concat_app, app_length. cbn. now rewrite app_nil_r.
Qed.

Lemma skipn_nth : forall T (l : list T) i, skipn i l =
  match nth_error l i with Some x => x :: skipn (S i) l | None => [] end.
Proof.
  intros T l. induction l as [|x l IH]; intros [|i]; cbn; try reflexivity. rewrite IH.
  destruct (nth_error l i); reflexivity.
Qed.

Lemma visit_layers_ok : forall (digits : nat) (g : gcode) k i s,
  i + k = List.length (g_layers g) ->
  visit_layers (observer f) digits (py_sorted (heights digits g)) i k (lines_before g i) s g =
  do s' <- foldM f (List.concat (map (fun p => layer_events digits g (fst p) (lines_before g (fst p)) (snd p))
                               (combine (seq i k) (skipn i (g_layers g))))) s;
  Ok (s', g).
Proof.
  intros digits g k. induction k as [|k IH]; intros i s Hi; [reflexivity|].
  assert (Hl : i < List.length (g_layers g)) by lia.
  destruct (nth_error (g_layers g) i) as [y|] eqn:Hy; [|apply nth_error_None in Hy; lia].
  rewrite (skipn_nth _ (g_layers g) i), Hy. cbn [visit_layers]. rewrite Hy.
  rewrite (layer_index_place g i y Hy), layer_numbering_ok.
  cbn [seq combine map List.concat fst snd]. unfold layer_events at 1. cbn [app foldM].
  cbn [observer v_will v_did]. destruct (f s _) as [s1|e]; cbn [bind]; [|reflexivity].
  rewrite <- app_assoc, foldM_app.
  rewrite Hy. rewrite visit_lines_ok. fold (@observer A St).
  destruct (foldM f (map _ _) s1) as [s2|e]; cbn [bind app foldM]; [|reflexivity].
  replace (Z.of_nat (lines_before g i + List.length (ly_lines y)) - 1)%Z
    with (Z.of_nat (lines_before g i) + Z.of_nat (List.length (ly_lines y)) - 1)%Z by lia.
  destruct (f s2 _) as [s3|e]; cbn [bind]; [|reflexivity].
  rewrite <- (lines_before_S g i y Hy). apply IH. lia.
Qed.

Lemma observe_ok : forall (digits : nat) (g : gcode) s, heights_known g ->
  iterate (observer f) digits s g = do s' <- foldM f (all_events digits g) s; Ok (s', g).
Proof.
  intros digits g s H. unfold iterate, accept. rewrite (iterator_zs_ok _ _ H). cbn [bind].
  change 0 with (lines_before g 0) at 2. rewrite visit_layers_ok by lia. cbn [skipn]. reflexivity.
Qed.

Lemma observe_err : forall (digits : nat) (g : gcode) s, In None (g_zs g) ->
  iterate (observer f) digits s g = Err TypeError.
Proof. intros digits g s H. unfold iterate. now rewrite iterator_zs_err. Qed.
End Observe.

(** ** Programs a user gets *)

(** tables that fit the layers, with a program list of the same length *)
Definition indexed (g : gcode) : Prop :=
  List.length (g_lines g) = List.length (List.concat (blocks g)) /\
  g_lidx g = map fst (positions 0 (blocks g)) /\ g_kidx g = map snd (positions 0 (blocks g)).

Lemma consistent_indexed : forall g : gcode, consistent g -> indexed g.
Proof. intros g (H1 & H2 & H3). split; [now rewrite H1|split; assumption]. Qed.

Lemma prepend_indexed : forall cmds k (g : gcode) y,
  indexed g -> nth_error (g_layers g) k = Some y -> ly_lines y <> [] ->
  exists g', prepend_to_layer cmds k g = Ok (g', program_text cmds) /\
    g_layers g' = with_layer k (map (inserted_line (A:=A)) (program_text cmds) ++ ly_lines y) y g /\
    indexed g' /\ exists ls li ki, g' = set_lines_layers ls (g_layers g') li ki g.
Proof.
  intros cmds k g y (H1 & H2 & H3) Hk Hne.
  destruct (nth_layer_split _ _ _ Hk) as (Y1 & Y2 & HY & HYk).
  assert (HB : blocks g = map ly_lines Y1 ++ ly_lines y :: map ly_lines Y2)
    by (unfold blocks; rewrite HY, map_app; reflexivity).
  set (B1 := map ly_lines Y1) in *. set (B2 := map ly_lines Y2) in *.
  assert (HB1 : List.length B1 = k) by (unfold B1; rewrite map_length; exact HYk).
  assert (Hrc : rev (reversed_commands cmds) = program_text cmds).
  { unfold reversed_commands. rewrite clean_lines_text, program_text_rev, rev_involutive. reflexivity. }
  assert (HP : exists P Q, g_lines g = P ++ Q /\ List.length P = List.length (List.concat B1)).
  { exists (firstn (List.length (List.concat B1)) (g_lines g)), (skipn (List.length (List.concat B1)) (g_lines g)).
    split; [now rewrite firstn_skipn|]. rewrite firstn_length, H1, HB, concat_app, app_length. lia. }
  destruct HP as (P & Q & HP & HPl).
  unfold prepend_to_layer. rewrite Hk.
  rewrite H2, HB, (find_layer_start _ _ _ k HB1 Hne), (layer_end _ _ _ k HB1).
  rewrite H3, HB, (nth_snd_positions _ _ _ Hne).
  rewrite map_fst_positions_split, map_snd_positions_split, HP.
  rewrite (app_assoc (map fst _)), (app_assoc (map snd _)).
  rewrite prepend_loop_spec.
  2: exact HPl.
  2: rewrite app_length, map_length, positions_length, repeat_length; lia.
  2: rewrite app_length, map_length, positions_length, seq_length; lia.
  rewrite Hrc. eexists. split; [reflexivity|]. cbn [g_layers set_lines_layers].
  split; [reflexivity|]. split.
  - unfold indexed, blocks. cbn [g_layers g_lines g_lidx g_kidx set_lines_layers].
    fold (with_layer k (map (inserted_line (A:=A)) (program_text cmds) ++ ly_lines y) y g). rewrite <- HYk.
    rewrite (blocks_with_layer g Y1 y Y2 _ HY). fold B1 B2.
    rewrite map_fst_positions_split, map_snd_positions_split, HYk, HB1.
    assert (Hlen : List.length (reversed_commands cmds) = List.length (program_text cmds))
      by (rewrite <- Hrc, rev_length; reflexivity).
    assert (HQ : List.length Q = List.length (ly_lines y) + List.length (List.concat B2)).
    { rewrite HP, HB, concat_app in H1. cbn [List.concat] in H1. rewrite !app_length in H1. lia. }
    rewrite concat_app. cbn [List.concat]. rewrite !app_length, Hlen, !map_length.
    repeat split.
    + lia.
    + rewrite Nat.add_comm, repeat_app, <- !app_assoc. reflexivity.
    + rewrite (Nat.add_comm (List.length (program_text cmds))), seq_app, <- !app_assoc.
      do 3 f_equal.
      destruct (ly_lines y) as [|l b]; [congruence|]. cbn [List.length]. f_equal. lia.
  - do 3 eexists. reflexivity.
Qed.
Lemma rewrite_indexed : forall cmds k (g : gcode) y,
  indexed g -> nth_error (g_layers g) k = Some y -> ly_lines y <> [] ->
  exists g', rewrite_layer cmds k g = Ok (g', program_text cmds) /\
    g_layers g' = with_layer k (map (inserted_line (A:=A)) (program_text cmds)) y g /\
    indexed g' /\ exists ls li ki, g' = set_lines_layers ls (g_layers g') li ki g.
Proof.
  intros cmds k g y (H1 & H2 & H3) Hk Hne.
  destruct (nth_layer_split _ _ _ Hk) as (Y1 & Y2 & HY & HYk).
  assert (HB : blocks g = map ly_lines Y1 ++ ly_lines y :: map ly_lines Y2)
    by (unfold blocks; rewrite HY, map_app; reflexivity).
  set (B1 := map ly_lines Y1) in *. set (B2 := map ly_lines Y2) in *.
  assert (HB1 : List.length B1 = k) by (unfold B1; rewrite map_length; exact HYk).
  assert (Hrc : rev (reversed_commands cmds) = program_text cmds).
  { unfold reversed_commands. rewrite clean_lines_text, program_text_rev, rev_involutive. reflexivity. }
  assert (Hlen : List.length (reversed_commands cmds) = List.length (program_text cmds))
    by (rewrite <- Hrc, rev_length; reflexivity).
  assert (HP : exists P Q R, g_lines g = P ++ Q ++ R /\ List.length P = List.length (List.concat B1) /\
                List.length Q = List.length (ly_lines y)).
  { set (n := List.length (List.concat B1)). set (m := List.length (ly_lines y)).
    exists (firstn n (g_lines g)), (firstn m (skipn n (g_lines g))), (skipn m (skipn n (g_lines g))).
    split; [now rewrite !firstn_skipn|]. rewrite HB, concat_app in H1. cbn [List.concat] in H1.
    rewrite !app_length in H1. fold n m in H1. rewrite !firstn_length, skipn_length. lia. }
  destruct HP as (P & Q & R & HP & HPl & HQl).
  unfold rewrite_layer. rewrite Hk.
  rewrite H2, HB, (find_layer_start _ _ _ k HB1 Hne), (layer_end _ _ _ k HB1).
  rewrite H3, HB. rewrite map_fst_positions_split, map_snd_positions_split, HP.
  rewrite !firstn_app_len by (rewrite ?map_length, ?positions_length, ?HPl; reflexivity).
  rewrite !(app_assoc (map fst _) (repeat _ (List.length (ly_lines y)))),
          !(app_assoc (map snd _) (seq _ _)), (app_assoc P Q).
  rewrite !skipn_app_len
    by (rewrite ?app_length, ?map_length, ?positions_length, ?repeat_length, ?seq_length, ?HPl, ?HQl; reflexivity).
  rewrite fold_insert_lines by (symmetry; exact HPl). rewrite fold_insert_lay, app_nil_r.
  rewrite Hrc, Hlen. eexists. split; [reflexivity|]. cbn [g_layers set_lines_layers].
  split; [reflexivity|]. split.
  - unfold indexed, blocks. cbn [g_layers g_lines g_lidx g_kidx set_lines_layers].
    fold (with_layer k (map (inserted_line (A:=A)) (program_text cmds)) y g). rewrite <- HYk.
    rewrite (blocks_with_layer g Y1 y Y2 _ HY). fold B1 B2.
    rewrite map_fst_positions_split, map_snd_positions_split, HYk, HB1, map_length.
    split; [|split].
    + rewrite HP, HB, concat_app in H1. cbn [List.concat] in H1. rewrite concat_app. cbn [List.concat].
      rewrite !app_length, ?map_length in *. lia.
    + rewrite <- ?app_assoc. reflexivity.
    + rewrite <- ?app_assoc. reflexivity.
  - do 3 eexists. reflexivity.
Qed.

(** layers at a known height hold lines *)
Definition paged (g : gcode) : Prop :=
  forall k y, nth_error (g_layers g) k = Some y -> ly_lines y = [] -> ly_z y = None.

Definition linv_paged (ls : lstate A) : Prop :=
  (ls_cur ls = [] -> ls_prev_z ls = None) /\
  (forall y, In y (ls_layers ls) -> ly_lines y = [] -> ly_z y = None).

Lemma paged_step : forall l mx (ls ls1 : lstate A) x, layer_step l mx ls = Ok ls1 ->
  linv_paged ls -> linv_paged (push_line x ls1).
Proof.
  intros l mx ls ls1 x H (H1 & H2).
  assert (Hl : forall y, In y (ls_layers ls1) -> ly_lines y = [] -> ly_z y = None).
  { unfold layer_step in H. destruct (command l); [|injection H as <-; exact H2].
    unfold layer_body in H. destruct (update_bbox l mx ls) as [bb bbe].
    destruct (update_duration l (ls_d ls)) as [d|e]; cbn [bind] in H; [|discriminate H].
    apply ok_inj in H. subst ls1. unfold update_layers.
    match goal with |- context [opt_eqb (ls_cur_z ?a) _] => set (ls0 := a) end.
    destruct (opt_eqb _ _); [exact H2|].
    destruct (compute_base_z ls0) as [base est] eqn:Eb.
    destruct (match ls_prev_base ls0 with Some b => opt_eqb base b | None => false end); [exact H2|].
    cbn [ls_layers]. intros y Hy Hn. apply in_app_or in Hy as [Hy|[<-|[]]]; [exact (H2 y Hy Hn)|].
    cbn [ly_lines ly_z] in *. unfold compute_base_z in Eb. cbn [ls0 ls_cur] in Hn.
    change (ls_prev_z ls0) with (ls_prev_z ls) in Eb. rewrite (H1 Hn) in Eb. congruence. }
  split; [|exact Hl]. cbn. intros Hc. destruct (ls_cur ls1); discriminate Hc.
Qed.

Lemma load_paged : forall light home data (g : gcode), load_gen light home data = Ok g -> paged g.
Proof.
  intros light home data g H. destruct (load_btrace _ _ _ _ H) as (pl & ls & Hb & Hg).
  assert (HI : linv_paged ls).
  { assert (H0 : linv_paged init_lstate) by (split; [reflexivity|intros y []]).
    revert H0. generalize Hb. generalize (init_mstate home), (program_text data), (g_m g), (init_lstate (A:=A)).
    clear. intros m ts m' ls0 Hb. induction Hb as [|m ls s l m1 ls1 ts pl m' ls' Hs Hl Ht IH]; intros H0.
    - exact H0.
    - apply IH. eapply paged_step; eassumption. }
  destruct HI as [H1 H2]. rewrite Hg. unfold paged, finalize. intros k y Hk Hn. apply nth_error_In in Hk.
  destruct (ls_cur ls) as [|c cs] eqn:Ec; cbn [g_layers] in Hk.
  - apply in_app_or in Hk as [Hk|[<-|[]]]; [exact (H2 y Hk Hn)|reflexivity].
  - apply in_app_or in Hk as [Hk|[<-|[]]]; [|reflexivity].
    apply in_app_or in Hk as [Hk|[<-|[]]]; [exact (H2 y Hk Hn)|discriminate Hn].
Qed.

Lemma positions_lengths : forall T U (a : list (list T)) (b : list (list U)) n,
  map (@List.length _) a = map (@List.length _) b -> positions n a = positions n b.
Proof.
  intros T U. induction a as [|x a IH]; intros [|y b] n H; cbn in *; try discriminate H; [reflexivity|].
  injection H as H1 H2. rewrite H1, (IH b _ H2). reflexivity.
Qed.

Lemma length_concat_eq : forall T U (a : list (list T)) (b : list (list U)),
  map (@List.length _) a = map (@List.length _) b -> List.length (List.concat a) = List.length (List.concat b).
Proof.
  intros T U. induction a as [|x a IH]; intros [|y b] H; cbn in *; try discriminate H; [reflexivity|].
  injection H as H1 H2. rewrite !app_length, H1, (IH b H2). reflexivity.
Qed.

(** a filter that replaces each line by one line keeps all this *)
Lemma filtered_indexed : forall g g' : gcode,
  map (@List.length _) (blocks g') = map (@List.length _) (blocks g) -> same_frame g g' ->
  indexed g -> paged g -> indexed g' /\ paged g'.
Proof.
  intros g g' HL (F1 & _ & _ & F2 & _ & F3 & F4 & _) (H1 & H2 & H3) HP. split.
  - unfold indexed. rewrite F2, F3, F4, H1, H2, H3, (positions_lengths _ _ _ _ 0 HL).
    rewrite (length_concat_eq _ _ _ _ HL). auto.
  - intros k y Hk Hn.
    assert (Hlen : List.length (g_layers g') = List.length (g_layers g)).
    { apply (f_equal (@List.length _)) in F1. rewrite !map_length in F1. exact F1. }
    destruct (nth_error (g_layers g) k) as [y0|] eqn:Hk0.
    2:{ apply nth_error_None in Hk0. assert (Hx : nth_error (g_layers g') k <> None) by congruence.
        apply nth_error_Some in Hx. lia. }
    assert (Hz : ly_z y = ly_z y0).
    { apply (f_equal (fun l => nth_error l k)) in F1. rewrite !nth_error_map, Hk, Hk0 in F1. cbn in F1. congruence. }
    rewrite Hz. apply (HP k y0 Hk0).
    unfold blocks in HL. rewrite !map_map in HL.
    apply (f_equal (fun l => nth_error l k)) in HL. rewrite !nth_error_map, Hk, Hk0 in HL. cbn in HL.
    rewrite Hn in HL. cbn in HL. destruct (ly_lines y0); [reflexivity|discriminate HL].
Qed.

Lemma with_layer_paged : forall k ls y (g g' : gcode),
  nth_error (g_layers g) k = Some y -> ls <> [] -> g_layers g' = with_layer k ls y g -> paged g -> paged g'.
Proof.
  intros k ls y g g' Hk Hls Hg HP j y' Hj Hn. rewrite Hg in Hj. unfold with_layer in Hj.
  destruct (Nat.eq_dec j k) as [->|Hne].
  - rewrite (nth_error_set_nth_eq _ _ _ _ _ Hk) in Hj. injection Hj as <-. cbn in Hn. congruence.
  - rewrite nth_error_set_nth_neq in Hj by exact Hne. exact (HP j y' Hj Hn).
Qed.

Lemma indexed_empty : forall cmds k (g : gcode) y,
  indexed g -> nth_error (g_layers g) k = Some y -> ly_lines y = [] ->
  prepend_to_layer cmds k g = Err ValueError /\ rewrite_layer cmds k g = Err ValueError.
Proof.
  intros cmds k g y (H1 & H2 & H3) Hk Hne.
  destruct (nth_layer_split _ _ _ Hk) as (Y1 & Y2 & HY & HYk).
  assert (HB : blocks g = map ly_lines Y1 ++ [] :: map ly_lines Y2)
    by (unfold blocks; rewrite HY, map_app; cbn; rewrite Hne; reflexivity).
  unfold prepend_to_layer, rewrite_layer. rewrite Hk, H2, HB.
  rewrite find_layer_none by (rewrite map_length; exact HYk). split; reflexivity.
Qed.

Lemma prepared_ok : forall g : gcode, prepared g -> indexed g /\ paged g.
Proof.
  intros g H. induction H as [light home data g H|cmds k g g' r Hg IH H|cmds k g g' r Hg IH Hne H
    |x y g g' Hg IH H|g g' Hg IH H].
  - split; [apply consistent_indexed; eapply load_consistent, H|eapply load_paged, H].
  - destruct IH as [I1 I2]. destruct (nth_error (g_layers g) k) as [y|] eqn:Hk.
    + destruct (ly_lines y) as [|l b] eqn:Hy.
      * destruct (indexed_empty cmds k g y I1 Hk Hy) as [E _]. congruence.
      * destruct (prepend_indexed cmds k g y I1 Hk) as (g1 & E & EL & EI & _); [congruence|].
        rewrite E in H. injection H as <- _. split; [exact EI|].
        refine (with_layer_paged k _ y g g1 Hk _ EL I2).
        intros Hx. apply app_eq_nil in Hx as [_ Hx]. congruence.
    + destruct (prepend_missing cmds k g Hk) as [E _]. congruence.
  - destruct IH as [I1 I2]. destruct (nth_error (g_layers g) k) as [y|] eqn:Hk.
    + destruct (ly_lines y) as [|l b] eqn:Hy.
      * destruct (indexed_empty cmds k g y I1 Hk Hy) as [_ E]. congruence.
      * destruct (rewrite_indexed cmds k g y I1 Hk) as (g1 & E & EL & EI & _); [congruence|].
        rewrite E in H. injection H as <- _. split; [exact EI|].
        refine (with_layer_paged k _ y g g1 Hk _ EL I2).
        intros Hx. destruct (program_text cmds); [congruence|discriminate Hx].
    + destruct (prepend_missing cmds k g Hk) as [_ E]. congruence.
  - destruct (translate_lines _ _ _ _ H) as (_ & _ & HL & HF). destruct IH. eapply filtered_indexed; eassumption.
  - destruct (relative_converted _ _ H) as (_ & _ & HL & HF). destruct IH. eapply filtered_indexed; eassumption.
Qed.

(** ** Unknown heights *)

Definition early (pre : list line) : Prop :=
  exists i l, nth_error pre i = Some l /\ t_extruding (lnotes l) = Some true /\ z_after (firstn i pre) = None.

Lemma early_snoc : forall pre l, early (pre ++ [l]) <->
  early pre \/ (t_extruding (lnotes l) = Some true /\ z_after pre = None).
Proof.
  intros pre l. split.
  - intros (i & x & Hi & He & Hz). destruct (Nat.lt_ge_cases i (List.length pre)) as [Hl|Hl].
    + left. exists i, x. rewrite nth_error_app1 in Hi by exact Hl. rewrite firstn_app in Hz.
      replace (i - List.length pre) with 0 in Hz by lia. cbn [firstn] in Hz. rewrite app_nil_r in Hz. auto.
    + right. rewrite nth_error_app2 in Hi by exact Hl.
      destruct (i - List.length pre) as [|j] eqn:Ej; [|destruct j; discriminate Hi]. injection Hi as <-.
      assert (i = List.length pre) by lia. subst i.
      rewrite firstn_app, firstn_all, Nat.sub_diag in Hz. cbn [firstn] in Hz. rewrite app_nil_r in Hz. auto.
  - intros [(i & x & Hi & He & Hz)|[He Hz]].
    + assert (Hl : i < List.length pre) by (apply nth_error_Some; congruence).
      exists i, x. rewrite nth_error_app1 by exact Hl. rewrite firstn_app.
      replace (i - List.length pre) with 0 by lia. cbn [firstn]. rewrite app_nil_r. auto.
    + exists (List.length pre), l. rewrite nth_error_app2, Nat.sub_diag by lia.
      rewrite firstn_app, firstn_all, Nat.sub_diag. cbn [firstn]. rewrite app_nil_r. auto.
Qed.

Record noz (pre : list line) (ls : lstate A) : Prop := Noz {
  nz_cur : ls_cur_z ls = z_after pre;
  nz_prev : ls_prev_z ls = z_after pre;
  nz_none : z_after pre = None ->
    ls_zs ls = [] /\ ls_prev_base ls = None /\ (ls_has_ext ls = true <-> early pre);
  nz_some : z_after pre <> None -> (In None (ls_zs ls) <-> early pre) }.

Lemma noz_init : noz [] init_lstate.
Proof.
  constructor; try reflexivity.
  - intros _. split; [reflexivity|]. split; [reflexivity|]. split; [discriminate|].
    intros (i & l & H & _). destruct i; discriminate H.
  - intros H. contradiction H. reflexivity.
Qed.

Lemma add_z_some : forall has z zs, In None (add_z (A:=A) has (Some z) zs) <-> In None zs.
Proof.
  intros has z zs. unfold add_z. destruct (_ && _); [|reflexivity].
  rewrite in_app_iff. cbn. intuition discriminate.
Qed.

Lemma update_cur_z_some : forall (l : line) z, update_cur_z l (Some z) <> None.
Proof.
  intros l z. unfold update_cur_z. destruct (l_z l); [|discriminate].
  destruct (cmd_is _ _); [discriminate|]. destruct (is_move l); [|discriminate].
  destruct (t_relative (lnotes l)) as [[]|]; discriminate.
Qed.

Lemma noz_step : forall (m m' : mstate A) s l pre (ls ls1 : lstate A),
  motion_step m (new_line s) = Ok (m', l) -> layer_step l (m_max m') ls = Ok ls1 ->
  noz pre ls -> noz (pre ++ [l]) (push_line l ls1).
Proof.
  intros m m' s l pre ls ls1 Hs Hb [N1 N2 N3 N4].
  assert (Hza : z_after (pre ++ [l]) = update_cur_z l (z_after pre)) by apply z_after_snoc.
  unfold layer_step in Hb. destruct (command l) as [c|] eqn:Ec.
  - unfold layer_body in Hb. destruct (update_bbox l (m_max m') ls) as [bb bbe].
    destruct (update_duration l (ls_d ls)) as [d|e]; cbn [bind] in Hb; [|discriminate Hb].
    apply ok_inj in Hb. set (has := ls_has_ext ls || _) in *.
    assert (Hhas : z_after pre = None -> (has = true <-> early (pre ++ [l]))).
    { intros Hz. rewrite early_snoc. destruct (N3 Hz) as (_ & _ & He). rewrite <- He. unfold has.
      rewrite orb_true_iff. destruct (t_extruding (lnotes l)) as [[]|]; intuition discriminate. }
    subst ls1. unfold update_layers. cbn [ls_cur_z ls_prev_z].
    rewrite N1, N2, <- Hza.
    destruct (z_after pre) as [z|] eqn:Ez.
    + destruct (z_after (pre ++ [l])) as [z'|] eqn:Ez'; [|exfalso; eapply update_cur_z_some; symmetry; exact Hza].
      assert (He : In None (ls_zs ls) <-> early (pre ++ [l])).
      { rewrite early_snoc, N4 by discriminate. rewrite Ez. split; [now left|]. intros [H|[_ H]]; [exact H|discriminate H]. }
      destruct (opt_eqb (Some z') (Some z)).
      { constructor; cbn; solve [congruence|intros _; exact He]. }
      match goal with |- context [compute_base_z ?a] => destruct (compute_base_z a) as [base est] end.
      cbn [ls_prev_base]. destruct (match ls_prev_base ls with Some b => opt_eqb base b | None => false end).
      { constructor; cbn; solve [congruence|intros _; exact He]. }
      constructor; cbn; try congruence. intros _. rewrite add_z_some. exact He.
    + destruct (N3 eq_refl) as (Z1 & Z2 & Z3).
      destruct (z_after (pre ++ [l])) as [z'|] eqn:Ez'; cbn [opt_eqb].
      * unfold compute_base_z. cbn [ls_prev_z ls_prev_base]. rewrite Z2.
        constructor; cbn; try congruence.
        intros _. rewrite Z1. unfold add_z. cbn. rewrite <- (Hhas eq_refl).
        destruct has; cbn; intuition congruence.
      * constructor; cbn; try congruence. intros _. rewrite Z1, Z2.
        split; [reflexivity|]. split; [reflexivity|]. exact (Hhas eq_refl).
  - injection Hb as <-. unfold update_cur_z in Hza. rewrite (no_command_z _ _ _ _ Hs Ec) in Hza.
    assert (He : early (pre ++ [l]) <-> early pre).
    { rewrite early_snoc. split; [|now left]. intros [H|[H _]]; [exact H|]. exfalso.
      destruct (command_name s) as [c|] eqn:Hn.
      - destruct (motion_some _ _ _ _ _ Hn Hs) as (s1 & l1 & ext & _ & (_ & Hcmd & _) & _ & ->).
        cbn in Ec. congruence.
      - destruct (motion_none _ _ _ _ Hn Hs) as (_ & _ & _ & Hx). rewrite Hx in H. discriminate H. }
    constructor; cbn; rewrite ?Hza, ?He; try congruence; assumption.
Qed.

Lemma load_unknown : forall home data (g : gcode), load_gen false home data = Ok g ->
  (In None (g_zs g) <-> early (g_lines g)).
Proof.
  intros home data g H. destruct (load_btrace _ _ _ _ H) as (pl & ls & Hb & Hg).
  rewrite map_store_false in Hg.
  assert (HN : forall ts pl (m m' : mstate A) ls ls', btrace false m ls ts pl m' ls' ->
    forall pre, noz pre ls -> noz (pre ++ pl) ls').
  { clear. intros ts pl m m' ls ls' H.
    induction H as [m ls|m ls s l m1 ls1 ts pl m' ls' Hs Hb Ht IH]; intros pre C; [now rewrite app_nil_r|].
    replace (pre ++ l :: pl) with ((pre ++ [l]) ++ pl) by (rewrite <- app_assoc; reflexivity).
    apply IH. eapply noz_step; eassumption. }
  specialize (HN _ _ _ _ _ _ Hb [] noz_init). cbn [app] in HN.
  pose proof (btrace_cut _ _ _ _ _ _ Hb [] cut_init) as C. cbn [app] in C.
  destruct HN as [N1 N2 N3 N4].
  rewrite Hg. unfold finalize. destruct (ls_cur ls) as [|c cs] eqn:Ec; cbn [g_zs g_lines].
  - assert (Hp : pl = []).
    { destruct (ls_layers ls) as [|y ys] eqn:EL.
      - rewrite <- (cut_concat _ _ C). unfold blocks_of. rewrite EL, Ec. reflexivity.
      - exfalso. apply (cut_cur _ _ C); [rewrite EL; discriminate|exact Ec]. }
    subst pl. destruct (N3 eq_refl) as (Z1 & _ & _). rewrite Z1. split; [intros []|].
    intros (i & l & Hi & _). destruct i; discriminate Hi.
  - rewrite N2. destruct (z_after pl) as [z|] eqn:Ez.
    + rewrite add_z_some. apply N4. discriminate.
    + destruct (N3 eq_refl) as (Z1 & _ & Z3). rewrite Z1, <- Z3. unfold add_z. cbn.
      destruct (ls_has_ext ls); cbn; intuition congruence.
Qed.
(** ** Pausing *)

Notation pline := (inserted_line (A:=A) "M226").

Lemma fronted_0 : forall m (y : layer), fronted m 0 y = y.
Proof. intros m [ls z d]. reflexivity. Qed.

Lemma fronts_nth : forall m ns (ys : list layer) k n y,
  nth_error ns k = Some n -> nth_error ys k = Some y -> nth_error (fronts m ns ys) k = Some (fronted m n y).
Proof.
  intros m ns. induction ns as [|a ns IH]; intros ys k n y Hn Hy; [destruct k; discriminate Hn|].
  destruct ys as [|b ys]; [destruct k; discriminate Hy|].
  destruct k as [|k]; cbn in *; [congruence|]. exact (IH ys k n y Hn Hy).
Qed.

Lemma fronts_set : forall m ns (ys : list layer) k n y,
  nth_error ns k = Some n -> nth_error ys k = Some y ->
  set_nth k (set_ly_lines (m :: ly_lines (fronted m n y)) (fronted m n y)) (fronts m ns ys) =
  fronts m (set_nth k (S n) ns) ys.
Proof.
  intros m ns. induction ns as [|a ns IH]; intros ys k n y Hn Hy; [destruct k; discriminate Hn|].
  destruct ys as [|b ys]; [destruct k; discriminate Hy|].
  destruct k as [|k]; cbn [nth_error set_nth fronts combine map fst snd] in *.
  - injection Hn as ->. injection Hy as ->. reflexivity.
  - f_equal. apply IH; assumption.
Qed.

Lemma fronts_length : forall m ns (ys : list layer), List.length ns = List.length ys ->
  List.length (fronts m ns ys) = List.length ys.
Proof. intros m ns ys H. unfold fronts. rewrite map_length, combine_length. lia. Qed.

Lemma fronts_z : forall m ns (ys : list layer), List.length ns = List.length ys ->
  map ly_z (fronts m ns ys) = map ly_z ys.
Proof.
  intros m ns. induction ns as [|a ns IH]; intros [|b ys] H; cbn in *; try discriminate H; [reflexivity|].
  f_equal. apply IH. congruence.
Qed.

Lemma sum_set : forall ns k n, nth_error ns k = Some n -> list_sum (set_nth k (S n) ns) = S (list_sum ns).
Proof.
  assert (Hc : forall a l, list_sum (a :: l) = a + list_sum l) by reflexivity.
  induction ns as [|a ns IH]; intros [|k] n H; cbn [nth_error set_nth] in *; try discriminate H; rewrite !Hc.
  - injection H as ->. reflexivity.
  - rewrite (IH k n H). lia.
Qed.

Lemma visit_lines_pause : forall L (g : gcode) num idx pr ls n s,
  visit_lines (pause_at_layer L) g num idx pr n s ls = Ok (s, n + List.length ls).
Proof.
  intros L g num idx pr ls. induction ls as [|l ls IH]; intros n s; cbn [visit_lines List.length].
  - now rewrite Nat.add_0_r.
  - cbn [pause_at_layer v_line bind]. rewrite IH. do 2 f_equal. lia.
Qed.

Definition b2n (b : bool) : nat := if b then 1 else 0.

Lemma same_heights : forall (digits : nat) (g g' : gcode), g_zs g' = g_zs g -> heights digits g' = heights digits g.
Proof. intros digits g g' H. unfold heights. now rewrite H. Qed.

Lemma lines_eqb_nonempty : forall light (a b : list line), lines_eqb light a b = true -> b <> [] -> a <> [].
Proof. intros light [|x a] [|y b] H Hb; cbn in *; congruence. Qed.

Section PauseLoop.
Variables (digits : nat) (L : list BinNums.Z) (g : gcode).
Hypothesis Hpaged : paged g.
Notation ys := (g_layers g).
Notation wants := (wants_pause digits L g).

Record mid (i : nat) (ns : list nat) (gi : gcode) : Prop := Mid {
  mid_ix : indexed gi;
  mid_len : List.length ns = List.length ys;
  mid_layers : g_layers gi = fronts pline ns ys;
  mid_zero : forall j, i <= j -> j < List.length ys -> nth_error ns j = Some 0;
  mid_rest : same_rest g gi }.

Lemma set_rest : forall ls ys' li ki (gi : gcode), map ly_z ys' = map ly_z ys ->
  same_rest g gi -> same_rest g (set_lines_layers ls ys' li ki gi).
Proof.
  intros ls ys' li ki gi Hz (R1 & R). split; [cbn; exact Hz|].
  unfold set_lines_layers. cbn. exact R.
Qed.

Lemma pause_step : forall i ns gi y n, mid i ns gi -> nth_error ys i = Some y ->
  exists ns' gi', mid (S i) ns' gi' /\ list_sum ns' = list_sum ns + b2n (wants y) /\
    (distinguishable digits L g -> (forall j yj, j < i -> nth_error ys j = Some yj -> nth_error ns j = Some (b2n (wants yj))) ->
      forall j yj, j < S i -> nth_error ys j = Some yj -> nth_error ns' j = Some (b2n (wants yj))) /\
    forall k, visit_layers (pause_at_layer L) digits (py_sorted (heights digits g)) i (S k) n tt gi =
      visit_layers (pause_at_layer L) digits (py_sorted (heights digits g)) (S i) k
        (n + List.length (ly_lines y)) tt gi'.
Proof.
  intros i ns gi y n M Hy.
  assert (Hi : i < List.length ys) by (apply nth_error_Some; congruence).
  assert (Hyi : nth_error (g_layers gi) i = Some y).
  { rewrite (mid_layers _ _ _ M). rewrite (fronts_nth _ _ _ _ 0 y); [now rewrite fronted_0| |exact Hy].
    apply (mid_zero _ _ _ M); lia. }
  destruct (mid_rest _ _ _ M) as (R1 & R2 & R3 & _).
  assert (Hnum : layer_numbering digits (py_sorted (heights digits g)) i y =
                 (shown_number digits g i y, printed digits g y)) by apply layer_numbering_ok.
  assert (Hw : (printed digits g y && existsb (Z.eqb (Z.of_nat (shown_number digits g i y))) L) = wants y).
  { unfold wants_pause, shown_number. destruct (printed digits g y); reflexivity. }
  destruct (wants y) eqn:Ew.
  - (* a pause goes to the first equal layer *)
    destruct (place_spec gi i) as (P1 & P2 & P3). set (p := place gi i) in *.
    assert (Hp : p < List.length ys) by lia.
    destruct (nth_error ys p) as [yp|] eqn:Hyp; [|apply nth_error_None in Hyp; lia].
    destruct (nth_error ns p) as [np|] eqn:Hnp; [|apply nth_error_None in Hnp; rewrite (mid_len _ _ _ M) in Hnp; lia].
    assert (Hgp : nth_error (g_layers gi) p = Some (fronted pline np yp))
      by (rewrite (mid_layers _ _ _ M); apply fronts_nth; assumption).
    assert (Hne : ly_lines y <> []).
    { intros Hn. pose proof (Hpaged i y Hy Hn) as Hz. unfold wants_pause, printed in Ew. rewrite Hz in Ew.
      discriminate Ew. }
    assert (Hnep : ly_lines (fronted pline np yp) <> []).
    { destruct P2 as [P2|P2].
      - rewrite P2 in Hgp. congruence.
      - unfold same_lines in P2. rewrite Hgp, Hyi in P2. eapply lines_eqb_nonempty; eassumption. }
    destruct (prepend_indexed ["M226"%string] p gi _ (mid_ix _ _ _ M) Hgp Hnep) as (g1 & E1 & E2 & E3 & (l0 & li & ki & E4)).
    change (program_text ["M226"%string]) with ["M226"%string] in *. cbn [map app] in E2.
    unfold with_layer in E2. rewrite (mid_layers _ _ _ M) in E2.
    rewrite (fronts_set _ _ _ _ _ _ Hnp Hyp) in E2.
    exists (set_nth p (S np) ns), g1. split; [|split; [|split]].
    + constructor.
      * exact E3.
      * rewrite set_nth_length. apply (mid_len _ _ _ M).
      * exact E2.
      * intros j Hj1 Hj2. rewrite nth_error_set_nth_neq by lia. apply (mid_zero _ _ _ M); lia.
      * rewrite E4. apply set_rest; [|apply (mid_rest _ _ _ M)].
        rewrite E2. apply fronts_z. rewrite set_nth_length. apply (mid_len _ _ _ M).
    + rewrite (sum_set _ _ _ Hnp). cbn. lia.
    + intros HD Hprev j yj Hj Hyj.
      assert (Hpi : p = i).
      { destruct P2 as [P2|P2]; [exact P2|]. destruct (Nat.eq_dec p i) as [Hpi|Hpi]; [exact Hpi|]. exfalso.
        assert (Hlt : p < i) by lia.
        pose proof (HD p i yp y pline Hlt Hyp Hy Ew (inserted_line_plain _)) as HD1.
        rewrite (Hprev p yp Hlt Hyp) in Hnp. injection Hnp as <-.
        unfold same_lines in P2. rewrite Hgp, Hyi, R2 in P2.
        unfold fronted in P2. cbn [ly_lines] in P2.
        destruct (wants yp); cbn [b2n repeat app] in P2; congruence. }
      rewrite Hpi in *. destruct (Nat.eq_dec j i) as [->|Hji].
      * rewrite (nth_error_set_nth_eq _ _ _ _ _ Hnp). rewrite Hy in Hyj. injection Hyj as <-. rewrite Ew.
        rewrite (mid_zero _ _ _ M) in Hnp by lia. injection Hnp as <-. reflexivity.
      * rewrite nth_error_set_nth_neq by exact Hji. apply Hprev; [lia|exact Hyj].
    + intros k. cbn [visit_layers]. rewrite Hyi, (layer_index_place gi i y Hyi), Hnum.
      cbn [pause_at_layer v_will v_did bind]. rewrite Hyi.
      fold (pause_at_layer (A:=A) L). rewrite visit_lines_pause. cbn [bind in_printed in_number in_index].
      rewrite Hw. fold p. change pause_command with "M226"%string. rewrite E1. cbn [bind]. reflexivity.
  - exists ns, gi. split; [|split; [|split]].
    + destruct M as [M1 M2 M3 M4 M5]. constructor; try assumption. intros j Hj1 Hj2. apply M4; lia.
    + cbn. lia.
    + intros HD Hprev j yj Hj Hyj. destruct (Nat.eq_dec j i) as [->|Hji].
      * rewrite Hy in Hyj. injection Hyj as <-. rewrite Ew. apply (mid_zero _ _ _ M); lia.
      * apply Hprev; [lia|exact Hyj].
    + intros k. cbn [visit_layers]. rewrite Hyi, (layer_index_place gi i y Hyi), Hnum.
      cbn [pause_at_layer v_will v_did bind]. rewrite Hyi.
      fold (pause_at_layer (A:=A) L). rewrite visit_lines_pause. cbn [bind in_printed in_number in_index].
      rewrite Hw. cbn [bind]. reflexivity.
Qed.

Lemma pause_loop : forall k i ns gi n, i + k = List.length ys -> mid i ns gi ->
  exists ns' g', mid (List.length ys) ns' g' /\
    list_sum ns' = list_sum ns + List.length (filter wants (skipn i ys)) /\
    (distinguishable digits L g -> (forall j yj, j < i -> nth_error ys j = Some yj -> nth_error ns j = Some (b2n (wants yj))) ->
      forall j yj, nth_error ys j = Some yj -> nth_error ns' j = Some (b2n (wants yj))) /\
    visit_layers (pause_at_layer L) digits (py_sorted (heights digits g)) i k n tt gi = Ok (tt, g').
Proof.
  induction k as [|k IH]; intros i ns gi n Hi M.
  - exists ns, gi. split; [|split; [|split]].
    + replace (List.length ys) with i by lia. exact M.
    + rewrite skipn_all2 by lia. cbn. lia.
    + intros _ Hprev j yj Hyj. apply Hprev; [|exact Hyj].
      assert (j < List.length ys) by (apply nth_error_Some; congruence). lia.
    + reflexivity.
  - destruct (nth_error ys i) as [y|] eqn:Hy; [|apply nth_error_None in Hy; lia].
    destruct (pause_step i ns gi y n M Hy) as (ns1 & g1 & M1 & S1 & D1 & V1).
    destruct (IH (S i) ns1 g1 (n + List.length (ly_lines y)) ltac:(lia) M1) as (ns2 & g2 & M2 & S2 & D2 & V2).
    exists ns2, g2. split; [exact M2|]. split; [|split].
    + rewrite S2, S1. rewrite (skipn_nth _ ys i), Hy. cbn [filter]. destruct (wants y); cbn; lia.
    + intros HD Hprev. apply (D2 HD). apply (D1 HD Hprev).
    + rewrite V1. exact V2.
Qed.
End PauseLoop.

Lemma fronts_repeat0 : forall m (ys : list layer), fronts m (repeat 0 (List.length ys)) ys = ys.
Proof.
  intros m ys. induction ys as [|y ys IH]; cbn; [reflexivity|]. unfold fronts in IH. rewrite IH, fronted_0. reflexivity.
Qed.

Lemma sum_repeat0 : forall n, list_sum (repeat 0 n) = 0.
Proof. induction n as [|n IH]; cbn; [reflexivity|exact IH]. Qed.

Lemma mid_start : forall g : gcode, indexed g -> mid g 0 (repeat 0 (List.length (g_layers g))) g.
Proof.
  intros g H. constructor.
  - exact H.
  - apply repeat_length.
  - symmetry. apply fronts_repeat0.
  - intros j _ Hj. apply nth_error_repeat, Hj.
  - repeat split.
Qed.

Lemma pause_accept : forall (digits : nat) L (g : gcode), prepared g -> heights_known g ->
  exists g' ns, accept (pause_at_layer L) digits (py_sorted (heights digits g)) tt g = Ok (tt, g') /\
    List.length ns = List.length (g_layers g) /\
    g_layers g' = fronts pline ns (g_layers g) /\
    list_sum ns = List.length (filter (wants_pause digits L g) (g_layers g)) /\
    same_rest g g' /\
    (distinguishable digits L g ->
       g_layers g' = map (fun y => fronted pline (if wants_pause digits L g y then 1 else 0) y) (g_layers g)).
Proof.
  intros digits L g HP HK. destruct (prepared_ok g HP) as [HI Hpg].
  destruct (pause_loop digits L g Hpg (List.length (g_layers g)) 0 _ g 0 eq_refl (mid_start g HI))
    as (ns & g' & M & S & D & V).
  exists g', ns. split; [exact V|]. split; [apply (mid_len _ _ _ _ M)|]. split; [apply (mid_layers _ _ _ _ M)|].
  split; [rewrite S, sum_repeat0; reflexivity|]. split; [apply (mid_rest _ _ _ _ M)|].
  intros HD. rewrite (mid_layers _ _ _ _ M).
  assert (HN : forall j yj, nth_error (g_layers g) j = Some yj -> nth_error ns j = Some (b2n (wants_pause digits L g yj))).
  { apply (D HD). intros j yj Hj. lia. }
  assert (Hlen := mid_len _ _ _ _ M). clear - HN Hlen.
  generalize (wants_pause digits L g) HN Hlen. generalize (g_layers g) as ys, ns. clear.
  induction ys as [|y ys IH]; intros [|n ns] w HN Hlen; cbn in *; try discriminate Hlen; [reflexivity|].
  f_equal.
  - pose proof (HN 0 y eq_refl) as H. cbn in H. injection H as ->. reflexivity.
  - apply IH; [|congruence]. intros j yj Hj. exact (HN (S j) yj Hj).
Qed.

Lemma pause_general : forall (digits : nat) L (g : gcode), prepared g -> heights_known g ->
  exists g' m ns, pause digits L g = Ok g' /\ plain_command "M226" m /\
    List.length ns = List.length (g_layers g) /\ g_layers g' = fronts m ns (g_layers g) /\
    list_sum ns = List.length (filter (wants_pause digits L g) (g_layers g)) /\ same_rest g g'.
Proof.
  intros digits L g HP HK. destruct (pause_accept digits L g HP HK) as (g' & ns & H1 & H2 & H3 & H4 & H5 & _).
  exists g', pline, ns. split; [|split; [apply inserted_line_plain|auto]].
  unfold pause, iterate. rewrite (iterator_zs_ok _ _ HK). cbn [bind]. rewrite H1. reflexivity.
Qed.

Lemma pause_exact : forall (digits : nat) L (g : gcode), prepared g -> heights_known g ->
  distinguishable digits L g ->
  exists g' m, pause digits L g = Ok g' /\ plain_command "M226" m /\
    g_layers g' = map (fun y => fronted m (if wants_pause digits L g y then 1 else 0) y) (g_layers g) /\
    same_rest g g'.
Proof.
  intros digits L g HP HK HD. destruct (pause_accept digits L g HP HK) as (g' & ns & H1 & H2 & H3 & H4 & H5 & H6).
  exists g', pline. split; [|split; [apply inserted_line_plain|auto]].
  unfold pause, iterate. rewrite (iterator_zs_ok _ _ HK). cbn [bind]. rewrite H1. reflexivity.
Qed.

Lemma pause_unknown : forall (digits : nat) L (g : gcode), In None (g_zs g) -> pause digits L g = Err TypeError.
Proof. intros digits L g H. unfold pause, iterate. now rewrite iterator_zs_err. Qed.

Lemma fronts_text : forall m ns (ys : list layer), List.length ns = List.length ys ->
  List.length (List.concat (map ly_lines (fronts m ns ys))) = List.length (List.concat (map ly_lines ys)) + list_sum ns.
Proof.
  assert (Hc : forall a l, list_sum (a :: l) = a + list_sum l) by reflexivity.
  intros m ns. induction ns as [|n ns IH]; intros [|y ys] H; try discriminate H; [reflexivity|].
  rewrite Hc. injection H as H. specialize (IH ys H). unfold fronts in *.
  cbn [combine map List.concat fst snd fronted ly_lines]. rewrite !app_length, repeat_length, IH. lia.
Qed.

(** *** gcode_mod *)

Lemma mod_known : forall o data (g : gcode), load_gen false home0 data = Ok g -> heights_known g ->
  exists out, gcode_mod (A:=A) o data = Ok out.
Proof.
  intros o data g H HK. unfold gcode_mod. rewrite H. cbn [bind].
  assert (H1 : exists g1, (if is_some (o_x o) || is_some (o_y o) then translate (o_x o) (o_y o) g else Ok g) = Ok g1 /\
                prepared g1 /\ g_zs g1 = g_zs g).
  { destruct (_ || _).
    - destruct (translate_total (o_x o) (o_y o) g) as (g1 & E). exists g1. split; [exact E|].
      split; [eapply pr_translate, E; eapply pr_load, H|].
      destruct (translate_lines _ _ _ _ E) as (_ & _ & _ & F). apply F.
    - exists g. split; [reflexivity|]. split; [eapply pr_load, H|reflexivity]. }
  destruct H1 as (g1 & -> & P1 & Z1). cbn [bind].
  assert (H2 : exists g2, (if o_e o then to_relative_extrusion g1 else Ok g1) = Ok g2 /\
                prepared g2 /\ g_zs g2 = g_zs g).
  { destruct (o_e o).
    - destruct (relative_total g1) as (g2 & E). exists g2. split; [exact E|].
      split; [eapply pr_relative, E; exact P1|].
      destruct (relative_converted _ _ E) as (_ & _ & _ & F). rewrite <- Z1. apply F.
    - exists g1. split; [reflexivity|]. split; [exact P1|exact Z1]. }
  destruct H2 as (g2 & -> & P2 & Z2). cbn [bind].
  assert (HK2 : heights_known g2) by (unfold heights_known; rewrite Z2; exact HK).
  rewrite (iterator_zs_ok 2 g2 HK2). cbn [bind]. destruct (o_p o) as [p|]; [|eexists; reflexivity].
  destruct (pause_accept 2 [p] g2 P2 HK2) as (g3 & ns & -> & _). cbn [bind]. eexists. reflexivity.
Qed.

Lemma mod_unknown : forall o data (g : gcode), load_gen false home0 data = Ok g -> In None (g_zs g) ->
  gcode_mod (A:=A) o data = Err TypeError.
Proof.
  intros o data g H HN. unfold gcode_mod. rewrite H. cbn [bind].
  assert (H1 : exists g1, (if is_some (o_x o) || is_some (o_y o) then translate (o_x o) (o_y o) g else Ok g) = Ok g1 /\
                g_zs g1 = g_zs g).
  { destruct (_ || _); [|exists g; split; reflexivity].
    destruct (translate_total (o_x o) (o_y o) g) as (g1 & E). exists g1. split; [exact E|].
    destruct (translate_lines _ _ _ _ E) as (_ & _ & _ & F). apply F. }
  destruct H1 as (g1 & -> & Z1). cbn [bind].
  assert (H2 : exists g2, (if o_e o then to_relative_extrusion g1 else Ok g1) = Ok g2 /\ g_zs g2 = g_zs g).
  { destruct (o_e o); [|exists g1; split; [reflexivity|exact Z1]].
    destruct (relative_total g1) as (g2 & E). exists g2. split; [exact E|].
    destruct (relative_converted _ _ E) as (_ & _ & _ & F). rewrite <- Z1. apply F. }
  destruct H2 as (g2 & -> & Z2). cbn [bind]. rewrite iterator_zs_err; [reflexivity|]. rewrite Z2. exact HN.
Qed.

Lemma in_none_dec : forall zs : list (option (num A)), In None zs \/ ~ In None zs.
Proof.
  induction zs as [|[z|] zs [IH|IH]]; cbn; auto; try (right; intros []; auto; fail);
    right; intros [H|H]; [discriminate H|]; auto.
Qed.

Lemma mod_identity : forall data out, gcode_mod (A:=A) (ModOptions None None false None) data = Ok out ->
  out = program_text data.
Proof.
  intros data out H. unfold gcode_mod in H.
  destruct (load_gen false home0 data) as [g|e] eqn:Hl; cbn [bind] in H; [|discriminate H].
  cbn [o_x o_y o_e o_p is_some orb] in H. cbn [bind] in H.
  destruct (iterator_zs 2 g); cbn [bind] in H; [|discriminate H]. injection H as <-.
  apply (load_write false home0 data g Hl).
Qed.
End PVisit.

(** ** Numbers of layers, in exact arithmetic *)

Section ExactVisit.
Context {A : arith}.
Variable E : exact A.
Notation val := (val E).
Local Open Scope R_scope.

Definition ascending (l : list (num A)) : Prop := StronglySorted (fun a b => val a <= val b) l.

Lemma insert_ascending : forall x l, ascending l -> ascending (insert_sorted x l).
Proof.
  intros x l H. induction H as [|y l H IH Hy]; cbn [insert_sorted].
  - constructor; [constructor|constructor].
  - destruct (n_ltb x y) eqn:Ex.
    + apply (val_ltb A E) in Ex. constructor; [constructor; assumption|].
      constructor; [lra|]. eapply Forall_impl; [|exact Hy]. intros a Ha. cbn beta in Ha |- *. lra.
    + assert (Hyx : val y <= val x).
      { destruct (Rle_or_lt (val y) (val x)) as [Hl|Hl]; [exact Hl|]. apply (val_ltb A E) in Hl. congruence. }
      constructor; [exact IH|]. apply Forall_forall. intros a Ha.
      apply (Permutation_in _ (Permutation_sym (insert_sorted_perm x l))) in Ha.
      destruct Ha as [<-|Ha]; [exact Hyx|]. rewrite Forall_forall in Hy. exact (Hy a Ha).
Qed.

Lemma sorted_ascending : forall l, ascending (py_sorted l).
Proof.
  intros l. unfold py_sorted.
  assert (H : forall l acc : list (num A), ascending acc -> ascending (fold_left (fun acc x => insert_sorted x acc) l acc)).
  { clear l. induction l as [|x l IH]; intros acc Ha; cbn; [exact Ha|]. apply IH, insert_ascending, Ha. }
  apply H. constructor.
Qed.

Lemma find_index_in : forall T (p : T -> bool) l n, find_index p l = Some n -> exists x, In x l /\ p x = true.
Proof.
  intros T p l n H.
  assert (Hb : existsb p l = true) by (rewrite existsb_find_index, H; reflexivity).
  apply existsb_exists in Hb. exact Hb.
Qed.

Lemma find_index_count : forall z l n, ascending l -> find_index (fun w => n_eqb w z) l = Some n ->
  List.length (filter (fun w => n_ltb w z) l) = n.
Proof.
  intros z l n H. revert n. induction H as [|x l H IH Hx]; intros n Hf; cbn [find_index] in Hf; [discriminate Hf|].
  rewrite Forall_forall in Hx. cbn [filter]. destruct (n_eqb x z) eqn:Ex.
  - injection Hf as <-. apply (val_eqb A E) in Ex.
    assert (Hn : forall w, In w (x :: l) -> n_ltb w z = false).
    { intros w Hw. destruct (n_ltb w z) eqn:Ew; [|reflexivity]. apply (val_ltb A E) in Ew.
      destruct Hw as [<-|Hw]; [lra|]. specialize (Hx w Hw). cbn beta in Hx. lra. }
    rewrite (Hn x (or_introl eq_refl)).
    assert (Hl : forall w, In w l -> n_ltb w z = false) by (intros w Hw; apply Hn; now right).
    clear - Hl. induction l as [|a l IH]; cbn; [reflexivity|]. rewrite (Hl a (or_introl eq_refl)).
    apply IH. intros w Hw. apply Hl. now right.
  - destruct (find_index _ l) as [k|] eqn:Ek; [|discriminate Hf]. injection Hf as <-.
    destruct (find_index_in _ _ _ _ Ek) as (w & Hw & Hwz). apply (val_eqb A E) in Hwz.
    specialize (Hx w Hw). cbn beta in Hx.
    assert (Hlt : n_ltb x z = true).
    { apply (val_ltb A E). destruct (Req_dec (val x) (val z)) as [Hq|Hq]; [|lra].
      apply (val_eqb A E) in Hq. congruence. }
    rewrite Hlt. cbn. f_equal. apply IH. reflexivity.
Qed.

Lemma filter_perm_length : forall T (p : T -> bool) a b, Permutation a b ->
  List.length (filter p a) = List.length (filter p b).
Proof.
  intros T p a b H. induction H as [|x a b H IH|x y a|a b c H1 IH1 H2 IH2]; cbn.
  - reflexivity.
  - destruct (p x); cbn; congruence.
  - destruct (p x), (p y); reflexivity.
  - congruence.
Qed.

Lemma rank_count : forall (digits : nat) (g : gcode A) y, printed digits g y = true ->
  rank digits g y = count_below digits g y.
Proof.
  intros digits g y H. unfold printed, rank, count_below in *. destruct (ly_z y) as [z|]; [|reflexivity].
  rewrite (existsb_perm _ _ _ _ (sorted_perm (heights digits g))), existsb_find_index in H.
  destruct (find_index _ _) as [n|] eqn:Ef; [|discriminate H].
  rewrite (filter_perm_length _ _ _ _ (sorted_perm (heights digits g))).
  symmetry. apply find_index_count; [apply sorted_ascending|exact Ef].
Qed.

(** same number, same height *)
Lemma rank_inj : forall (digits : nat) (g : gcode A) a b za zb,
  printed digits g a = true -> printed digits g b = true ->
  ly_z a = Some za -> ly_z b = Some zb -> rank digits g a = rank digits g b ->
  val (py_round digits za) = val (py_round digits zb).
Proof.
  intros digits g a b za zb Ha Hb Hza Hzb Hr. unfold printed, rank in *. rewrite Hza in *. rewrite Hzb in *.
  rewrite (existsb_perm _ _ _ _ (sorted_perm (heights digits g))), existsb_find_index in Ha.
  rewrite (existsb_perm _ _ _ _ (sorted_perm (heights digits g))), existsb_find_index in Hb.
  set (l := py_sorted (heights digits g)) in *. clearbody l.
  assert (HN : forall z n, find_index (fun w => n_eqb w z) l = Some n ->
    exists w, nth_error l n = Some w /\ val w = val z).
  { clear. intros z n. revert n. induction l as [|x l IH]; intros n H; cbn in H; [discriminate H|].
    destruct (n_eqb x z) eqn:Ex.
    - injection H as <-. exists x. split; [reflexivity|apply (val_eqb A E), Ex].
    - destruct (find_index _ l) as [k|]; [|discriminate H]. injection H as <-. exact (IH k eq_refl). }
  destruct (find_index _ l) as [n|] eqn:Ea; [|discriminate Ha].
  destruct (find_index (fun w => n_eqb w (py_round digits zb)) l) as [n'|] eqn:Eb; [|discriminate Hb].
  subst n'. destruct (HN _ _ Ea) as (w & H1 & H2). destruct (HN _ _ Eb) as (w' & H3 & H4). congruence.
Qed.

Lemma filter_at_most_one : forall T (p : T -> bool) l,
  (forall i j a b, nth_error l i = Some a -> nth_error l j = Some b -> p a = true -> p b = true -> i = j) ->
  (List.length (filter p l) <= 1)%nat.
Proof.
  intros T p l. induction l as [|x l IH]; intros H; cbn; [lia|].
  destruct (p x) eqn:Ex.
  - assert (Hn : filter p l = []).
    { destruct (filter p l) as [|y f] eqn:Ef; [reflexivity|exfalso].
      assert (Hy : In y (filter p l)) by (rewrite Ef; now left). apply filter_In in Hy as [Hy1 Hy2].
      apply In_nth_error in Hy1 as (j & Hj). specialize (H 0%nat (S j) x y eq_refl Hj Ex Hy2). discriminate H. }
    rewrite Hn. cbn. lia.
  - apply IH. intros i j a b Hi Hj Ha Hb. specialize (H (S i) (S j) a b Hi Hj Ha Hb). congruence.
Qed.

Lemma pause_once : forall (digits : nat) n (g : gcode A), prepared g -> heights_known g ->
  (forall i j a b za zb, i <> j -> nth_error (g_layers g) i = Some a -> nth_error (g_layers g) j = Some b ->
     ly_z a = Some za -> ly_z b = Some zb -> val (py_round digits za) <> val (py_round digits zb)) ->
  exists g', pause digits [n] g = Ok g' /\ (List.length (write g') <= S (List.length (write g)))%nat.
Proof.
  intros digits n g HP HK HD. destruct (pause_general digits [n] g HP HK) as (g' & m & ns & H1 & _ & H3 & H4 & H5 & _).
  exists g'. split; [exact H1|]. unfold write. rewrite !map_length, H4, fronts_text by exact H3. rewrite H5.
  assert (Hle : (List.length (filter (wants_pause digits [n] g) (g_layers g)) <= 1)%nat); [|lia].
  apply filter_at_most_one. intros i j a b Hi Hj Ha Hb. destruct (Nat.eq_dec i j) as [Hij|Hij]; [exact Hij|exfalso].
  unfold wants_pause in Ha, Hb. apply andb_prop in Ha as [Ha1 Ha2], Hb as [Hb1 Hb2].
  cbn in Ha2, Hb2. rewrite orb_false_r in Ha2, Hb2. apply Z.eqb_eq in Ha2, Hb2.
  destruct (ly_z a) as [za|] eqn:Hza; [|unfold printed in Ha1; rewrite Hza in Ha1; discriminate Ha1].
  destruct (ly_z b) as [zb|] eqn:Hzb; [|unfold printed in Hb1; rewrite Hzb in Hb1; discriminate Hb1].
  apply (HD i j a b za zb Hij Hi Hj Hza Hzb). apply (rank_inj digits g a b); try assumption.
  apply Nat2Z.inj. congruence.
Qed.
End ExactVisit.

(** ** What pausing and gcode_mod mean for the machine *)

Section Meaning.
Context {A : arith}.

Lemma run_app : forall a b k, run (a ++ b) k = run b (run a k).
Proof. intros a b k. unfold run. apply fold_left_app. Qed.

Lemma run_pauses : forall n k, run (repeat "M226"%string n) k = k.
Proof.
  induction n as [|n IH]; intros k; [reflexivity|].
  change (repeat "M226"%string (S n)) with ("M226"%string :: repeat "M226"%string n).
  change (run ("M226"%string :: repeat "M226"%string n) k) with (run (repeat "M226"%string n) (exec_line "M226" k)).
  rewrite IH. reflexivity.
Qed.

Lemma map_repeat : forall S T (f : S -> T) x n, map f (repeat x n) = repeat (f x) n.
Proof. intros S T f x n. induction n as [|n IH]; cbn; [reflexivity|now rewrite IH]. Qed.

Lemma run_fronts : forall (m : line A) ns ys k, raw m = "M226"%string -> List.length ns = List.length ys ->
  run (map raw (List.concat (map ly_lines (fronts m ns ys)))) k = run (map raw (List.concat (map ly_lines ys))) k.
Proof.
  intros m ns ys k Hm. revert ys k.
  induction ns as [|n ns IH]; intros [|y ys] k H; try discriminate H; [reflexivity|].
  injection H as H. unfold fronts in *. cbn [combine map List.concat fst snd fronted ly_lines].
  rewrite !map_app, !run_app, map_repeat, Hm, run_pauses. apply (IH ys _ H).
Qed.

Lemma pause_harmless : forall (digits : nat) L (g g' : gcode A), prepared g -> pause digits L g = Ok g' ->
  forall k, run (write g') k = run (write g) k.
Proof.
  intros digits L g g' HP H k. destruct (in_none_dec (g_zs g)) as [HN|HN].
  - rewrite (pause_unknown digits L g HN) in H. discriminate H.
  - destruct (pause_general digits L g HP HN) as (g1 & m & ns & H1 & (Hm & _) & H3 & H4 & _).
    rewrite H1 in H. injection H as <-. unfold write. rewrite H4. apply run_fronts; assumption.
Qed.

Lemma mod_stages : forall (o : mod_options (A:=A)) data out,
  gcode_mod o data = Ok out <->
  exists g0 g1 g2 g3, load_gen false home0 data = Ok g0 /\
    (if is_some (o_x o) || is_some (o_y o) then translate (o_x o) (o_y o) g0 = Ok g1 else g1 = g0) /\
    (if o_e o then to_relative_extrusion g1 = Ok g2 else g2 = g1) /\
    heights_known g0 /\
    match o_p o with Some p => pause 2 [p] g2 = Ok g3 | None => g3 = g2 end /\
    out = write g3.
Proof.
  intros o data out. unfold gcode_mod.
  destruct (load_gen false home0 data) as [g0|e] eqn:H0; cbn [bind].
  2:{ split; [discriminate|]. intros (g0 & g1 & g2 & g3 & H & _). discriminate H. }
  assert (H1 : exists g1, (if is_some (o_x o) || is_some (o_y o) then translate (o_x o) (o_y o) g0 else Ok g0) = Ok g1 /\
                g_zs g1 = g_zs g0 /\
                forall g, (if is_some (o_x o) || is_some (o_y o) then translate (o_x o) (o_y o) g0 = Ok g else g = g0) <-> g = g1).
  { destruct (_ || _).
    - destruct (translate_total (o_x o) (o_y o) g0) as (g1 & E1). exists g1. split; [exact E1|].
      split; [destruct (translate_lines _ _ _ _ E1) as (_ & _ & _ & F); apply F|].
      intros g. rewrite E1. split; [intros H; injection H; congruence|congruence].
    - exists g0. split; [reflexivity|]. split; [reflexivity|]. intros g. split; auto. }
  destruct H1 as (g1 & -> & Z1 & U1). cbn [bind].
  assert (H2 : exists g2, (if o_e o then to_relative_extrusion g1 else Ok g1) = Ok g2 /\
                g_zs g2 = g_zs g0 /\
                forall g, (if o_e o then to_relative_extrusion g1 = Ok g else g = g1) <-> g = g2).
  { destruct (o_e o).
    - destruct (relative_total g1) as (g2 & E1). exists g2. split; [exact E1|].
      split; [destruct (relative_converted _ _ E1) as (_ & _ & _ & F); rewrite <- Z1; apply F|].
      intros g. rewrite E1. split; [intros H; injection H; congruence|congruence].
    - exists g1. split; [reflexivity|]. split; [exact Z1|]. intros g. split; auto. }
  destruct H2 as (g2 & -> & Z2 & U2). cbn [bind].
  destruct (in_none_dec (g_zs g0)) as [HN|HN].
  - rewrite iterator_zs_err by (rewrite Z2; exact HN). cbn [bind]. split; [discriminate|].
    intros (g0' & g1' & g2' & g3 & Ha & _ & _ & Hk & _). injection Ha as <-. contradiction.
  - assert (HK2 : heights_known g2) by (unfold heights_known; rewrite Z2; exact HN).
    rewrite (iterator_zs_ok 2 g2 HK2). cbn [bind].
    assert (HP : forall p, pause 2 [p] g2 =
       do '(_, g') <- accept (pause_at_layer [p]) 2 (py_sorted (heights 2 g2)) tt g2; Ok g').
    { intros p. unfold pause, iterate. rewrite (iterator_zs_ok 2 g2 HK2). reflexivity. }
    split.
    + intros H. exists g0, g1, g2.
      destruct (match o_p o with Some p => _ | None => _ end) as [g3|e] eqn:E3; cbn [bind] in H; [|discriminate H].
      exists g3. injection H as <-. split; [reflexivity|]. split; [apply U1; reflexivity|].
      split; [apply U2; reflexivity|]. split; [exact HN|]. split; [|reflexivity].
      destruct (o_p o) as [p|]; [|congruence]. rewrite HP. exact E3.
    + intros (g0' & g1' & g2' & g3 & Ha & H1 & H2 & _ & H3 & ->). injection Ha as <-.
      apply U1 in H1. subst g1'. apply U2 in H2. subst g2'.
      destruct (o_p o) as [p|]; [|subst g3; reflexivity]. rewrite HP in H3. rewrite H3. reflexivity.
Qed.
End Meaning.

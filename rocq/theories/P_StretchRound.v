(** * P_StretchRound: walking round a loop *)
From Coq Require Import List Ascii String ZArith NArith Bool Lia Reals Lra.
From Verif Require Import PyBase Arith ArithR Gcoder Filters SpecText SpecLoad SpecMachine SpecMeasure SpecFilter
  Stretch SpecStretch SpecBend P_Load P_Text P_Wf P_Machine P_Measure P_Format P_Filter P_FilterMotion P_Stretch P_StretchRead P_StretchGeo
  P_StretchIter P_StretchLoop P_StretchProps P_StretchBend.
Import ListNotations.
Local Open Scope list_scope.

Section Iter.
Context {A : arith}.
Implicit Types l : line A.

(** ** What an iterator returns until it stops *)

Fixpoint gives (fuel : nat) (d : dialect) (dir : direction) (ls : list (line A)) (it : iter) (out : list (line A)) : Prop :=
  match out with
  | [] => forall nx, get_next fuel d dir ls it = Ok nx -> exists pr, nx = Stop pr
  | l :: t => forall nx, get_next fuel d dir ls it = Ok nx -> exists it1, nx = Next l it1 /\ gives fuel d dir ls it1 t
  end.

Lemma gives_yields : forall fuel d dir (ls : list (line A)) out it, gives fuel d dir ls it out -> yields fuel d dir ls it out.
Proof.
  intros fuel d dir ls. induction out as [|l t IH]; intros it H; cbn [yields]; [exact I|].
  intros nx Hn. destruct (H nx Hn) as (it1 & -> & Ht). exists it1. split; [reflexivity|]. apply IH. exact Ht.
Qed.

Lemma gives_via : forall fuel d dir (ls : list (line A)) it it' out,
  (forall nx, get_next fuel d dir ls it = Ok nx -> get_next fuel d dir ls it' = Ok nx) ->
  gives fuel d dir ls it' out -> gives fuel d dir ls it out.
Proof. intros fuel d dir ls it it' [|l t] H Hg; intros nx Hn; apply (Hg nx (H nx Hn)). Qed.

Lemma scan_more : forall n m d dir (ls : list (line A)) first i nx, scan n d dir ls first i = Ok nx -> n <= m ->
  scan m d dir ls first i = Ok nx.
Proof.
  induction n as [|n IH]; intros m d dir ls first i nx H Hm; [discriminate H|]. destruct m as [|m]; [lia|].
  cbn [scan] in *. destruct (line_at ls i) as [l|]; [|exact H]. destruct (is_first first i); [exact H|].
  destruct (has off_marker l && stops_on_off d).
  - destruct (reset_index d dir ls i); [|exact H]. apply IH; [exact H|lia].
  - destruct (is_linear l && has_xy l); [exact H|]. apply IH; [exact H|lia].
Qed.

Definition first_at (first : option BinNums.Z) (i : BinNums.Z) : option BinNums.Z :=
  Some (match first with None => i | Some f => f end).

(** what the iterator does with the line number [k] *)
Lemma scan_line : forall fuel d dir (ls : list (line A)) first k l nx, nth_error ls k = Some l ->
  has off_marker l && stops_on_off d = false -> scan fuel d dir ls first (Z.of_nat k) = Ok nx ->
  if is_first first (Z.of_nat k) then nx = Stop []
  else if xy_move l then nx = Next l (Iter (first_at first (Z.of_nat k)) (Z.of_nat k + increment dir))
  else scan fuel d dir ls (first_at first (Z.of_nat k)) (Z.of_nat k + increment dir) = Ok nx.
Proof.
  intros [|n] d dir ls first k l nx Hl Ho H; cbn [scan] in H; [discriminate H|].
  rewrite line_at_nat, Hl in H. destruct (is_first first (Z.of_nat k)); [congruence|].
  rewrite Ho in H. rewrite xy_line in H. destruct (xy_move l).
  - destruct first; unfold first_at; congruence.
  - apply scan_more with (m := S n) in H; [|lia]. destruct first; exact H.
Qed.

(** ** A ring of lines, forwards *)

Definition moves (ls : list (line A)) : list (line A) := filter xy_move ls.

Lemma moves_app : forall a b, moves (a ++ b) = moves a ++ moves b.
Proof. intros a b. apply filter_app. Qed.

Section Forward.
Variables (fuel : nat) (d : dialect) (ls : list (line A)) (s lo n : nat) (P : nat -> line A).
Let pos (k : nat) : BinNums.Z := Z.of_nat (s + k).
Let next first k := get_next fuel d Forward ls (Iter first (pos k)).
Hypothesis H1 : forall first k nx, lo <= k <= n -> next first k = Ok nx ->
  if is_first first (pos k) then nx = Stop []
  else if xy_move (P k) then nx = Next (P k) (Iter (first_at first (pos k)) (pos (S k)))
  else next (first_at first (pos k)) (S k) = Ok nx.
Hypothesis H2 : forall f nx, lo <= f <= n -> next (Some (pos f)) (S n) = Ok nx -> next (Some (pos f)) lo = Ok nx.

Lemma is_first_pos : forall f k, is_first (Some (pos f)) (pos k) = Nat.eqb f k.
Proof.
  intros f k. unfold pos. cbn [is_first]. destruct (Nat.eqb_spec f k) as [->|H]; [apply Z.eqb_refl|].
  apply Z.eqb_neq. lia.
Qed.

(** one line *)
Lemma pass : forall first k out, lo <= k <= n -> is_first first (pos k) = false ->
  gives fuel d Forward ls (Iter (first_at first (pos k)) (pos (S k))) out ->
  gives fuel d Forward ls (Iter first (pos k)) (moves [P k] ++ out).
Proof.
  intros first k out Hk Hf Hg. unfold moves. cbn [filter]. destruct (xy_move (P k)) eqn:Ex; cbn [app].
  - cbn [gives]. intros nx Hn. apply (H1 first k nx Hk) in Hn. rewrite Hf, Ex in Hn. subst nx. eexists. split; [reflexivity|exact Hg].
  - apply gives_via with (it' := Iter (first_at first (pos k)) (pos (S k))); [|exact Hg].
    intros nx Hn. apply (H1 first k nx Hk) in Hn. rewrite Hf, Ex in Hn. exact Hn.
Qed.

Lemma lap_two : forall m f k, f - k = m -> lo <= k -> k <= f <= S n ->
  (f = S n -> forall nx, next (Some (pos f)) f = Ok nx -> nx = Stop []) ->
  gives fuel d Forward ls (Iter (Some (pos f)) (pos k)) (moves (map P (seq k m))).
Proof.
  induction m as [|m IH]; intros f k Hm Hk Hf Hs.
  - cbn [seq map moves filter gives]. intros nx Hn. assert (k = f) by lia. subst k. destruct (Nat.eq_dec f (S n)) as [E|E].
    + exists []. apply (Hs E nx Hn).
    + apply H1 in Hn; [|lia]. rewrite is_first_pos, Nat.eqb_refl in Hn. eauto.
  - cbn [seq map]. change (P k :: map P (seq (S k) m)) with ([P k] ++ map P (seq (S k) m)). rewrite moves_app.
    apply pass; [lia| |].
    + rewrite is_first_pos. apply Nat.eqb_neq. lia.
    + apply IH; [lia|lia|lia|exact Hs].
Qed.

Lemma lap_one : forall m f k, S n - k = m -> lo <= f < k -> k <= S n ->
  gives fuel d Forward ls (Iter (Some (pos f)) (pos k)) (moves (map P (seq k m ++ seq lo (f - lo)))).
Proof.
  induction m as [|m IH]; intros f k Hm Hf Hk.
  - cbn [seq app]. assert (k = S n) by lia. subst k.
    apply gives_via with (it' := Iter (Some (pos f)) (pos lo)); [intros nx; apply H2; lia|].
    apply lap_two; lia.
  - cbn [seq app map]. match goal with |- context [P k :: ?t] => change (P k :: t) with ([P k] ++ t) end. rewrite moves_app.
    apply pass; [lia| |].
    + rewrite is_first_pos. apply Nat.eqb_neq. lia.
    + apply IH; lia.
Qed.

Lemma forward_round : forall k, lo <= k <= n ->
  gives fuel d Forward ls (Iter None (pos k)) (moves (map P (seq k (S n - k) ++ seq lo (k - lo)))).
Proof.
  intros k Hk. replace (S n - k) with (S (n - k)) by lia. cbn [seq app map].
  match goal with |- context [P k :: ?t] => change (P k :: t) with ([P k] ++ t) end. rewrite moves_app.
  apply pass; [lia|reflexivity|]. unfold first_at. apply lap_one; lia.
Qed.
End Forward.

(** ** Backwards *)

Section Backward.
Variables (fuel : nat) (d : dialect) (ls : list (line A)) (s hi : nat) (P : nat -> line A).
Let pos (k : nat) : BinNums.Z := Z.of_nat (s + k).
Let next first i := get_next fuel d Backward ls (Iter first i).
(** the ring is 0..hi *)
Let handles (first : option BinNums.Z) (k : nat) nx : Prop :=
  if is_first first (pos k) then nx = Stop []
  else if xy_move (P k) then nx = Next (P k) (Iter (first_at first (pos k)) (pos k - 1))
  else next (first_at first (pos k)) (pos k - 1)%Z = Ok nx.
Hypothesis H1 : forall first k nx, k < hi -> next first (pos k) = Ok nx -> handles first k nx.
Hypothesis H2 : forall first nx, next first (Z.of_nat s - 1)%Z = Ok nx -> handles first hi nx.

Lemma is_first_pos' : forall f k, is_first (Some (pos f)) (pos k) = Nat.eqb f k.
Proof.
  intros f k. unfold pos. cbn [is_first]. destruct (Nat.eqb_spec f k) as [->|H]; [apply Z.eqb_refl|].
  apply Z.eqb_neq. lia.
Qed.

Lemma pass_back : forall first k i out, (forall nx, next first i = Ok nx -> handles first k nx) ->
  is_first first (pos k) = false ->
  gives fuel d Backward ls (Iter (first_at first (pos k)) (pos k - 1)) out ->
  gives fuel d Backward ls (Iter first i) (moves [P k] ++ out).
Proof.
  intros first k i out Hk Hf Hg. unfold moves. cbn [filter]. unfold handles in Hk. rewrite Hf in Hk.
  destruct (xy_move (P k)) eqn:Ex; cbn [app].
  - cbn [gives]. intros nx Hn. apply Hk in Hn. subst nx. eexists. split; [reflexivity|exact Hg].
  - apply gives_via with (it' := Iter (first_at first (pos k)) (pos k - 1)); [exact Hk|exact Hg].
Qed.

(** second lap: at [k-1], above [f] *)
Lemma down_two : forall m f k, k - S f = m -> S f <= k <= hi ->
  gives fuel d Backward ls (Iter (Some (pos f)) (pos k - 1)) (moves (map P (rev (seq (S f) m)))).
Proof.
  induction m as [|m IH]; intros f k Hm Hk.
  - cbn [seq rev map moves filter gives]. intros nx Hn. assert (k = S f) by lia. subst k.
    replace (pos (S f) - 1)%Z with (pos f) in Hn by (unfold pos; lia). apply H1 in Hn; [|lia]. unfold handles in Hn.
    rewrite is_first_pos', Nat.eqb_refl in Hn. eauto.
  - rewrite seq_S, rev_app_distr. cbn [rev app map]. replace (S f + m) with (k - 1) by lia.
    match goal with |- context [P (k - 1) :: ?t] => change (P (k - 1) :: t) with ([P (k - 1)] ++ t) end. rewrite moves_app.
    replace (pos k - 1)%Z with (pos (k - 1)) by (unfold pos; lia).
    apply pass_back; [intros nx; apply H1; lia| |].
    + rewrite is_first_pos'. apply Nat.eqb_neq. lia.
    + apply IH; lia.
Qed.

(** first lap: at [k-1], below [f] *)
Lemma down_one : forall k f, k <= f <= hi ->
  gives fuel d Backward ls (Iter (Some (pos f)) (pos k - 1)) (moves (map P (rev (seq 0 k) ++ rev (seq (S f) (hi - f))))).
Proof.
  induction k as [|k IH]; intros f Hf.
  - cbn [seq rev app]. replace (pos 0 - 1)%Z with (Z.of_nat s - 1)%Z by (unfold pos; lia).
    destruct (Nat.eq_dec f hi) as [->|Hne].
    + rewrite Nat.sub_diag. cbn [seq rev map moves filter gives]. intros nx Hn. apply H2 in Hn. unfold handles in Hn.
      rewrite is_first_pos', Nat.eqb_refl in Hn. eauto.
    + replace (hi - f) with (S (hi - S f)) by lia. rewrite seq_S, rev_app_distr. cbn [rev app map].
      replace (S f + (hi - S f)) with hi by lia.
      match goal with |- context [P hi :: ?t] => change (P hi :: t) with ([P hi] ++ t) end. rewrite moves_app.
      apply pass_back; [intros nx; apply H2| |].
      * rewrite is_first_pos'. apply Nat.eqb_neq. lia.
      * apply down_two; lia.
  - rewrite seq_S, rev_app_distr. cbn [rev app map Nat.add].
    match goal with |- context [P k :: ?t] => change (P k :: t) with ([P k] ++ t) end. rewrite moves_app.
    replace (pos (S k) - 1)%Z with (pos k) by (unfold pos; lia).
    apply pass_back; [intros nx; apply H1; lia| |].
    + rewrite is_first_pos'. apply Nat.eqb_neq. lia.
    + apply IH; lia.
Qed.

Lemma backward_round : forall k, k <= hi \/ k = S hi /\ (forall first nx, next first (pos hi) = Ok nx -> handles first hi nx) ->
  gives fuel d Backward ls (Iter None (pos k - 1)) (moves (map P (rev (seq 0 k) ++ rev (seq k (S hi - k))))).
Proof.
  intros [|k] Hk.
  - cbn [seq rev app]. replace (pos 0 - 1)%Z with (Z.of_nat s - 1)%Z by (unfold pos; lia).
    rewrite Nat.sub_0_r, seq_S, rev_app_distr. cbn [rev app map Nat.add].
    match goal with |- context [P hi :: ?t] => change (P hi :: t) with ([P hi] ++ t) end. rewrite moves_app.
    apply pass_back; [intros nx; apply H2|reflexivity|]. unfold first_at.
    pose proof (down_one hi hi ltac:(lia)) as D. rewrite Nat.sub_diag in D. cbn [seq rev] in D. rewrite app_nil_r in D. exact D.
  - rewrite seq_S, rev_app_distr. cbn [rev app map Nat.add].
    match goal with |- context [P k :: ?t] => change (P k :: t) with ([P k] ++ t) end. rewrite moves_app.
    replace (pos (S k) - 1)%Z with (pos k) by (unfold pos; lia).
    apply pass_back; [|reflexivity|].
    + intros nx Hn. destruct Hk as [Hk|[Hk H3]]; [apply H1; [lia|exact Hn]|]. assert (k = hi) by lia. subst k. apply H3. exact Hn.
    + unfold first_at. pose proof (down_one k k ltac:(lia)) as D. replace (S hi - S k) with (hi - k) by lia. exact D.
Qed.
End Backward.

(** ** The loops of Slic3r and Cura *)

Definition ends (d : dialect) (l : line A) : bool :=
  match d with Cura => has stop_marker l | _ => has off_marker l end.

Lemma map_nth_seq : forall (X : Type) (xs : list X) def m k, k + m <= List.length xs ->
  map (fun j => nth j xs def) (seq k m) = firstn m (skipn k xs).
Proof.
  intros X xs def. induction m as [|m IH]; intros k H; [reflexivity|].
  cbn [seq map]. rewrite IH by lia. clear IH. revert k H. induction xs as [|x xs IH]; intros k H; [cbn in H; lia|].
  destruct k as [|k]; [reflexivity|]. cbn [skipn nth]. cbn [List.length] in H. apply IH. lia.
Qed.

Section Ring.
Variables (fuel : nat) (d : dialect) (B : list (line A)) (a : line A) (ms : list (line A)) (z : line A) (post : list (line A)).
Hypothesis Hd : d <> Skeinforge.
Hypothesis Hms : ms <> [].
Hypothesis Hx : Forall (fun l => ends d l = false) (a :: ms).
Hypothesis Hl : xy_move (last ms a) = true.
Hypothesis Ha : has start_marker a = true.
Hypothesis Hm : Forall (fun l => has start_marker l = false) ms.
Hypothesis Hz : ends d z = true.

Let full := a :: ms.
Let ls := B ++ full ++ z :: post.
Let s := List.length B.
Let n := List.length ms.
Let P (k : nat) := nth k full a.
Let pos (k : nat) : BinNums.Z := Z.of_nat (s + k).

Lemma dialects : d = Slic3r \/ d = Cura.
Proof. destruct d; [left|right|congruence]; reflexivity. Qed.

Lemma ring_nth : forall k, k <= n -> nth_error ls (s + k) = Some (P k).
Proof.
  intros k Hk. unfold ls. rewrite nth_error_app2 by (unfold s; lia). replace (s + k - List.length B) with k by (unfold s; lia).
  rewrite nth_error_app1 by (unfold full, n in *; cbn; lia). unfold P. apply nth_error_nth'. unfold full, n in *. cbn. lia.
Qed.

Lemma end_nth : nth_error ls (s + S n) = Some z.
Proof.
  unfold ls. rewrite nth_error_app2 by (unfold s; lia). replace (s + S n - List.length B) with (List.length full) by (unfold s, n, full; cbn; lia).
  rewrite nth_error_app2 by lia. rewrite Nat.sub_diag. reflexivity.
Qed.

Lemma ring_line : forall k, k <= n -> ends d (P k) = false.
Proof.
  intros k Hk. unfold P. apply (proj1 (Forall_forall _ _) Hx). apply nth_In. unfold full, n in *. cbn. lia.
Qed.

Lemma ring_start : forall k, k <= n -> has start_marker (P k) = Nat.eqb k 0.
Proof.
  intros [|k] Hk; [exact Ha|]. unfold P, full. cbn [nth Nat.eqb]. apply (proj1 (Forall_forall _ _) Hm). apply nth_In. unfold n in Hk. lia.
Qed.

Lemma ring_stop : forall k, d = Cura -> k <= n -> has stop_marker (P k) = false.
Proof. intros k E Hk. pose proof (ring_line k Hk) as H. unfold ends in H. rewrite E in H. exact H. Qed.

Lemma end_marks : match d with Cura => has stop_marker z | _ => has off_marker z end = true.
Proof. exact Hz. Qed.

Lemma ring_off : forall k, k <= n -> has off_marker (P k) && stops_on_off d = false.
Proof.
  intros k Hk. pose proof (ring_line k Hk) as H. destruct d; cbn [ends stops_on_off] in *; try congruence.
  - rewrite H. reflexivity.
  - apply andb_false_r.
Qed.

Lemma find_start : search_down (has start_marker) ls 0 (s + S n) = Some s.
Proof.
  pose proof (search_down_spec start_marker ls (s + S n)) as H.
  assert (E : at_ (contains start_marker) (map raw ls) s = true).
  { rewrite at_line. pose proof (ring_nth 0 ltac:(lia)) as E. rewrite Nat.add_0_r in E. rewrite E. exact (ring_start 0 ltac:(lia)). }
  destruct (search_down _ _ _ _) as [j|].
  - destruct H as (J1 & J2 & J3). f_equal. destruct (Nat.lt_trichotomy j s) as [C|[C|C]]; [|exact C|].
    + rewrite (J3 s ltac:(lia)) in E. discriminate E.
    + exfalso. rewrite at_line in J2. replace j with (s + (j - s)) in J2 by lia. rewrite ring_nth in J2 by lia.
      pose proof (ring_start (j - s) ltac:(lia)) as Q. unfold has in Q. rewrite Q in J2. apply Nat.eqb_eq in J2. lia.
  - rewrite (H s ltac:(lia)) in E. discriminate E.
Qed.

Lemma find_end : search_from (ends d) ls (Z.of_nat s) = Some (s + S n).
Proof.
  assert (Ee : exists mk, ends d = has mk) by (destruct d; [exists off_marker|exists stop_marker|exists off_marker]; reflexivity).
  destruct Ee as [mk Ee].
  pose proof (search_from_spec mk ls s) as H. rewrite <- Ee in H.
  assert (E : at_ (contains mk) (map raw ls) (s + S n) = true).
  { rewrite at_line, end_nth. change (has mk z = true). rewrite <- Ee. exact Hz. }
  destruct (search_from _ _ _) as [j|].
  - destruct H as (J1 & J2 & J3). f_equal. destruct (Nat.lt_trichotomy j (s + S n)) as [C|[C|C]]; [|exact C|].
    + exfalso. rewrite at_line in J2. replace j with (s + (j - s)) in J2 by lia. rewrite ring_nth in J2 by lia.
      pose proof (ring_line (j - s) ltac:(lia)) as Q. rewrite Ee in Q. unfold has in Q. congruence.
    + rewrite (J3 (s + S n) ltac:(lia)) in E. discriminate E.
  - rewrite (H (s + S n) ltac:(lia)) in E. discriminate E.
Qed.

Let lo := match d with Slic3r => 1 | _ => 0 end.
Let hi := match d with Slic3r => n - 1 | _ => n end.

Lemma n_pos : 1 <= n.
Proof. unfold n. destruct ms; [congruence|cbn; lia]. Qed.

Lemma last_move : xy_move (P n) = true.
Proof.
  pose proof n_pos as Hn. assert (E : P n = last ms a); [|rewrite E; exact Hl].
  unfold P, full, n in *. destruct ms as [|m t] eqn:Em; [cbn in Hn; lia|]. rewrite <- Em in *. clear.
  destruct ms as [|m t]; [reflexivity|]. cbn [List.length nth]. revert m. induction t as [|x t IH]; intros m; [reflexivity|].
  cbn [List.length nth]. change (last (m :: x :: t) a) with (last (x :: t) a). apply IH.
Qed.

Lemma next_ahead : forall first k nx, k <= n -> get_next fuel d Forward ls (Iter first (pos k)) = Ok nx ->
  if is_first first (pos k) then nx = Stop []
  else if xy_move (P k) then nx = Next (P k) (Iter (first_at first (pos k)) (pos (S k)))
  else get_next fuel d Forward ls (Iter (first_at first (pos k)) (pos (S k))) = Ok nx.
Proof.
  assert (Ew : forall k, k <= n -> wraps d Forward ls (pos k) = Ok false).
  { intros k Hk. unfold wraps. destruct dialects as [Ed|Ed]; rewrite Ed; [reflexivity|].
    unfold pos. rewrite line_at_nat, ring_nth by exact Hk. f_equal. apply (ring_stop k Ed Hk). }
  intros first k nx Hk H. unfold get_next in H. cbn [i_index i_first] in H.
  rewrite (Ew k Hk) in H. cbn [bind] in H. apply (scan_line _ _ _ _ _ _ _ _ (ring_nth k Hk) (ring_off k Hk)) in H.
  fold (pos k) in H. replace (pos k + increment Forward)%Z with (pos (S k)) in H by (unfold pos; cbn [increment]; lia).
  destruct (is_first first (pos k)); [exact H|]. destruct (xy_move (P k)) eqn:Ex; [exact H|].
  assert (Hk' : k <> n) by (intros ->; rewrite last_move in Ex; discriminate Ex).
  unfold get_next. cbn [i_index i_first]. rewrite (Ew (S k) ltac:(lia)). exact H.
Qed.

Lemma end_wraps : forall first nx, get_next fuel d Forward ls (Iter first (pos (S n))) = Ok nx ->
  match d with
  | Slic3r => if is_first first (pos (S n)) then nx = Stop []
              else get_next fuel d Forward ls (Iter (first_at first (pos (S n))) (pos 1)) = Ok nx
  | _ => get_next fuel d Forward ls (Iter first (pos 0)) = Ok nx
  end.
Proof.
  intros first nx H. unfold get_next in H. cbn [i_index i_first] in H. pose proof end_marks as Hz'.
  destruct dialects as [Ed|Ed]; rewrite Ed in H, Hz' |- *.
  - cbn [wraps bind] in H. destruct fuel as [|m]; [discriminate H|]. cbn [scan] in H. unfold pos in H.
    rewrite line_at_nat, end_nth in H. fold (pos (S n)) in H. destruct (is_first first (pos (S n))); [congruence|].
    rewrite Hz' in H. cbn [stops_on_off andb] in H. unfold reset_index in H. unfold pos at 1 in H. rewrite Nat2Z.id, find_start in H.
    cbn [shift] in H. unfold get_next. cbn [wraps bind i_index i_first].
    replace (Z.of_nat s + 1)%Z with (pos 1) in H by (unfold pos; lia).
    change (scan (S m) Slic3r Forward ls (first_at first (pos (S n))) (pos 1) = Ok nx). eapply scan_more; [|apply Nat.le_succ_diag_r].
    destruct first; exact H.
  - assert (Ew : wraps Cura Forward ls (pos (S n)) = Ok true).
    { unfold wraps, pos. rewrite line_at_nat, end_nth. rewrite Hz'. reflexivity. }
    rewrite Ew in H. cbn [bind] in H. unfold reset_index in H. unfold pos at 1 in H. rewrite Nat2Z.id, find_start in H. cbn [shift] in H.
    unfold get_next. cbn [i_index i_first].
    assert (Ew' : wraps Cura Forward ls (pos 0) = Ok false).
    { unfold wraps, pos. rewrite line_at_nat, ring_nth by lia. f_equal. apply (ring_stop 0 Ed). lia. }
    rewrite Ew'. cbn [bind]. replace (pos 0) with (Z.of_nat s + 0)%Z by (unfold pos; lia). exact H.
Qed.

Lemma no_wrap : forall k, k < n -> wraps d Backward ls (pos k) = Ok false.
Proof.
  intros k Hk. unfold wraps. assert (El : line_at ls (pos k + 1) = Some (P (S k))).
  { unfold pos. replace (Z.of_nat (s + k) + 1)%Z with (Z.of_nat (s + S k)) by lia. rewrite line_at_nat. apply ring_nth. lia. }
  destruct dialects as [Ed|Ed]; rewrite Ed, El, ring_start by lia; (destruct (Z.ltb_spec (pos k) 0); [unfold pos in *; lia|reflexivity]).
Qed.

Hypothesis Hxa : xy_move a = true.

Lemma scan_behind : forall first k nx, k <= n -> scan fuel d Backward ls first (pos k) = Ok nx ->
  if is_first first (pos k) then nx = Stop []
  else if xy_move (P k) then nx = Next (P k) (Iter (first_at first (pos k)) (pos k - 1))
  else get_next fuel d Backward ls (Iter (first_at first (pos k)) (pos k - 1)) = Ok nx.
Proof.
  intros first k nx Hk H.
  apply (scan_line _ _ _ _ _ _ _ _ (ring_nth k Hk) (ring_off k Hk)) in H. fold (pos k) in H.
  change (pos k + increment Backward)%Z with (pos k - 1)%Z in H.
  destruct (is_first first (pos k)); [exact H|]. destruct (xy_move (P k)) eqn:Ex; [exact H|].
  destruct k as [|k]; [exfalso; revert Ex; change (P 0) with a; congruence|].
  unfold get_next. cbn [i_index i_first]. replace (pos (S k) - 1)%Z with (pos k) in * by (unfold pos; lia).
  rewrite no_wrap by lia. exact H.
Qed.

Lemma next_behind : forall first k nx, k < n -> get_next fuel d Backward ls (Iter first (pos k)) = Ok nx ->
  if is_first first (pos k) then nx = Stop []
  else if xy_move (P k) then nx = Next (P k) (Iter (first_at first (pos k)) (pos k - 1))
  else get_next fuel d Backward ls (Iter (first_at first (pos k)) (pos k - 1)) = Ok nx.
Proof.
  intros first k nx Hk H. apply scan_behind; [lia|]. unfold get_next in H. cbn [i_index i_first] in H.
  rewrite no_wrap in H by exact Hk. exact H.
Qed.

Lemma start_wraps : forall first nx, get_next fuel d Backward ls (Iter first (Z.of_nat s - 1)) = Ok nx ->
  if is_first first (pos hi) then nx = Stop []
  else if xy_move (P hi) then nx = Next (P hi) (Iter (first_at first (pos hi)) (pos hi - 1))
  else get_next fuel d Backward ls (Iter (first_at first (pos hi)) (pos hi - 1)) = Ok nx.
Proof.
  intros first nx H. unfold get_next in H. cbn [i_index i_first] in H. pose proof n_pos as Hn.
  assert (Ez : (Z.of_nat s - 1 + 1)%Z = Z.of_nat s) by lia.
  assert (Ew : wraps d Backward ls (Z.of_nat s - 1) = Ok true).
  { assert (El : line_at ls (Z.of_nat s) = Some (P 0)).
    { rewrite line_at_nat. pose proof (ring_nth 0 ltac:(lia)) as E. rewrite Nat.add_0_r in E. exact E. }
    unfold wraps. rewrite Ez, El.
    destruct dialects as [Ed|Ed]; rewrite Ed; (destruct (Z.ltb_spec (Z.of_nat s - 1) 0); [reflexivity|]); rewrite ring_start by lia; reflexivity. }
  rewrite Ew in H. cbn [bind] in H.
  assert (Er : reset_index d Backward ls (Z.of_nat s - 1) = Some (pos hi)).
  { pose proof find_end as F. unfold reset_index. rewrite Ez. unfold hi, pos.
    destruct dialects as [Ed|Ed]; rewrite Ed in F |- *; change (ends Slic3r) with (has (A:=A) off_marker) in F;
      change (ends Cura) with (has (A:=A) stop_marker) in F; rewrite F; cbn [shift]; f_equal; lia. }
  rewrite Er in H. assert (Hh : hi <= n) by (unfold hi; destruct d; lia).
  apply (scan_behind _ _ _ Hh) in H. exact H.
Qed.

Lemma ring_ahead : forall i, i <= n ->
  gives fuel d Forward ls (new_iter (Z.of_nat (s + i) + 1)) (moves (match d with Slic3r => turn i ms | _ => turn (S i) full end)).
Proof.
  intros i Hi. pose proof n_pos as Hn. unfold new_iter. replace (Z.of_nat (s + i) + 1)%Z with (pos (S i)) by (unfold pos; lia).
  assert (H2 : forall f nx, lo <= f <= n -> get_next fuel d Forward ls (Iter (Some (pos f)) (pos (S n))) = Ok nx ->
    get_next fuel d Forward ls (Iter (Some (pos f)) (pos lo)) = Ok nx).
  { intros f nx Hf H. apply end_wraps in H. unfold lo in *. destruct dialects as [Ed|Ed]; rewrite Ed in H, Hf |- *.
    - assert (E : is_first (Some (pos f)) (pos (S n)) = false) by (apply Z.eqb_neq; unfold pos; lia). rewrite E in H. exact H.
    - exact H. }
  assert (H1 : forall first k nx, lo <= k <= n -> get_next fuel d Forward ls (Iter first (pos k)) = Ok nx ->
    if is_first first (pos k) then nx = Stop []
    else if xy_move (P k) then nx = Next (P k) (Iter (first_at first (pos k)) (pos (S k)))
    else get_next fuel d Forward ls (Iter (first_at first (pos k)) (pos (S k))) = Ok nx).
  { intros first k nx Hk. apply next_ahead. lia. }
  assert (Lf : List.length full = S n) by reflexivity.
  destruct (Nat.eq_dec i n) as [->|Hne].
  - unfold lo in *. destruct dialects as [Ed|Ed]; rewrite Ed in H1, H2 |- *; pose proof end_wraps as EW; rewrite Ed in EW.
    + assert (Et : turn n ms = map P (seq 1 n)).
      { unfold turn. unfold n at 1. rewrite skipn_all. cbn [app].
        unfold P. rewrite map_nth_seq by (rewrite Lf; lia). reflexivity. }
      rewrite Et. apply gives_via with (it' := Iter (Some (pos (S n))) (pos 1)).
      { intros nx H. apply EW in H. cbn [is_first] in H. exact H. }
      apply (lap_two fuel Slic3r ls s 1 n P H1); try lia.
      intros _ nx H. apply EW in H. fold (pos (S n)) in H. cbn [is_first] in H. rewrite Z.eqb_refl in H. exact H.
    + assert (Et : turn (S n) full = map P (seq 0 (S n))).
      { unfold turn. rewrite skipn_all2 by lia. cbn [app]. unfold P. rewrite map_nth_seq by (rewrite Lf; lia). reflexivity. }
      rewrite Et. apply gives_via with (it' := Iter None (pos 0)); [intros nx H; apply EW in H; exact H|].
      pose proof (forward_round fuel Cura ls s 0 n P H1 H2 0 ltac:(lia)) as F.
      rewrite !Nat.sub_0_r in F. cbn [seq] in F. rewrite app_nil_r in F. exact F.
  - assert (F : gives fuel d Forward ls (Iter None (pos (S i))) (moves (map P (seq (S i) (S n - S i) ++ seq lo (S i - lo))))).
    { apply (forward_round fuel d ls s lo n P H1 H2). unfold lo. destruct d; lia. }
    replace (match d with Slic3r => turn i ms | _ => turn (S i) full end) with (map P (seq (S i) (S n - S i) ++ seq lo (S i - lo))); [exact F|].
    rewrite map_app. unfold P. rewrite !map_nth_seq by (rewrite Lf; unfold lo; destruct d; lia).
    unfold turn, lo. destruct dialects as [Ed|Ed]; rewrite Ed.
    + unfold full. cbn [skipn]. f_equal.
      * apply firstn_all2. rewrite skipn_length. fold n. lia.
      * f_equal. lia.
    + f_equal. apply firstn_all2. rewrite skipn_length, Lf. lia.
Qed.

Lemma ring_behind : forall i, i <= n ->
  gives fuel d Backward ls (new_iter (Z.of_nat (s + i) - 1)) (moves (rev (turn i (match d with Slic3r => removelast full | _ => full end)))).
Proof.
  intros i Hi. pose proof n_pos as Hn. unfold new_iter. fold (pos i).
  assert (Hhi : hi <= n) by (unfold hi; destruct d; lia).
  assert (Lf : List.length full = S n) by reflexivity.
  assert (F : gives fuel d Backward ls (Iter None (pos i - 1)) (moves (map P (rev (seq 0 i) ++ rev (seq i (S hi - i)))))).
  { apply (backward_round fuel d ls s hi P).
    - intros first k nx Hk. apply next_behind. lia.
    - exact start_wraps.
    - destruct (Nat.le_gt_cases i hi); [left; assumption|]. right. assert (Eh : hi = n - 1).
      { unfold hi in *. destruct dialects as [Ed|Ed]; [rewrite Ed; reflexivity|]. rewrite Ed in H. lia. }
      split; [lia|]. intros first nx. apply next_behind. lia. }
  replace (rev (turn i _)) with (map P (rev (seq 0 i) ++ rev (seq i (S hi - i)))); [exact F|].
  rewrite map_app, !map_rev. unfold turn. rewrite rev_app_distr. unfold P.
  rewrite !map_nth_seq by (rewrite Lf; lia). cbn [skipn].
  assert (Er : removelast full = firstn n full) by (rewrite removelast_firstn_len, Lf; reflexivity).
  unfold hi. destruct dialects as [Ed|Ed]; rewrite Ed.
  - rewrite Er. f_equal; f_equal.
    + rewrite firstn_firstn. f_equal. lia.
    + rewrite skipn_firstn_comm. f_equal. lia.
  - f_equal. f_equal. rewrite firstn_all2; [reflexivity|]. rewrite skipn_length, Lf. lia.
Qed.
End Ring.
End Iter.

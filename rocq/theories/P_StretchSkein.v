(** * P_StretchSkein: walking round a loop of Skeinforge *)
From Coq Require Import List Ascii String ZArith NArith Bool Lia Reals Lra.
From Verif Require Import PyBase Arith ArithR Gcoder Filters SpecText SpecLoad SpecMachine SpecMeasure SpecFilter
  Stretch SpecStretch SpecBend P_Load P_Text P_Wf P_Machine P_Measure P_Format P_Filter P_FilterMotion P_Stretch P_StretchRead P_StretchGeo
  P_StretchIter P_StretchLoop P_StretchErr P_StretchProps P_StretchBend P_StretchRound P_StretchWhole.
Import ListNotations.
Local Open Scope list_scope.

Section Iter.
Context {A : arith}.
Implicit Types l : line A.

(** ** The iterator does return these lines *)

Inductive chain (d : dialect) (dir : direction) (ls : list (line A)) : iter -> list (line A) -> Prop :=
| chain_nil it : chain d dir ls it []
| chain_cons it l it1 t c : (forall m, get_next (c + m) d dir ls it = Ok (Next l it1)) -> chain d dir ls it1 t ->
    chain d dir ls it (l :: t).

Lemma get_next_more : forall n m d dir (ls : list (line A)) it nx, get_next n d dir ls it = Ok nx -> n <= m ->
  get_next m d dir ls it = Ok nx.
Proof.
  intros n m d dir ls it nx H Hm. unfold get_next in *. destruct (wraps d dir ls (i_index it)) as [[|]|]; cbn [bind] in *; [|eapply scan_more; eassumption|discriminate H].
  destruct (reset_index d dir ls (i_index it)); [eapply scan_more; eassumption|exact H].
Qed.

Lemma chain_yields : forall fuel d dir (ls : list (line A)) it out, chain d dir ls it out -> yields fuel d dir ls it out.
Proof.
  intros fuel d dir ls it out H. induction H as [it|it l it1 t c Hn H IH]; cbn [yields]; [exact I|].
  intros nx Hx. exists it1. split; [|exact IH]. apply get_next_more with (m := c + fuel) in Hx; [|lia].
  rewrite Hn in Hx. congruence.
Qed.

(** with enough fuel *)
Fixpoint returns (fuel : nat) (d : dialect) (dir : direction) (ls : list (line A)) (it : iter) (out : list (line A)) : Prop :=
  match out with
  | [] => True
  | l :: t => exists it1, get_next fuel d dir ls it = Ok (Next l it1) /\ returns fuel d dir ls it1 t
  end.

Lemma chain_returns : forall d dir (ls : list (line A)) it out, chain d dir ls it out ->
  exists c, forall fuel, c <= fuel -> returns fuel d dir ls it out.
Proof.
  intros d dir ls it out H. induction H as [it|it l it1 t c Hn H [c1 IH]]; [exists 0; intros fuel _; exact I|].
  exists (c + c1). intros fuel Hf. cbn [returns]. exists it1. split; [|apply IH; lia].
  replace fuel with (c + (fuel - c)) by lia. apply Hn.
Qed.

(** ** The same, from inside the loop of [get_next] *)

Definition runs (d : dialect) (dir : direction) (ls : list (line A)) (first : option BinNums.Z) (i : BinNums.Z) (out : list (line A)) : Prop :=
  match out with
  | [] => True
  | l :: t => exists c it1, (forall m, scan (c + m) d dir ls first i = Ok (Next l it1)) /\ chain d dir ls it1 t
  end.

Lemma runs_chain : forall d dir (ls : list (line A)) first i j out,
  (wraps d dir ls i = Ok false /\ j = i \/ wraps d dir ls i = Ok true /\ reset_index d dir ls i = Some j) ->
  runs d dir ls first j out -> chain d dir ls (Iter first i) out.
Proof.
  intros d dir ls first i j [|l t] Hw H; [constructor|]. destruct H as (c & it1 & Hs & Ht).
  apply chain_cons with (it1 := it1) (c := c); [|exact Ht]. intros m. unfold get_next. cbn [i_index i_first].
  destruct Hw as [[Hw ->]|[Hw Hr]]; rewrite Hw; cbn [bind]; [|rewrite Hr]; apply Hs.
Qed.

Lemma runs_on : forall d dir (ls : list (line A)) first i first1 j out,
  (forall m, scan (S m) d dir ls first i = scan m d dir ls first1 j) -> runs d dir ls first1 j out -> runs d dir ls first i out.
Proof.
  intros d dir ls first i first1 j [|l t] Hs H; [exact I|]. destruct H as (c & it1 & Hc & Ht).
  exists (S c), it1. split; [|exact Ht]. intros m. cbn [Nat.add]. rewrite Hs. apply Hc.
Qed.

Lemma scan_still : forall d dir (ls : list (line A)) first k l m, nth_error ls k = Some l -> is_first first (Z.of_nat k) = false ->
  has off_marker l && stops_on_off d = false -> xy_move l = false ->
  scan (S m) d dir ls first (Z.of_nat k) = scan m d dir ls (first_at first (Z.of_nat k)) (Z.of_nat k + increment dir).
Proof.
  intros d dir ls first k l m Hl Hf Ho Hx. cbn [scan]. rewrite line_at_nat, Hl, Hf, Ho, xy_line, Hx. destruct first; reflexivity.
Qed.

Lemma scan_found : forall d dir (ls : list (line A)) first k l m, nth_error ls k = Some l -> is_first first (Z.of_nat k) = false ->
  has off_marker l && stops_on_off d = false -> xy_move l = true ->
  scan (S m) d dir ls first (Z.of_nat k) = Ok (Next l (Iter (first_at first (Z.of_nat k)) (Z.of_nat k + increment dir))).
Proof.
  intros d dir ls first k l m Hl Hf Ho Hx. cbn [scan]. rewrite line_at_nat, Hl, Hf, Ho, xy_line, Hx. destruct first; reflexivity.
Qed.

Lemma scan_reset : forall dir (ls : list (line A)) first k l j m, nth_error ls k = Some l -> is_first first (Z.of_nat k) = false ->
  has off_marker l = true -> reset_index Skeinforge dir ls (Z.of_nat k) = Some j ->
  scan (S m) Skeinforge dir ls first (Z.of_nat k) = scan m Skeinforge dir ls (first_at first (Z.of_nat k)) j.
Proof.
  intros dir ls first k l j m Hl Hf Ho Hr. cbn [scan]. rewrite line_at_nat, Hl, Hf, Ho, Hr. destruct first; reflexivity.
Qed.

(** ** The ring *)

Lemma search_down_from : forall mk (ls : list (line A)) lo n,
  match search_down (has mk) ls lo n with
  | Some a => lo <= a < n /\ at_ (contains mk) (map raw ls) a = true /\
              forall j, a < j < n -> at_ (contains mk) (map raw ls) j = false
  | None => forall j, lo <= j < n -> at_ (contains mk) (map raw ls) j = false
  end.
Proof.
  intros mk ls lo. induction n as [|n IH]; cbn [search_down]; [intros j H; lia|].
  destruct (Nat.ltb_spec n lo); [intros j Hj; lia|].
  pose proof (at_line (contains mk) ls n) as En. unfold has at 1.
  destruct (match nth_error ls n with Some l => contains mk (raw l) | None => false end).
  - split; [lia|]. split; [exact En|]. intros j Hj; lia.
  - destruct (search_down (has mk) ls lo n) as [a|].
    + destruct IH as (H1 & H2 & H3). split; [lia|]. split; [exact H2|]. intros j Hj.
      destruct (Nat.eq_dec j n) as [-> |Hne]; [exact En|]. apply H3. lia.
    + intros j Hj. destruct (Nat.eq_dec j n) as [-> |Hne]; [exact En|]. apply IH. lia.
Qed.

Section Ring.
Variables (B : list (line A)) (a : line A) (rest : list (line A)) (on : line A) (ms : list (line A)) (z : line A) (post : list (line A)).
Let full := a :: rest ++ on :: ms.
Let ls := B ++ full ++ z :: post.
Let s := List.length B.
Let n := List.length rest + S (List.length ms).
Let lo := 2 + List.length rest.
Let P (k : nat) := nth k full a.
Let pos (k : nat) : BinNums.Z := Z.of_nat (s + k).

Hypothesis Hoff : Forall (fun l => has off_marker l = false) full.
Hypothesis Hxa : xy_move a = true.
Hypothesis Hrest : Forall (fun l => xy_move l = false) (rest ++ [on]).
Hypothesis Hon : has on_marker on = true.
Hypothesis Hms : Forall (fun l => has on_marker l = false) ms.
Hypothesis Hne : ms <> [].
Hypothesis Hz : has off_marker z = true.

Lemma full_length : List.length full = S n.
Proof. unfold full, n. cbn [List.length]. rewrite app_length. cbn. reflexivity. Qed.

Lemma ms_pos : 1 <= List.length ms.
Proof. destruct ms; [congruence|cbn; lia]. Qed.

Lemma nth_ring : forall k, k <= n -> nth_error ls (s + k) = Some (P k).
Proof.
  intros k Hk. unfold ls. rewrite nth_error_app2 by (unfold s; lia). replace (s + k - List.length B) with k by (unfold s; lia).
  rewrite nth_error_app1 by (rewrite full_length; lia). unfold P. apply nth_error_nth'. rewrite full_length. lia.
Qed.

Lemma nth_end : nth_error ls (s + S n) = Some z.
Proof.
  unfold ls. rewrite nth_error_app2 by (unfold s; lia). replace (s + S n - List.length B) with (List.length full) by (rewrite full_length; unfold s; lia).
  rewrite nth_error_app2 by lia. rewrite Nat.sub_diag. reflexivity.
Qed.

Lemma off_ring : forall k, k <= n -> has off_marker (P k) && stops_on_off Skeinforge = false.
Proof.
  intros k Hk. rewrite (proj1 (Forall_forall _ _) Hoff (P k)); [reflexivity|]. apply nth_In. rewrite full_length. lia.
Qed.

Lemma still_ring : forall k, 1 <= k < lo -> xy_move (P k) = false.
Proof.
  intros [|k] Hk; [lia|]. unfold P, full. cbn [nth]. apply (proj1 (Forall_forall _ _) Hrest).
  change (rest ++ on :: ms) with (rest ++ [on] ++ ms). rewrite app_assoc, app_nth1 by (rewrite app_length; cbn; unfold lo in Hk; lia).
  apply nth_In. rewrite app_length. cbn. unfold lo in Hk. lia.
Qed.

Lemma on_ring : forall k, lo <= k <= n -> has on_marker (P k) = false.
Proof.
  intros [|k] Hk; [unfold lo in Hk; lia|]. unfold P, full, lo, n in *. cbn [nth]. apply (proj1 (Forall_forall _ _) Hms).
  rewrite app_nth2 by lia. replace (k - List.length rest) with (S (k - S (List.length rest))) by lia. cbn [nth]. apply nth_In. lia.
Qed.

Lemma P_on : P (lo - 1) = on.
Proof.
  unfold P, full, lo. replace (2 + List.length rest - 1) with (S (List.length rest)) by lia. cbn [nth].
  rewrite app_nth2, Nat.sub_diag by lia. reflexivity.
Qed.

Lemma find_on : reset_index Skeinforge Forward ls (pos (S n)) = Some (pos lo).
Proof.
  unfold reset_index. unfold pos at 1. rewrite Nat2Z.id. pose proof (search_down_from on_marker ls 1 (s + S n)) as H.
  assert (E : at_ (contains on_marker) (map raw ls) (s + (lo - 1)) = true).
  { rewrite at_line, nth_ring by (unfold lo, n; lia). rewrite P_on. exact Hon. }
  assert (Ei : search_down (has on_marker) ls 1 (s + S n) = Some (s + (lo - 1))).
  { destruct (search_down _ _ _ _) as [j|].
    - destruct H as (J1 & J2 & J3). f_equal. destruct (Nat.lt_trichotomy j (s + (lo - 1))) as [C|[C|C]]; [|exact C|].
      + rewrite (J3 (s + (lo - 1)) ltac:(unfold lo, n in *; lia)) in E. discriminate E.
      + exfalso. rewrite at_line in J2. replace j with (s + (j - s)) in J2 by lia. rewrite nth_ring in J2 by lia.
        pose proof (on_ring (j - s) ltac:(lia)) as Q. unfold has in Q. congruence.
    - rewrite (H (s + (lo - 1)) ltac:(unfold lo, n; lia)) in E. discriminate E. }
  rewrite Ei. cbn [shift]. f_equal. unfold pos, lo. lia.
Qed.

(** the search for the end of the extrusion, from a place before it *)
Lemma find_off : forall k, (forall j, k <= j < s -> at_ (contains off_marker) (map raw ls) j = false) -> k <= s ->
  search_from (has off_marker) ls (Z.of_nat k) = Some (s + S n).
Proof.
  intros k Hb Hk. pose proof (search_from_spec off_marker ls k) as H.
  assert (E : at_ (contains off_marker) (map raw ls) (s + S n) = true) by (rewrite at_line, nth_end; exact Hz).
  destruct (search_from _ _ _) as [j|].
  - destruct H as (J1 & J2 & J3). f_equal. destruct (Nat.lt_trichotomy j (s + S n)) as [C|[C|C]]; [|exact C|].
    + exfalso. destruct (Nat.lt_ge_cases j s) as [D|D]; [rewrite Hb in J2 by lia; discriminate J2|].
      rewrite at_line in J2. replace j with (s + (j - s)) in J2 by lia. rewrite nth_ring in J2 by lia.
      pose proof (off_ring (j - s) ltac:(lia)) as Q. unfold has in Q. rewrite J2 in Q. discriminate Q.
    + rewrite (J3 (s + S n) ltac:(lia)) in E. discriminate E.
  - rewrite (H (s + S n) ltac:(lia)) in E. discriminate E.
Qed.

(** *** Forwards *)

Lemma to_chain : forall first k out, runs Skeinforge Forward ls first (pos k) out -> chain Skeinforge Forward ls (Iter first (pos k)) out.
Proof. intros first k out H. eapply runs_chain; [left; split; reflexivity|exact H]. Qed.

Lemma ahead_one : forall first k out, k <= n -> is_first first (pos k) = false ->
  runs Skeinforge Forward ls (first_at first (pos k)) (pos (S k)) out ->
  runs Skeinforge Forward ls first (pos k) (moves [P k] ++ out).
Proof.
  intros first k out Hk Hf H. assert (Ei : pos (S k) = (pos k + increment Forward)%Z) by (unfold pos; cbn [increment]; lia).
  unfold moves. cbn [filter]. destruct (xy_move (P k)) eqn:Ex; cbn [app].
  - exists 1, (Iter (first_at first (pos k)) (pos (S k))). split; [|apply to_chain; exact H]. intros m. rewrite Ei.
    apply (scan_found _ _ _ _ _ _ _ (nth_ring k Hk) Hf (off_ring k Hk) Ex).
  - eapply runs_on; [|exact H]. intros m. rewrite Ei. apply (scan_still _ _ _ _ _ _ _ (nth_ring k Hk) Hf (off_ring k Hk) Ex).
Qed.

Lemma ahead_some : forall m f k out, k + m <= S n -> (forall j, k <= j < k + m -> f <> pos j) ->
  runs Skeinforge Forward ls (Some f) (pos (k + m)) out ->
  runs Skeinforge Forward ls (Some f) (pos k) (moves (map P (seq k m)) ++ out).
Proof.
  induction m as [|m IH]; intros f k out Hk Hf H.
  - rewrite Nat.add_0_r in H. exact H.
  - cbn [seq map]. change (P k :: map P (seq (S k) m)) with ([P k] ++ map P (seq (S k) m)). rewrite moves_app, <- app_assoc.
    apply ahead_one; [lia| |].
    + cbn [is_first]. apply Z.eqb_neq. intros E. apply (Hf k); [lia|]. symmetry. exact E.
    + cbn [first_at]. apply IH; [lia|intros j Hj; apply Hf; lia|]. replace (S k + m) with (k + S m) by lia. exact H.
Qed.

Lemma ahead_wrap : forall first out, is_first first (pos (S n)) = false ->
  runs Skeinforge Forward ls (first_at first (pos (S n))) (pos lo) out -> runs Skeinforge Forward ls first (pos (S n)) out.
Proof.
  intros first out Hf H. eapply runs_on; [|exact H]. intros m.
  apply (scan_reset Forward ls first (s + S n) z (pos lo) m nth_end Hf Hz find_on).
Qed.

Lemma moves_none : forall xs : list (line A), Forall (fun l => xy_move l = false) xs -> moves xs = [].
Proof. intros xs H. induction H as [|x xs Hx H IH]; [reflexivity|]. cbn [moves filter]. rewrite Hx. exact IH. Qed.

Lemma moves_before : forall k, k < lo -> moves (map P (seq 1 k)) = [].
Proof.
  intros k Hk. apply moves_none. apply Forall_forall. intros l Hl. apply in_map_iff in Hl as (j & <- & Hj). apply in_seq in Hj.
  apply still_ring. lia.
Qed.

Lemma skein_ahead : forall i, i <= n -> (i = 0 \/ lo <= i) ->
  chain Skeinforge Forward ls (new_iter (pos i + 1)) (moves (turn i (tl full))).
Proof.
  intros i Hi Hp. unfold new_iter. replace (pos i + 1)%Z with (pos (S i)) by (unfold pos; lia). apply to_chain.
  pose proof ms_pos as Hmp. pose proof full_length as Lf.
  assert (Et : turn i (tl full) = map P (seq (S i) (n - i)) ++ map P (seq 1 i)).
  { unfold turn, P. rewrite !map_nth_seq by (rewrite Lf; lia). unfold full. cbn [tl skipn]. f_equal.
    symmetry. apply firstn_all2. rewrite skipn_length. change (List.length (rest ++ on :: ms)) with (Nat.pred (List.length full)). rewrite Lf. cbn. lia. }
  rewrite Et, moves_app. clear Et.
  assert (Es : moves (map P (seq 1 i)) = moves (map P (seq lo (S i - lo)))).
  { destruct Hp as [->|Hp]; [reflexivity|]. replace i with ((lo - 1) + (S i - lo)) at 1 by (unfold lo in *; lia).
    rewrite seq_app, map_app, moves_app. rewrite moves_before by (unfold lo; lia). cbn [app]. do 3 f_equal; lia. }
  rewrite Es. clear Es.
  destruct (Nat.eq_dec i n) as [->|Hin].
  - rewrite Nat.sub_diag. cbn [seq map moves filter app]. apply ahead_wrap; [reflexivity|]. cbn [first_at].
    destruct Hp as [E|Hp]; [unfold n in E; lia|].
    pose proof (ahead_some (S n - lo) (pos (S n)) lo [] ltac:(lia)) as H. rewrite app_nil_r in H. apply H; [|exact I].
    intros j Hj E. unfold pos in E. lia.
  - replace (n - i) with (S (n - S i)) by lia. cbn [seq map].
    match goal with |- context [P (S i) :: ?t] => change (P (S i) :: t) with ([P (S i)] ++ t) end. rewrite moves_app, <- app_assoc.
    apply ahead_one; [lia|reflexivity|]. cbn [first_at].
    apply ahead_some; [lia|intros j Hj E; unfold pos in E; lia|]. replace (S (S i) + (n - S i)) with (S n) by lia.
    apply ahead_wrap; [cbn [is_first]; apply Z.eqb_neq; unfold pos; lia|]. cbn [first_at].
    pose proof (ahead_some (S i - lo) (pos (S i)) lo [] ltac:(unfold lo, n in *; lia)) as H. rewrite app_nil_r in H. apply H; [|exact I].
    intros j Hj E. unfold pos in E. lia.
Qed.

(** *** Backwards *)

Let hi := n - 1.

(** what is before the loop in the layer *)
Hypothesis Hpre : s <= 1 \/ exists q u gap, B = q ++ u :: gap /\ has off_marker u = true /\
  Forall (fun l => xy_move l = false /\ has off_marker l = false) gap.

Lemma behind_one : forall first k out, 1 <= k <= n -> is_first first (pos k) = false ->
  runs Skeinforge Backward ls (first_at first (pos k)) (pos (k - 1)) out ->
  runs Skeinforge Backward ls first (pos k) (moves [P k] ++ out).
Proof.
  intros first k out Hk Hf H. assert (Ei : pos (k - 1) = (pos k + increment Backward)%Z) by (unfold pos; cbn [increment]; lia).
  unfold moves. cbn [filter]. destruct (xy_move (P k)) eqn:Ex; cbn [app].
  - assert (Hk2 : 2 <= k). { destruct (Nat.eq_dec k 1) as [->|]; [|lia]. rewrite still_ring in Ex by (unfold lo; lia). discriminate Ex. }
    exists 1, (Iter (first_at first (pos k)) (pos (k - 1))). split.
    + intros m. rewrite Ei. apply (scan_found _ _ _ _ _ _ _ (nth_ring k ltac:(lia)) Hf (off_ring k ltac:(lia)) Ex).
    + eapply runs_chain; [left; split; [|reflexivity]|exact H]. unfold wraps. f_equal. apply Z.ltb_ge. unfold pos. lia.
  - eapply runs_on; [|exact H]. intros m. rewrite Ei. apply (scan_still _ _ _ _ _ _ _ (nth_ring k ltac:(lia)) Hf (off_ring k ltac:(lia)) Ex).
Qed.

Lemma behind_some : forall m k first out, 1 <= k -> k + m <= S n -> (forall j, k <= j < k + m -> is_first first (pos j) = false) ->
  (forall first', first' = first \/ (first = None /\ exists j, k <= j < k + m /\ first' = Some (pos j)) ->
     runs Skeinforge Backward ls first' (pos (k - 1)) out) ->
  runs Skeinforge Backward ls first (pos (k + m - 1)) (moves (map P (rev (seq k m))) ++ out).
Proof.
  induction m as [|m IH]; intros k first out Hk Hm Hf H.
  - rewrite Nat.add_0_r. cbn [seq rev map moves filter app]. apply H. left. reflexivity.
  - rewrite seq_S, rev_app_distr. cbn [rev app map]. replace (k + S m - 1) with (k + m) by lia.
    match goal with |- context [P (k + m) :: ?t] => change (P (k + m) :: t) with ([P (k + m)] ++ t) end. rewrite moves_app, <- app_assoc.
    apply behind_one; [lia|apply Hf; lia|]. apply IH; [lia|lia| |].
    + intros j Hj. destruct first as [f|]; cbn [first_at is_first].
      * apply (Hf j). lia.
      * apply Z.eqb_neq. unfold pos. lia.
    + intros first' [->|[C _]]; [|discriminate C]. apply H. destruct first as [f|]; cbn [first_at]; [left; reflexivity|].
      right. split; [reflexivity|]. exists (k + m). split; [lia|reflexivity].
Qed.

Lemma behind_first : forall first out, is_first first (pos 0) = false ->
  chain Skeinforge Backward ls (Iter (first_at first (pos 0)) (Z.of_nat s - 1)) out ->
  runs Skeinforge Backward ls first (pos 0) (a :: out).
Proof.
  intros first out Hf H. exists 1, (Iter (first_at first (pos 0)) (Z.of_nat s - 1)). split; [|exact H].
  intros m. replace (Z.of_nat s - 1)%Z with (pos 0 + increment Backward)%Z by (unfold pos; cbn [increment]; lia).
  apply (scan_found _ _ _ _ _ _ _ (nth_ring 0 ltac:(lia)) Hf (off_ring 0 ltac:(lia)) Hxa).
Qed.

(** from the travel, over the lines before it *)
Lemma behind_wrap : forall first out, match first with None => True | Some f => (Z.of_nat s <= f)%Z end ->
  (forall first', first' = first \/ first = None /\ first' = Some (Z.of_nat s - 1)%Z ->
     runs Skeinforge Backward ls first' (pos hi) out) ->
  chain Skeinforge Backward ls (Iter first (Z.of_nat s - 1)) out.
Proof.
  intros first out Hf H.
  assert (Hh : forall k, search_from (has off_marker) ls (Z.of_nat k) = Some (s + S n) ->
    shift (-2) (search_from (has off_marker) ls (Z.of_nat k)) = Some (pos hi)).
  { intros k E. rewrite E. cbn [shift]. f_equal. unfold pos, hi, n. lia. }
  destruct (Nat.le_gt_cases s 1) as [Hs|Hs].
  - apply runs_chain with (j := pos hi).
    + right. split; [unfold wraps; f_equal; apply Z.ltb_lt; lia|]. cbn [reset_index].
      replace (Z.of_nat s - 1 + 1)%Z with (Z.of_nat s) by lia. apply Hh, find_off; lia.
    + apply H. left. reflexivity.
  - destruct Hpre as [C|(q & u & gap & EB & Hu & Hg)]; [lia|].
    apply runs_chain with (j := (Z.of_nat s - 1)%Z).
    { left. split; [|reflexivity]. unfold wraps. f_equal. apply Z.ltb_ge. lia. }
    assert (Ls : s = List.length q + S (List.length gap)) by (unfold s; rewrite EB, app_length; reflexivity).
    set (nq := List.length q) in *.
    assert (Nu : nth_error ls nq = Some u).
    { unfold ls. rewrite EB, <- app_assoc. rewrite nth_error_app2, Nat.sub_diag by lia. reflexivity. }
    assert (Ng : forall j, j < List.length gap -> exists l, nth_error ls (nq + S j) = Some l /\ xy_move l = false /\ has off_marker l = false).
    { intros j Hj. destruct (nth_error gap j) as [l|] eqn:E; [|apply nth_error_None in E; lia]. exists l. split.
      - unfold ls. rewrite EB, <- app_assoc. rewrite nth_error_app2 by lia. replace (nq + S j - List.length q) with (S j) by lia.
        cbn [app nth_error]. rewrite nth_error_app1 by lia. exact E.
      - apply (proj1 (Forall_forall _ _) Hg). eapply nth_error_In, E. }
    assert (Hr : reset_index Skeinforge Backward ls (Z.of_nat nq) = Some (pos hi)).
    { cbn [reset_index]. replace (Z.of_nat nq + 1)%Z with (Z.of_nat (S nq)) by lia. apply Hh, find_off; [|lia].
      intros j Hj. rewrite at_line. destruct (Ng (j - S nq)) as (l & E & _ & Eo); [lia|]. replace (nq + S (j - S nq)) with j in E by lia.
      rewrite E. exact Eo. }
    (* down the gap *)
    assert (Hdown : forall j f, j <= List.length gap -> (forall i, i <= j -> f <> Z.of_nat (nq + i)) ->
      runs Skeinforge Backward ls (Some f) (pos hi) out -> runs Skeinforge Backward ls (Some f) (Z.of_nat (nq + j)) out).
    { induction j as [|j IH]; intros f Hj Hn Hrun.
      - eapply runs_on; [|exact Hrun]. intros m. rewrite Nat.add_0_r.
        apply (scan_reset Backward ls (Some f) nq u (pos hi) m Nu); [|exact Hu|exact Hr].
        cbn [is_first]. apply Z.eqb_neq. intros E. apply (Hn 0); [lia|]. rewrite Nat.add_0_r. symmetry. exact E.
      - destruct (Ng j) as (l & E & Ex & Eo); [lia|]. eapply runs_on; [|apply (IH f ltac:(lia)); [|exact Hrun]].
        + intros m. replace (Z.of_nat (nq + j)) with (Z.of_nat (nq + S j) + increment Backward)%Z by (cbn [increment]; lia).
          apply (scan_still _ Backward ls (Some f) _ l m E); [|rewrite Eo; reflexivity|exact Ex].
          cbn [is_first]. apply Z.eqb_neq. intros C. apply (Hn (S j)); [lia|]. symmetry. exact C.
        + intros i Hi. apply Hn. lia. }
    replace (Z.of_nat s - 1)%Z with (Z.of_nat (nq + List.length gap)) in * by lia.
    destruct first as [f|].
    + apply Hdown; [lia|intros i Hi C; lia|]. apply H. left. reflexivity.
    + assert (H' : runs Skeinforge Backward ls (Some (Z.of_nat (nq + List.length gap))) (pos hi) out) by (apply H; right; auto).
      destruct (List.length gap) as [|g] eqn:Eg.
      * rewrite Nat.add_0_r in *. eapply runs_on; [|exact H']. intros m.
        apply (scan_reset Backward ls None nq u (pos hi) m Nu eq_refl Hu Hr).
      * destruct (Ng g) as (l & E & Ex & Eo); [lia|].
        eapply runs_on; [|apply (Hdown g (Z.of_nat (nq + S g)) ltac:(lia)); [intros i Hi; lia|exact H']].
        intros m. replace (Z.of_nat (nq + g)) with (Z.of_nat (nq + S g) + increment Backward)%Z by (cbn [increment]; lia).
        apply (scan_still _ Backward ls None _ l m E); [reflexivity|rewrite Eo; reflexivity|exact Ex].
Qed.

Lemma skein_behind : forall i, i <= n -> (i = 0 \/ lo <= i) ->
  chain Skeinforge Backward ls (new_iter (pos i - 1)) (moves (rev (turn i (removelast full)))).
Proof.
  intros i Hi Hp. unfold new_iter. pose proof ms_pos as Hmp. pose proof full_length as Lf.
  assert (Et : rev (turn i (removelast full)) = map P (rev (seq 0 i)) ++ map P (rev (seq i (n - i)))).
  { rewrite !map_rev. unfold turn, P. rewrite !map_nth_seq by (rewrite Lf; lia). cbn [skipn]. rewrite rev_app_distr.
    assert (Er : removelast full = firstn n full) by (rewrite removelast_firstn_len, Lf; reflexivity).
    rewrite Er. f_equal; f_equal.
    - rewrite firstn_firstn. f_equal. lia.
    - rewrite skipn_firstn_comm. reflexivity. }
  rewrite Et, moves_app. clear Et.
  assert (Hhi : 1 <= hi /\ n = S hi) by (unfold hi, n; lia). destruct Hhi as [Hh1 Hh2].
  assert (E0 : moves [P 0] = [a]) by (apply moves_one; exact Hxa).
  destruct Hp as [->|Hp].
  - cbn [seq rev map moves filter app]. fold (moves (map P (rev (seq 0 (n - 0))))). rewrite Nat.sub_0_r.
    replace (pos 0 - 1)%Z with (Z.of_nat s - 1)%Z by (unfold pos; lia).
    assert (Es : moves (map P (rev (seq 0 n))) = moves (map P (rev (seq 1 hi))) ++ [a]).
    { rewrite Hh2. cbn [seq rev]. rewrite map_app, moves_app. cbn [map]. rewrite E0. reflexivity. }
    rewrite Es. apply behind_wrap; [exact I|]. intros first' Hf'.
    replace hi with (1 + hi - 1) at 1 by lia. apply behind_some; [lia|lia| |].
    + intros j Hj. destruct Hf' as [->|[_ ->]]; [reflexivity|]. cbn [is_first]. apply Z.eqb_neq. unfold pos. lia.
    + intros f2 Hf2. cbn [Nat.sub]. apply behind_first; [|constructor].
      destruct Hf2 as [->|[_ (j & Hj & ->)]].
      * destruct Hf' as [->|[_ ->]]; [reflexivity|]. cbn [is_first]. apply Z.eqb_neq. unfold pos. lia.
      * cbn [is_first]. apply Z.eqb_neq. unfold pos. lia.
  - assert (Hlo : 2 <= lo) by (unfold lo; lia).
    apply runs_chain with (j := pos (1 + (i - 1) - 1)).
    { left. split; [unfold wraps; f_equal; apply Z.ltb_ge; unfold pos; lia|]. unfold pos. lia. }
    assert (Es : moves (map P (rev (seq 0 i))) = moves (map P (rev (seq 1 (i - 1)))) ++ [a]).
    { replace i with (S (i - 1)) at 1 by lia. cbn [seq rev]. rewrite map_app, moves_app. cbn [map]. rewrite E0. reflexivity. }
    rewrite Es, <- app_assoc. apply behind_some; [lia|lia|reflexivity|].
    intros f1 Hf1. cbn [Nat.sub app].
    assert (Ef1 : f1 = None \/ exists j, 1 <= j < i /\ f1 = Some (pos j)).
    { destruct Hf1 as [->|[_ (j & Hj & ->)]]; [left; reflexivity|]. right. exists j. split; [lia|reflexivity]. }
    apply behind_first.
    { destruct Ef1 as [->|(j & Hj & ->)]; [reflexivity|]. cbn [is_first]. apply Z.eqb_neq. unfold pos. lia. }
    assert (Ef2 : exists j, j < i /\ first_at f1 (pos 0) = Some (pos j)).
    { destruct Ef1 as [->|(j & Hj & ->)]; [exists 0|exists j]; (split; [lia|reflexivity]). }
    destruct Ef2 as (j & Hj & ->). apply behind_wrap; [unfold pos; lia|].
    intros f3 [->|[C _]]; [|discriminate C].
    pose proof (behind_some (n - i) i (Some (pos j)) []) as H. rewrite app_nil_r in H.
    replace (i + (n - i) - 1) with hi in H by (unfold hi; lia). apply H; [lia|lia| |intros; exact I].
    intros j' Hj'. cbn [is_first]. apply Z.eqb_neq. unfold pos. lia.
Qed.
End Ring.
End Iter.

(** ** The lines the iterators see *)

Local Open Scope R_scope.

Lemma passed_still : forall o w seen m1 bs j (mj bj : line RA), passed_lines o w seen m1 bs -> nth_error m1 j = Some mj ->
  nth_error bs j = Some bj -> unmoving mj -> raw bj = raw mj /\ xy_move bj = false.
Proof.
  intros o w seen m1 bs j mj bj [_ H] Hm Hb [Hx Hs]. destruct (H j mj Hm) as (b' & B1 & B2). assert (b' = bj) by congruence. subst b'.
  destruct (to_stretch _ _ _); [subst bj; auto|]. split; [apply (reparse_raw _ _ B2)|]. apply Hs. exact B2.
Qed.

Lemma passed_raw_nth : forall o w seen m1 bs j (bj : line RA), passed_lines o w seen m1 bs ->
  nth_error bs j = Some bj -> exists mj, nth_error m1 j = Some mj /\ raw bj = raw mj.
Proof.
  intros o w seen m1 bs j bj [L H] Hb. destruct (nth_error m1 j) as [mj|] eqn:E.
  - exists mj. split; [reflexivity|]. destruct (H j mj E) as (b' & B1 & B2). assert (b' = bj) by congruence. subst b'.
    destruct (to_stretch _ _ _); [subst bj; auto|]. apply (reparse_raw _ _ B2).
  - apply nth_error_None in E. assert (j < List.length bs)%nat by (apply nth_error_Some; congruence). lia.
Qed.

Lemma loop_of_unmarked : forall ls seen, Forall unmarked ls -> loop_of (map raw (rev ls ++ seen)) = loop_of (map raw seen).
Proof.
  intros ls seen H. assert (Hr : Forall unmarked (rev ls)).
  { apply Forall_forall. intros x Hx. apply (proj1 (Forall_forall _ _) H). apply in_rev. exact Hx. }
  induction Hr as [|l t (H1 & H2 & _) Hr IH]; cbn [app map]; [reflexivity|]. rewrite loop_of_quiet by assumption. exact IH.
Qed.

(** the start of the layer as the iterators see it *)
Definition starts_well (B : list (line RA)) : Prop :=
  (List.length B <= 1)%nat \/ exists q u gap, B = q ++ u :: gap /\ has off_marker u = true /\
    Forall (fun l => xy_move l = false /\ has off_marker l = false) gap.

Lemma skein_seen : forall o w before k pre body z b m r cs,
  skein_loop k before pre body z -> n_ltb (a:=RA) n0 (limit o w (Some k)) = true ->
  body = b ++ m :: r -> xy_move m = true -> passed_lines o w (rev before) (pre ++ b) cs ->
  exists B bs, cs = B ++ bs /\ List.length B = List.length pre /\ Forall2 kept_line b bs /\ starts_well B /\
    let seen := rev (before ++ pre ++ b) in
    loop_of (map raw (m :: seen)) = Some k /\ to_stretch o w (m :: seen) = true.
Proof.
  intros o w before k pre body z b m r cs (a & rest & on & ms & Ebody & Hloop & Hun & Hxa & Hst & Hon & Hmson & Hne & Hxl & Hms & Hz & Hpre) Hm Eb Hxm Hp.
  pose proof Hp as [C1 C2].
  assert (L : List.length cs = (List.length pre + List.length b)%nat) by (rewrite C1, app_length; reflexivity).
  assert (Hlo : forall b1 x r1, body = b1 ++ x :: r1 -> loop_of (map raw (rev (before ++ pre ++ b1 ++ [x]))) = Some k).
  { intros b1 x r1 E. replace (before ++ pre ++ b1 ++ [x]) with ((before ++ pre) ++ b1 ++ [x]) by (rewrite <- app_assoc; reflexivity).
    rewrite rev_app_distr. rewrite loop_of_unmarked; [exact Hloop|]. rewrite E in Hun. apply Forall_app in Hun as [U1 U2]. inversion U2; subst.
    apply Forall_app. split; [exact U1|]. constructor; [assumption|constructor]. }
  assert (Hto : forall b1 x r1, body = b1 ++ x :: r1 -> to_stretch o w (rev (before ++ pre ++ b1 ++ [x])) = xy_move x).
  { intros b1 x r1 E. pose proof (Hlo _ _ _ E) as El. unfold to_stretch. rewrite El, Hm, andb_true_r.
    rewrite !rev_app_distr in *. cbn [rev app] in *. unfold loop_move. rewrite El. apply andb_true_r. }
  exists (firstn (List.length pre) cs), (skipn (List.length pre) cs).
  split; [symmetry; apply firstn_skipn|]. split; [apply firstn_length_le; lia|].
  split; [|split].
  - (* the lines of the loop *)
    assert (Hj : forall j mj, nth_error b j = Some mj -> exists bj, nth_error (skipn (List.length pre) cs) j = Some bj /\ kept_line mj bj).
    { intros j mj Hj. destruct (C2 (List.length pre + j)%nat mj) as (bj & B1 & B2).
      { rewrite nth_error_app2 by lia. rewrite <- Hj. f_equal. lia. }
      exists bj. split; [rewrite nth_skipn; exact B1|].
      assert (Hsplit : exists b1 b2, b = b1 ++ mj :: b2 /\ List.length b1 = j) by (apply nth_error_split; exact Hj).
      destruct Hsplit as (b1 & b2 & -> & <-).
      assert (Ef : firstn (S (List.length pre + List.length b1)) (pre ++ b1 ++ mj :: b2) = pre ++ b1 ++ [mj]).
      { rewrite firstn_app, firstn_all2 by lia. f_equal. replace (S (List.length pre + List.length b1) - List.length pre)%nat with (S (List.length b1)) by lia.
        apply firstn_split_S. }
      rewrite Ef, <- rev_app_distr in B2.
      assert (Eb' : body = b1 ++ mj :: b2 ++ m :: r) by (rewrite Eb, <- app_assoc; reflexivity).
      rewrite (Hto b1 mj _ Eb') in B2. unfold kept_line. destruct (xy_move mj) eqn:Ex.
      - subst bj. auto.
      - split; [apply (reparse_raw _ _ B2)|].
        assert (Hin : In mj body) by (rewrite Eb'; apply in_or_app; right; left; reflexivity).
        assert (Hs : unmoving mj).
        { rewrite Ebody in Hin. destruct Hin as [<-|Hin]; [congruence|].
          change (rest ++ on :: ms) with (rest ++ [on] ++ ms) in Hin. rewrite app_assoc in Hin.
          apply in_app_or in Hin as [Hin|Hin]; [apply (proj1 (Forall_forall _ _) Hst _ Hin)|apply (proj1 (Forall_forall _ _) Hms _ Hin Ex)]. }
        apply (proj2 Hs). exact B2. }
    assert (Ls : List.length (skipn (List.length pre) cs) = List.length b) by (rewrite skipn_length; lia).
    revert Hj Ls. generalize (skipn (List.length pre) cs). clear. induction b as [|x b IH]; intros [|c cs] Hj Ls; try discriminate Ls; constructor.
    + destruct (Hj 0%nat x eq_refl) as (bj & B1 & B2). cbn in B1. inversion B1; subst. exact B2.
    + apply IH; [|cbn in Ls; congruence]. intros j mj H. apply (Hj (S j) mj H).
  - unfold starts_well. destruct Hpre as [Hs|(q & u & gap & Eq & Hu & Hg)]; [left; rewrite firstn_length; lia|]. right.
    set (B := firstn (List.length pre) cs).
    assert (LB : List.length B = (List.length q + S (List.length gap))%nat).
    { unfold B. rewrite firstn_length_le by lia. rewrite Eq, app_length. reflexivity. }
    assert (HB : forall j x, nth_error B j = Some x -> nth_error cs j = Some x) by (intros j x Hx; apply (nth_firstn _ _ _ _ _ Hx)).
    destruct (nth_error B (List.length q)) as [u'|] eqn:Eu; [|apply nth_error_None in Eu; lia].
    destruct (nth_error_split _ _ Eu) as (q' & gap' & EB & Lq).
    exists q', u', gap'. split; [exact EB|].
    assert (Np : forall j, nth_error (pre ++ b) (List.length q + j) = nth_error (u :: gap ++ b) j).
    { intros j. rewrite Eq, <- app_assoc. rewrite nth_error_app2 by lia. cbn [app]. f_equal. lia. }
    split.
    + destruct (passed_raw_nth _ _ _ _ _ _ _ Hp (HB _ _ Eu)) as (mj & M1 & M2).
      rewrite <- (Nat.add_0_r (List.length q)), Np in M1. cbn in M1. assert (mj = u) by congruence. subst mj. unfold has. rewrite M2. exact Hu.
    + apply Forall_forall. intros x Hx. apply In_nth_error in Hx as [j Hj].
      assert (Hlt : (j < List.length gap)%nat).
      { assert (j < List.length gap')%nat by (apply nth_error_Some; congruence). apply (f_equal (@List.length _)) in EB. rewrite app_length in EB. cbn [List.length] in EB. lia. }
      assert (Nx : nth_error B (List.length q + S j) = Some x).
      { rewrite EB, nth_error_app2 by lia. replace (List.length q + S j - List.length q')%nat with (S j) by lia. exact Hj. }
      destruct (nth_error gap j) as [g|] eqn:Eg; [|apply nth_error_None in Eg; lia].
      assert (Ng : nth_error (pre ++ b) (List.length q + S j) = Some g).
      { rewrite Np. cbn [nth_error]. rewrite nth_error_app1 by lia. exact Eg. }
      destruct (proj1 (Forall_forall _ _) Hg g) as [G1 G2]; [eapply nth_error_In, Eg|].
      destruct (passed_still _ _ _ _ _ _ _ _ Hp Ng (HB _ _ Nx) G1) as [R1 R2]. split; [exact R2|].
      unfold has. rewrite R1. exact G2.
  - cbv zeta.
    assert (Es : m :: rev (before ++ pre ++ b) = rev (before ++ pre ++ b ++ [m])).
    { replace (before ++ pre ++ b ++ [m]) with ((before ++ pre ++ b) ++ [m]) by (rewrite <- !app_assoc; reflexivity). rewrite (rev_app_distr _ [m]). reflexivity. }
    rewrite Es. split; [apply (Hlo b m r Eb)|]. rewrite (Hto b m r Eb). exact Hxm.
Qed.

(** the way round the loop *)
Lemma skein_round : forall k before pre body z post b bs m r B ps,
  skein_loop k before pre body z -> body = b ++ m :: r -> xy_move m = true ->
  Forall2 kept_line b bs -> starts_well B -> Forall2 move_to (filter xy_move body) ps ->
  let ls := B ++ (bs ++ m :: r) ++ z :: post in
  let i := Z.of_nat (List.length (B ++ bs)) in
  let j := List.length (filter xy_move b) in
  exists am bm, chain Skeinforge Forward ls (new_iter (i + 1)) am /\ Forall2 move_to am (ahead Skeinforge j ps) /\
    chain Skeinforge Backward ls (new_iter (i - 1)) bm /\ Forall2 move_to bm (behind Skeinforge j ps).
Proof.
  intros k before pre body z post b bs m r B ps (a & rest & on & ms & Ebody & Hloop & Hun & Hxa & Hst & Hon & Hmson & Hne & Hxl & Hms & Hz & Hpre) Eb Hxm Hk HB Hps ls i j.
  assert (Hkall : Forall2 kept_line body (bs ++ m :: r)) by (rewrite Eb; apply Forall2_app; [exact Hk|apply kept_refl]).
  pose proof (kept_moves _ _ Hkall) as Hmv.
  assert (Hraw : forall l2, In l2 (bs ++ m :: r) -> exists l1, In l1 body /\ raw l2 = raw l1).
  { clear - Hkall. induction Hkall as [|l1 l2 t1 t2 [Hl _] Hk IH]; [intros l3 []|]; intros l3 [<-|Hin]; [exists l1; split; [left; reflexivity|exact Hl]|].
    destruct (IH l3 Hin) as (l4 & H1 & H2). exists l4. split; [right; exact H1|exact H2]. }
  assert (Hoff : Forall (fun l => has off_marker l = false) (bs ++ m :: r)).
  { apply Forall_forall. intros l2 Hin. destruct (Hraw l2 Hin) as (l1 & I1 & I2). unfold has. rewrite I2.
    apply (proj1 (Forall_forall _ _) Hun l1 I1). }
  (* its shape *)
  assert (Hshape : exists rest' on' ms', bs ++ m :: r = a :: rest' ++ on' :: ms' /\ Forall2 kept_line rest rest' /\ kept_line on on' /\ Forall2 kept_line ms ms').
  { rewrite Ebody in Hkall. inversion Hkall as [|x1 y1 l1 l2 Hka Hkr E1 E2]; subst.
    assert (Ea : y1 = a). { destruct Hka as [_ Hka]. rewrite Hxa in Hka. exact Hka. } subst y1.
    apply Forall2_app_inv_l in Hkr as (rest' & t' & K1 & K2 & ->). inversion K2 as [|x2 on' t1 ms' Hko Hkm E1' E3]; subst.
    exists rest', on', ms'. repeat split; try assumption; apply Hko. }
  destruct Hshape as (rest' & on' & ms' & Efull & Kr & Ko & Km).
  assert (Hst' : Forall (fun l => xy_move l = false) (rest' ++ [on'])).
  { assert (K : Forall2 kept_line (rest ++ [on]) (rest' ++ [on'])) by (apply Forall2_app; [exact Kr|constructor; [exact Ko|constructor]]).
    clear - K Hst. induction K as [|l1 l2 t1 t2 [_ Hl] K IH]; [constructor|]. inversion Hst as [|x xs [Hx _] Hxs]; subst. rewrite Hx in Hl. constructor; [exact Hl|apply IH; exact Hxs]. }
  assert (Hon' : has on_marker on' = true) by (unfold has; rewrite (proj1 Ko); exact Hon).
  assert (Hms' : Forall (fun l => has on_marker l = false) ms').
  { clear - Km Hmson. induction Km as [|l1 l2 t1 t2 [Hr _] K IH]; [constructor|]. inversion Hmson; subst. constructor; [unfold has; rewrite Hr; assumption|apply IH; assumption]. }
  assert (Hne' : ms' <> []) by (intros ->; inversion Km; subst; congruence).
  set (full := bs ++ m :: r) in *.
  set (n := (List.length rest' + S (List.length ms'))%nat).
  assert (Lf : List.length full = S n) by (rewrite Efull; cbn [List.length]; rewrite app_length; reflexivity).
  assert (Hi : (List.length bs <= n)%nat).
  { unfold full in Lf. rewrite app_length in Lf. cbn [List.length] in Lf. lia. }
  assert (Hp : List.length bs = 0%nat \/ (2 + List.length rest' <= List.length bs)%nat).
  { destruct (Nat.le_gt_cases (2 + List.length rest') (List.length bs)) as [C|C]; [right; exact C|].
    destruct (List.length bs) as [|q] eqn:Eq; [left; reflexivity|]. exfalso.
    assert (Nm : nth_error full (S q) = Some m) by (unfold full; rewrite <- Eq, nth_error_app2, Nat.sub_diag by lia; reflexivity).
    rewrite Efull in Nm. cbn [nth_error] in Nm. change (rest' ++ on' :: ms') with (rest' ++ [on'] ++ ms') in Nm. rewrite app_assoc in Nm.
    rewrite nth_error_app1 in Nm by (rewrite app_length; cbn; lia). apply nth_error_In in Nm.
    rewrite (proj1 (Forall_forall _ _) Hst' m Nm) in Hxm. discriminate Hxm. }
  assert (Hxl' : xy_move (last full m) = true).
  { assert (E : last body a = last ms a).
    { rewrite Ebody. change (a :: rest ++ on :: ms) with ((a :: rest) ++ [on] ++ ms). rewrite app_assoc.
      destruct (@exists_last _ ms Hne) as (t & x & ->). rewrite app_assoc, !last_last. reflexivity. }
    assert (Hb : xy_move (last body a) = true) by (rewrite E; exact Hxl).
    assert (Hn : body <> []) by (rewrite Ebody; discriminate).
    clear - Hb Hkall Hn. revert Hb. induction Hkall as [|l1 l2 t1 t2 [_ Hl] K IH]; [congruence|]. intros Hb.
    destruct K as [|l3 l4 t3 t4 K1 K]; [|apply IH; [discriminate|exact Hb]]. cbn [last] in *. rewrite Hb in Hl. congruence. }
  assert (Hpre' : (List.length B <= 1)%nat \/ exists q u gap, B = q ++ u :: gap /\ has off_marker u = true /\
    Forall (fun l => xy_move l = false /\ has off_marker l = false) gap) by exact HB.
  rewrite Efull in Hoff.
  pose proof (skein_ahead B a rest' on' ms' z post Hoff Hst' Hon' Hms' Hne' Hz (List.length bs) Hi Hp) as SA.
  pose proof (skein_behind B a rest' on' ms' z post Hoff Hxa Hst' Hms' Hne' Hz Hpre' (List.length bs) Hi Hp) as SB.
  cbv beta in SA, SB. rewrite <- Efull in SA, SB.
  replace (Z.of_nat (List.length B + List.length bs)) with i in SA, SB by (unfold i; rewrite app_length; reflexivity).
  destruct (ahead_moves bs m r a (rest' ++ on' :: ms') Hxm Hxa Efull) as [A1 _].
  destruct (behind_moves bs m r full eq_refl Hxl') as [_ B2].
  assert (Hj : List.length (moves bs) = j) by (unfold j; rewrite (kept_moves _ _ Hk); reflexivity).
  rewrite Hj in A1, B2. rewrite <- Efull in A1. rewrite Hmv in A1, B2.
  eexists _, _. split; [exact SA|]. split.
  { rewrite Efull. cbn [tl]. rewrite A1. unfold ahead. apply Forall2_turn, Forall2_tl. exact Hps. }
  split; [exact SB|]. rewrite B2. unfold behind. apply Forall2_rev, Forall2_turn, Forall2_removelast. exact Hps.
Qed.

(** ** One point *)

Lemma reaches_ex : forall far p qs, 0 < far -> far <= path_length p qs -> exists f, reaches far p qs f.
Proof.
  intros far p qs Hf Hl. destruct (pull_ex far p qs Hf) as [u U]. inversion U; subst; [eauto|lra].
Qed.

Lemma absolute_far : forall fuel d (o : options (A:=RA)) (we : R) (ls : list (line RA)) i old (max : R) (p : point) am aps bm bps move pr,
  0 < we -> 0 < o_cross o -> 0 < o_from o ->
  chain d Forward ls (new_iter (i + 1)) am -> Forall2 move_to am aps ->
  chain d Backward ls (new_iter (i - 1)) bm -> Forall2 move_to bm bps ->
  o_from o * we <= path_length p aps -> o_from o * we <= path_length p bps ->
  absolute_stretch (A:=RA) fuel d (edge_lengths o we) ls i (Some old) max p = Ok (move, pr) ->
  exists u v, pull (o_from o * we) p aps u /\ pull (o_from o * we) p bps v /\
    move = times max (displaced (we * o_cross o) p aps bps u v).
Proof.
  intros fuel d o we ls i old max p am aps bm bps move pr Hw Hc Hf Ya Pa Yb Pb La Lb H.
  assert (Hfw : 0 < o_from o * we) by (cbn [num RA] in *; nra).
  destruct (reaches_ex _ _ _ Hfw La) as [f F]. destruct (reaches_ex _ _ _ Hfw Lb) as [k K].
  eexists _, _. split; [apply pull_reached; exact F|]. split; [apply pull_reached; exact K|].
  destruct aps as [|r aps]; [inversion F|]. destruct bps as [|q bps]; [inversion K|].
  rewrite (absolute_bend _ _ _ _ _ _ _ _ _ _ _ _ _ r q f k _ _ Hw Hc Hf (chain_yields _ _ _ _ _ _ Ya) Pa (chain_yields _ _ _ _ _ _ Yb) Pb eq_refl eq_refl F K H).
  unfold bend, displaced, held. do 4 f_equal. destruct p, f, k. unfold times, plus, minus. cbn [fst snd]. f_equal; field; cbn [num RA] in *; lra.
Qed.

Lemma skein_point : forall profile fuel (o : options (A:=RA)) (g g' : gcode RA) printed (w : R) ys n y y' pre body z post k b m r l' ps p,
  0 < w -> 0 < o_cross o -> 0 < o_from o ->
  stretch profile fuel Skeinforge o g = Ok (g', printed) ->
  setup_filter profile Skeinforge (g_layers g) = Ok (Some w, ys) ->
  nth_error ys n = Some y -> ly_lines y = pre ++ body ++ z :: post -> skein_loop k (lines_of (firstn n ys)) pre body z ->
  0 < limit o (Some w) (Some k) ->
  Forall2 move_to (filter xy_move body) ps ->
  body = b ++ m :: r -> move_to m p ->
  nth_error (g_layers g') n = Some y' -> nth_error (ly_lines y') (List.length pre + List.length b) = Some l' ->
  let j := List.length (filter xy_move b) in
  (exists p', move_to l' p') /\
  (o_from o * w <= path_length p (ahead Skeinforge j ps) -> o_from o * w <= path_length p (behind Skeinforge j ps) ->
   exists u v, 
    pull (o_from o * w) p (ahead Skeinforge j ps) u /\ pull (o_from o * w) p (behind Skeinforge j ps) v /\
    move_to l' (rounds (plus p (times (limit o (Some w) (Some k)) (displaced (w * o_cross o) p (ahead Skeinforge j ps) (behind Skeinforge j ps) u v))))).
Proof.
  intros profile fuel o g g' printed w ys n y y' pre body z post k b m r l' ps p Hw Hc Hf H Hset Hy Hly Hloop Hmost Hps Eb Hm Hy' Hl' j.
  assert (Hltb : n_ltb (a:=RA) n0 (limit o (Some w) (Some k)) = true).
  { apply ltb_real. replace (n0 (A:=RA)) with 0 by (symmetry; apply (val_n0 exactR)). exact Hmost. }
  unfold stretch in H. rewrite Hset in H. cbn [bind] in H.
  destruct (stretch_layers _ _ _ _) as [[ys2 p2]|e] eqn:E; cbn [bind] in H; [|discriminate H].
  apply ok_inj in H. apply (f_equal fst) in H. cbn [fst] in H. subst g'. change (nth_error ys2 n = Some y') in Hy'.
  destruct (stretch_layers_ok _ _ _ _ _ _ _ _ _ (init_state o (Some w)) E) as (_ & Hk).
  destruct (Hk n) as (z1 & z' & K1 & K2 & K3). { apply nth_error_Some. rewrite Hy. discriminate. }
  assert (z1 = y) by congruence. assert (z' = y') by congruence. subst z1 z'.
  rewrite Hly, app_nil_r, Eb in K3.
  replace (pre ++ (b ++ m :: r) ++ z :: post) with ((pre ++ b) ++ m :: r ++ z :: post) in K3 by (rewrite <- !app_assoc; reflexivity).
  rewrite <- app_length in Hl'.
  destruct (fates_seen _ _ _ _ _ _ _ _ _ _ _ K3 Hl') as (cs & C1 & C2 & C3). cbn [app] in C3.
  destruct (skein_seen o (Some w) _ k pre body z b m r cs Hloop Hltb Eb (proj1 Hm) (conj C1 C2)) as (B & bs & -> & LB & Kb & HB & Hlo & Ht).
  cbv zeta in *. rewrite <- app_assoc in C3. rewrite <- rev_app_distr in C3.
  set (seen := rev (lines_of (firstn n ys) ++ pre ++ b)) in *.
  destruct C3 as [l' Hno _|we move pr old l' Hw' _ Hold Ha Hr]; [congruence|].
  assert (we = w) by congruence. subst we. rewrite Hlo in Ha.
  assert (Hp : point_of (m :: seen) = p).
  { pose proof Ht as Ht'. unfold to_stretch in Ht'. apply andb_prop in Ht' as [Hlm _]. cbn [point_of].
    destruct (point_of seen) as [a1 c1]. rewrite Hlm. destruct Hm as (_ & Bx & By). rewrite Bx, By. destruct p. reflexivity. }
  rewrite Hp in *. clear Hp Hold.
  assert (Hwords : move_to l' (rounds (plus p move))).
  { apply stretched_reads in Hr as (Hcmd & _ & Hargs); [|exact (proj1 Hm)|apply (exact_finite exactR)].
    assert (Ex : l_x l' = Some (fst (rounds (plus p move)))) by (unfold l_x; rewrite Hargs; reflexivity).
    assert (Ey : l_y l' = Some (snd (rounds (plus p move)))) by (unfold l_y; rewrite Hargs; reflexivity).
    split; [|split; assumption]. destruct Hm as (Hm & _ & _). clear - Hm Hcmd Ex. unfold xy_move, is_command in *.
    rewrite Hcmd, Ex. apply andb_prop in Hm as [Hm _]. rewrite Hm. reflexivity. }
  split; [eauto|]. intros La Lb.
  destruct (skein_round k _ pre body z post b bs m r B ps Hloop Eb (proj1 Hm) Kb HB Hps) as (am & bm & F1 & F2 & F3 & F4).
  fold j in F2, F4. rewrite <- app_assoc in F1, F3.
  destruct (absolute_far _ _ _ _ _ _ _ _ _ _ _ _ _ _ _ Hw Hc Hf F1 F2 F3 F4 La Lb Ha) as (u & v & U & V & ->).
  exists u, v. auto.
Qed.

(** ** All points *)

(** C96 *)
Lemma skein_whole : forall profile fuel (o : options (A:=RA)) (w most : R) ps ps' j p p',
  stretches_skein profile fuel o w most ps ps' -> 0 < w -> 0 < o_cross o -> 0 < o_from o ->
  nth_error ps j = Some p -> nth_error ps' j = Some p' ->
  o_from o * w <= path_length p (ahead Skeinforge j ps) -> o_from o * w <= path_length p (behind Skeinforge j ps) ->
  exists u v,
    pull (o_from o * w) p (ahead Skeinforge j ps) u /\ pull (o_from o * w) p (behind Skeinforge j ps) v /\
    p' = rounds (plus p (times most (displaced (w * o_cross o) p (ahead Skeinforge j ps) (behind Skeinforge j ps) u v))).
Proof.
  intros profile fuel o w most ps ps' j p p'
    (g & g' & printed & ys & n & y & y' & pre & body & z & post & k & H1 & H2 & H3 & H4 & H5 & H6 & H7 & H8 & H9 & H10) Hw Hc Hf Hp Hj La Lb.
  destruct (Forall2_nth _ _ _ _ _ _ _ H10 Hj) as (l' & N1 & N2).
  apply filter_combine_nth in N1 as (b & m & r & Eb & Em & El & Ej).
  apply nth_firstn in El. rewrite nth_skipn in El.
  assert (Hmj : nth_error (filter xy_move body) j = Some m).
  { rewrite Eb, filter_app. rewrite nth_error_app2 by lia. rewrite Ej, Nat.sub_diag. cbn [filter]. rewrite Em. reflexivity. }
  assert (Hm : move_to m p).
  { destruct (Forall2_nth _ _ _ _ _ _ _ H9 Hp) as (m' & M1 & M2). assert (m' = m) by congruence. subst m'. exact M2. }
  subst most. rewrite <- Ej in La, Lb.
  destruct (skein_point _ _ _ _ _ _ _ _ _ _ _ _ _ _ _ _ _ _ _ _ _ _ Hw Hc Hf H1 H2 H3 H4 H5 H7 H9 Eb Hm H8 El) as [_ W].
  destruct (W La Lb) as (u & v & U & V & M). rewrite Ej in *. exists u, v. repeat split; try assumption. apply (move_to_det _ _ _ N2 M).
Qed.

Lemma skein_length : forall profile fuel (o : options (A:=RA)) (w most : R) ps ps',
  stretches_skein profile fuel o w most ps ps' -> List.length ps' = List.length ps.
Proof.
  intros profile fuel o w most ps ps'
    (g & g' & printed & ys & n & y & y' & pre & body & z & post & k & H1 & H2 & H3 & H4 & H5 & H6 & H7 & H8 & H9 & H10).
  rewrite (Forall2_len _ _ _ _ _ H10), (Forall2_len _ _ _ _ _ H9).
  destruct (stretch_shape _ _ _ _ _ _ _ H1) as [_ Hs].
  pose proof (setup_marked _ _ _ _ _ H2) as Hm.
  assert (Hlen : map (fun y => List.length (ly_lines y)) ys = map (fun y => List.length (ly_lines y)) (g_layers g)).
  { clear - Hm. induction Hm as [|a c l1 l2 (_ & _ & Hac) Hm IH]; [reflexivity|]. cbn [map]. f_equal; [|exact IH].
    clear - Hac. induction Hac; cbn; congruence. }
  rewrite <- Hlen in Hs. apply (f_equal (fun l => nth_error l n)) in Hs. rewrite !nth_error_map, H3, H8 in Hs. cbn [option_map] in Hs.
  assert (Hy : List.length (ly_lines y') = List.length (ly_lines y)) by congruence.
  set (body' := firstn _ _). assert (Lb : List.length body' = List.length body).
  { unfold body'. apply firstn_length_le. rewrite skipn_length, Hy, H4, !app_length. cbn. lia. }
  clearbody body'. rewrite map_length. clear - Lb. revert body' Lb. induction body as [|x body IH]; intros [|x' body'] Lb; try discriminate Lb; [reflexivity|].
  cbn [combine filter fst]. cbn in Lb. destruct (xy_move x); cbn [List.length]; [f_equal|]; apply IH; congruence.
Qed.

(** *** Once round a closed loop *)

Lemma distance_sym : forall p q, distance p q = distance q p.
Proof. intros [a b] [c d]. unfold distance, size, inner, minus. cbn [fst snd]. f_equal. ring. Qed.

Lemma last_cons : forall (X : Type) (qs : list X) q p, last (q :: qs) p = last qs q.
Proof. intros X. induction qs as [|x qs IH]; intros q p; [reflexivity|]. change (last (x :: qs) p = last (x :: qs) q). rewrite !IH. reflexivity. Qed.

Lemma path_app : forall xs ys p, path_length p (xs ++ ys) = path_length p xs + path_length (last xs p) ys.
Proof.
  induction xs as [|x xs IH]; intros ys p; [cbn; ring|]. cbn [app path_length]. rewrite IH, last_cons. ring.
Qed.

Lemma path_rev : forall xs p q, path_length p (xs ++ [q]) = path_length q (rev xs ++ [p]).
Proof.
  induction xs as [|x xs IH]; intros p q.
  - cbn. rewrite distance_sym. reflexivity.
  - cbn [app path_length rev]. rewrite (IH x q). rewrite !path_app. rewrite last_last. cbn [path_length].
    rewrite (distance_sym x p). ring.
Qed.

Lemma last_app_ne : forall (X : Type) (xs ys : list X) p, ys <> [] -> last (xs ++ ys) p = last ys p.
Proof.
  intros X xs ys p H. destruct (@exists_last _ ys H) as (t & x & ->). rewrite app_assoc, !last_last. reflexivity.
Qed.

Lemma nth_last : forall (X : Type) (p : X) xs ys q, nth_error (p :: xs ++ ys) (List.length xs) = Some q -> q = last xs p.
Proof.
  intros X p xs ys q. revert p. induction xs as [|x xs IH]; intros p H; cbn [app List.length nth_error] in H; [cbn; congruence|].
  rewrite last_cons. apply IH. exact H.
Qed.

Lemma ahead_perimeter : forall ps j q, closed ps -> nth_error ps j = Some q -> path_length q (ahead Skeinforge j ps) = perimeter ps.
Proof.
  intros ps j q (p & mid & ->) Hj. unfold ahead, turn, perimeter. cbn [tl].
  assert (Hlt : (j <= List.length (mid ++ [p]))%nat).
  { assert (j < List.length (p :: mid ++ [p]))%nat by (apply nth_error_Some; congruence). cbn in *. lia. }
  set (xs := firstn j (mid ++ [p])). set (ys := skipn j (mid ++ [p])).
  assert (E : mid ++ [p] = xs ++ ys) by (symmetry; apply firstn_skipn).
  assert (Lx : List.length xs = j) by (apply firstn_length_le; exact Hlt).
  rewrite E in Hj. rewrite <- Lx in Hj. apply nth_last in Hj. rewrite E, !path_app.
  assert (Hl : last (xs ++ ys) p = p) by (rewrite <- E; apply last_last).
  destruct ys as [|y ys'] eqn:Ey.
  - rewrite app_nil_r in Hl. cbn [path_length last]. subst q. rewrite Hl. ring.
  - rewrite <- Ey in *. rewrite last_app_ne in Hl by (rewrite Ey; discriminate).
    replace (last ys q) with p; [subst q; ring|]. rewrite <- Hl. clear - Ey. destruct ys as [|y0 ys]; [discriminate Ey|].
    rewrite !last_cons. reflexivity.
Qed.

Lemma behind_perimeter : forall ps j q, closed ps -> nth_error ps j = Some q -> path_length q (behind Skeinforge j ps) = perimeter ps.
Proof.
  intros ps j q Hcl Hj. rewrite <- (ahead_perimeter ps j q Hcl Hj). destruct Hcl as (p & mid & ->).
  unfold ahead, behind, turn. cbn [tl]. change (p :: mid ++ [p]) with ((p :: mid) ++ [p]) at 1 2. rewrite removelast_last.
  assert (Hlt : (j <= S (List.length mid))%nat).
  { assert (j < List.length (p :: mid ++ [p]))%nat by (apply nth_error_Some; congruence). cbn in *. rewrite app_length in *. cbn in *. lia. }
  destruct (Nat.eq_dec j (S (List.length mid))) as [->|Hne].
  - assert (q = p). { cbn [nth_error] in Hj. rewrite nth_error_app2, Nat.sub_diag in Hj by lia. cbn in Hj. congruence. } subst q.
    rewrite skipn_all2, firstn_all2 by (cbn; lia). rewrite skipn_all2, firstn_all2 by (rewrite app_length; cbn; lia). cbn [app rev].
    symmetry. apply path_rev.
  - change (p :: mid ++ [p]) with ((p :: mid) ++ [p]) in Hj. rewrite nth_error_app1 in Hj by (cbn; lia).
    destruct (nth_error_split _ _ Hj) as (xs & ys & E & Lx). rewrite <- Lx.
    rewrite E at 1 2. rewrite skipn_app, firstn_app, skipn_all, firstn_all, Nat.sub_diag. cbn [skipn firstn app]. rewrite app_nil_r.
    cbn [rev]. rewrite <- path_rev. f_equal. destruct xs as [|x xs]; cbn [app] in E; inversion E; subst.
    + cbn [List.length skipn firstn app]. rewrite !app_nil_r. reflexivity.
    + cbn [List.length]. replace ((xs ++ q :: ys) ++ [x]) with ((xs ++ [q]) ++ ys ++ [x]) by (rewrite <- !app_assoc; reflexivity).
      assert (L : S (List.length xs) = List.length (xs ++ [q])) by (rewrite app_length; cbn; lia). rewrite L.
      rewrite skipn_app, firstn_app, skipn_all, firstn_all, Nat.sub_diag. cbn [skipn firstn app]. rewrite app_nil_r, <- !app_assoc. reflexivity.
Qed.

Lemma skein_det : forall profile1 fuel1 profile2 fuel2 (o : options (A:=RA)) (w most : R) ps ps1 ps2,
  stretches_skein profile1 fuel1 o w most ps ps1 -> stretches_skein profile2 fuel2 o w most ps ps2 ->
  0 < w -> 0 < o_cross o -> 0 < o_from o -> closed ps -> o_from o * w <= perimeter ps -> ps1 = ps2.
Proof.
  intros profile1 fuel1 profile2 fuel2 o w most ps ps1 ps2 H1 H2 Hw Hc Hf Hcl Hper.
  pose proof (skein_length _ _ _ _ _ _ _ H1) as L1. pose proof (skein_length _ _ _ _ _ _ _ H2) as L2.
  apply nth_ext_error. intros j. destruct (nth_error ps1 j) as [p1|] eqn:E1.
  - assert (Hj : (j < List.length ps1)%nat) by (apply nth_error_Some; congruence).
    destruct (nth_error ps2 j) as [p2|] eqn:E2; [|apply nth_error_None in E2; lia].
    destruct (nth_error ps j) as [q|] eqn:Eq; [|apply nth_error_None in Eq; lia].
    assert (La := ahead_perimeter ps j q Hcl Eq). assert (Lb := behind_perimeter ps j q Hcl Eq).
    destruct (skein_whole _ _ _ _ _ _ _ _ _ _ H1 Hw Hc Hf Eq E1) as (u1 & v1 & U1 & V1 & ->); [lra|lra|].
    destruct (skein_whole _ _ _ _ _ _ _ _ _ _ H2 Hw Hc Hf Eq E2) as (u2 & v2 & U2 & V2 & ->); [lra|lra|].
    rewrite (pull_det _ _ _ _ _ U1 U2), (pull_det _ _ _ _ _ V1 V2). reflexivity.
  - apply nth_error_None in E1. symmetry. apply nth_error_None. lia.
Qed.

Lemma skein_closed : forall profile fuel (o : options (A:=RA)) (w most : R) ps ps',
  stretches_skein profile fuel o w most ps ps' -> 0 < w -> 0 < o_cross o -> 0 < o_from o ->
  closed ps -> o_from o * w <= perimeter ps -> closed ps'.
Proof.
  intros profile fuel o w most ps ps' H Hw Hc Hf Hcl Hper. pose proof Hcl as (p & mid & Ep).
  pose proof (skein_length _ _ _ _ _ _ _ H) as L. set (n := S (List.length mid)).
  assert (Lp : List.length ps = S n) by (rewrite Ep; cbn; rewrite app_length; cbn; unfold n; lia).
  assert (Hlt : forall j, (j <= n)%nat -> exists p', nth_error ps' j = Some p').
  { intros j Hj. destruct (nth_error ps' j) as [p'|] eqn:E; [eauto|]. apply nth_error_None in E. lia. }
  destruct (Hlt 0%nat) as [p0 E0]; [lia|]. destruct (Hlt n) as [pn En]; [lia|].
  assert (P1 : nth_error ps 0 = Some p) by (rewrite Ep; reflexivity).
  assert (P2 : nth_error ps n = Some p).
  { rewrite Ep. unfold n. cbn [nth_error]. rewrite nth_error_app2, Nat.sub_diag by lia. reflexivity. }
  assert (La := fun j q => ahead_perimeter ps j q Hcl). assert (Lb := fun j q => behind_perimeter ps j q Hcl).
  destruct (skein_whole _ _ _ _ _ _ _ _ _ _ H Hw Hc Hf P1 E0) as (u1 & v1 & U1 & V1 & Q1); [rewrite La by exact P1; lra|rewrite Lb by exact P1; lra|].
  destruct (skein_whole _ _ _ _ _ _ _ _ _ _ H Hw Hc Hf P2 En) as (u2 & v2 & U2 & V2 & Q2); [rewrite La by exact P2; lra|rewrite Lb by exact P2; lra|].
  assert (Ea : ahead Skeinforge n ps = ahead Skeinforge 0 ps).
  { unfold ahead, turn. rewrite Ep. cbn [tl skipn firstn]. rewrite app_nil_r.
    rewrite skipn_all2, firstn_all2 by (rewrite app_length; cbn; unfold n; lia). reflexivity. }
  assert (Eb : behind Skeinforge n ps = behind Skeinforge 0 ps).
  { unfold behind, turn. assert (Lr : List.length (removelast ps) = n).
    { rewrite Ep. change (p :: mid ++ [p]) with ((p :: mid) ++ [p]). rewrite removelast_last. reflexivity. }
    cbn [skipn firstn]. rewrite app_nil_r. rewrite skipn_all2, firstn_all2 by lia. reflexivity. }
  rewrite Ea, Eb in *. rewrite (pull_det _ _ _ _ _ U2 U1), (pull_det _ _ _ _ _ V2 V1) in Q2.
  assert (Epn : pn = p0) by congruence. rewrite Epn in En. clear Q1 Q2 Epn.
  exists p0. destruct ps' as [|x ps']; [discriminate E0|]. cbn in E0. inversion E0; subst x.
  exists (removelast ps'). f_equal.
  assert (Hne : ps' <> []) by (intros ->; cbn in L; lia).
  rewrite (app_removelast_last p0 Hne) at 1. f_equal. f_equal.
  unfold n in En. cbn [nth_error] in En. assert (Ll : List.length ps' = S (List.length mid)) by (cbn in L; unfold n in *; lia).
  clear - En Ll Hne. rewrite (app_removelast_last p0 Hne) in En.
  assert (Lr : List.length (removelast ps') = List.length mid).
  { rewrite (app_removelast_last p0 Hne), app_length in Ll. cbn in Ll. lia. }
  rewrite nth_error_app2, Lr, Nat.sub_diag in En by lia. cbn in En. congruence.
Qed.

(** ** The end of the run *)

Lemma loop_ends : forall n fuel d dir (w : lengths (A:=RA)) (ls : list (line RA)) old (loc : point) ms qs (lastl : point) pt (total : R) it f,
  returns fuel d dir ls it ms -> Forall2 move_to ms qs -> reaches (w_from w - total) lastl qs f -> (List.length ms < n)%nat ->
  relative_loop (A:=RA) n fuel d dir w ls (Some old) loc lastl pt total total it <> Err OutOfFuel.
Proof.
  induction n as [|n IH]; intros fuel d dir w ls old loc ms qs lastl pt total it f Hy Hp Hr Hn; [lia|].
  cbn [relative_loop].
  destruct Hp as [|l q ms qs Hl Hp]; [inversion Hr|]. cbn [returns] in Hy.
  destruct Hy as (it1 & En & Hy1). rewrite En. cbn [bind]. rewrite (move_location _ _ _ Hl).
  rewrite c_sub_minus, c_abs_size. change (size (minus lastl q)) with (distance lastl q).
  change (n_add (a:=RA) total (distance lastl q)) with (total + distance lastl q).
  destruct (n_leb (a:=RA) (w_from w) (total + distance lastl q)) eqn:El.
  - destruct (py_div _ _) as [ratio|e] eqn:Ed; cbn [bind].
    + destruct (c_div _ _) as [r1|e] eqn:Ec; cbn [bind]; [discriminate|]. intros C. assert (e = OutOfFuel) by congruence. subst e.
      unfold c_div in Ec. destruct (n_eqb _ _); discriminate Ec.
    + intros C. assert (e = OutOfFuel) by congruence. subst e. unfold py_div in Ed. destruct (n_eqb _ _); discriminate Ed.
  - apply leb_false in El. inversion Hr as [s p q' qs' Hle E1 E2 E3|s p q' qs' r' Hlt Hr' E1 E2 E3]; subst.
    + exfalso. cbn [num RA] in *. lra.
    + apply (IH _ _ _ _ _ _ _ ms qs q q (total + distance lastl q) it1 f Hy1 Hp); [|cbn in Hn; lia].
      replace (w_from w - (total + distance lastl q)) with (w_from w - total - distance lastl q) by (cbn [num RA]; ring). exact Hr'.
Qed.

Lemma c_div_fuel : forall (a : point) (k : R), c_div (A:=RA) a k <> Err OutOfFuel.
Proof. intros a k H. unfold c_div in H. destruct (n_eqb _ _); discriminate H. Qed.

Lemma cross_ends : forall fuel d (w : lengths (A:=RA)) (ls : list (line RA)) old v dir start p l t,
  returns fuel d dir ls (new_iter start) (l :: t) -> cross_limited (A:=RA) fuel d w ls old v dir start p <> Err OutOfFuel.
Proof.
  intros fuel d w ls old v dir start p l t (it1 & En & _) H. unfold cross_limited in H. rewrite En in H. cbn [bind] in H.
  destruct (n_leb _ _); [discriminate H|].
  destruct (c_div _ _) as [u|e] eqn:Ed; cbn [bind] in H; [|assert (e = OutOfFuel) by congruence; subst e; exact (c_div_fuel _ _ Ed)].
  destruct (n_ltb _ _); [discriminate H|].
  destruct (py_div _ _) as [k|e] eqn:Ep; cbn [bind] in H; [discriminate H|]. assert (e = OutOfFuel) by congruence. subst e.
  unfold py_div in Ep. destruct (n_eqb _ _); discriminate Ep.
Qed.

Lemma absolute_far_ends : forall d (o : options (A:=RA)) (we : R) (ls : list (line RA)) i (p : point) am aps bm bps,
  0 < we -> 0 < o_from o ->
  chain d Forward ls (new_iter (i + 1)) am -> Forall2 move_to am aps ->
  chain d Backward ls (new_iter (i - 1)) bm -> Forall2 move_to bm bps ->
  o_from o * we <= path_length p aps -> o_from o * we <= path_length p bps ->
  exists N, forall fuel old max, (N <= fuel)%nat ->
    absolute_stretch (A:=RA) fuel d (edge_lengths o we) ls i (Some old) max p <> Err OutOfFuel.
Proof.
  intros d o we ls i p am aps bm bps Hw Hf Ya Pa Yb Pb La Lb.
  assert (Hfw : 0 < o_from o * we) by (cbn [num RA] in *; nra).
  destruct (reaches_ex _ _ _ Hfw La) as [f F]. destruct (reaches_ex _ _ _ Hfw Lb) as [k K].
  destruct (chain_returns _ _ _ _ _ Ya) as [c1 C1]. destruct (chain_returns _ _ _ _ _ Yb) as [c2 C2].
  exists (S (c1 + c2 + List.length am + List.length bm)). intros fuel old max Hfuel H.
  specialize (C1 fuel ltac:(lia)). specialize (C2 fuel ltac:(lia)).
  unfold absolute_stretch, relative_stretch in H.
  set (w := edge_lengths o we) in *. assert (E1 : w_from w = o_from o * we) by reflexivity.
  assert (En0 : n0 (A:=RA) = 0) by (apply (val_n0 exactR)). rewrite En0 in H.
  assert (E0 : o_from o * we = w_from w - 0) by (rewrite E1; cbn [num RA]; ring). rewrite E0 in F, K.
  destruct (relative_loop _ _ _ Forward _ _ _ _ _ _ _ _ _) as [[r1 p1]|e] eqn:R1; cbn [bind] in H.
  2:{ assert (e = OutOfFuel) by congruence. subst e. revert R1. apply (loop_ends _ _ _ _ _ _ _ _ _ _ _ _ _ _ f C1 Pa F). lia. }
  destruct (relative_loop _ _ _ Backward _ _ _ _ _ _ _ _ _) as [[r2 p2]|e] eqn:R2; cbn [bind] in H.
  2:{ assert (e = OutOfFuel) by congruence. subst e. revert R2. apply (loop_ends _ _ _ _ _ _ _ _ _ _ _ _ _ _ k C2 Pb K). lia. }
  destruct Pa as [|la r' am aps Hla Pa]; [inversion F|]. destruct Pb as [|lb q' bm bps Hlb Pb]; [inversion K|].
  destruct (cross_limited _ _ _ _ _ _ Forward _ _) as [[r3 p3]|e] eqn:X1; cbn [bind] in H.
  2:{ assert (e = OutOfFuel) by congruence. subst e. exact (cross_ends _ _ _ _ _ _ _ _ _ _ _ C1 X1). }
  destruct (cross_limited _ _ _ _ _ _ Backward _ _) as [[r4 p4]|e] eqn:X2; cbn [bind] in H.
  2:{ assert (e = OutOfFuel) by congruence. subst e. exact (cross_ends _ _ _ _ _ _ _ _ _ _ _ C2 X2). }
  match type of H with context [bind ?X _] => destruct X as [r5|e] eqn:X3; cbn [bind] in H; [discriminate H|] end.
  destruct (n_ltb _ _); [|discriminate X3]. assert (e = OutOfFuel) by congruence. subst e. exact (c_div_fuel _ _ X3).
Qed.

(** the lines the iterators see are determined, if they exist *)
Lemma passed_det : forall o w seen (m1 : list (line RA)) a b, passed_lines o w seen m1 a -> passed_lines o w seen m1 b -> a = b.
Proof.
  intros o w seen m1 a b [La Ha] [Lb Hb]. apply nth_ext_error. intros j. destruct (nth_error m1 j) as [m|] eqn:E.
  - destruct (Ha j m E) as (x & X1 & X2). destruct (Hb j m E) as (y & Y1 & Y2). rewrite X1, Y1. destruct (to_stretch _ _ _); congruence.
  - apply nth_error_None in E. rewrite !(proj2 (nth_error_None _ _)) by lia. reflexivity.
Qed.

Lemma passed_dec : forall o w seen (m1 : list (line RA)), (exists a, passed_lines o w seen m1 a) \/ ~ (exists a, passed_lines o w seen m1 a).
Proof.
  intros o w seen m1. induction m1 as [|m m1 IH] using rev_ind.
  { left. exists []. split; [reflexivity|]. intros [|j] mj Hj; discriminate Hj. }
  assert (Hcut : forall j, (j < List.length m1)%nat -> firstn (S j) (m1 ++ [m]) = firstn (S j) m1).
  { intros j Hj. rewrite firstn_app. replace (S j - List.length m1)%nat with 0%nat by lia. cbn [firstn]. apply app_nil_r. }
  assert (Hlast : firstn (S (List.length m1)) (m1 ++ [m]) = m1 ++ [m]) by (apply firstn_all2; rewrite app_length; cbn; lia).
  destruct IH as [[a [La Ha]]|No].
  - assert (Hext : forall c, (if to_stretch o w (rev (m1 ++ [m]) ++ seen) then c = m else reparse m = Ok c) -> passed_lines o w seen (m1 ++ [m]) (a ++ [c])).
    { intros c Hcc. split; [rewrite !app_length; cbn; lia|]. intros j mj Hj. destruct (Nat.lt_ge_cases j (List.length m1)) as [C|C].
      - rewrite nth_error_app1 in Hj by lia. destruct (Ha j mj Hj) as (bj & B1 & B2). exists bj. rewrite nth_error_app1 by lia.
        rewrite Hcut by lia. auto.
      - assert (Hlt : (j < List.length (m1 ++ [m]))%nat) by (apply nth_error_Some; congruence). rewrite app_length in Hlt. cbn in Hlt.
        assert (j = List.length m1) by lia. subst j. rewrite nth_error_app2, Nat.sub_diag in Hj by lia. cbn in Hj. inversion Hj; subst mj.
        exists c. rewrite nth_error_app2, La, Nat.sub_diag by lia. rewrite Hlast. auto. }
    destruct (to_stretch o w (rev (m1 ++ [m]) ++ seen)) eqn:Et; [left; eexists; apply Hext; reflexivity|].
    destruct (reparse m) as [c|e] eqn:Er; [left; eexists; apply Hext; reflexivity|].
    right. intros [b [_ Hb]]. destruct (Hb (List.length m1) m) as (x & _ & X2); [rewrite nth_error_app2, Nat.sub_diag by lia; reflexivity|].
    rewrite Hlast, Et in X2. congruence.
  - right. intros [b [Lb Hb]]. apply No. exists (firstn (List.length m1) b). rewrite app_length in Lb. cbn in Lb. split; [apply firstn_length_le; lia|].
    intros j mj Hj. assert (Hlt : (j < List.length m1)%nat) by (apply nth_error_Some; congruence).
    destruct (Hb j mj) as (bj & B1 & B2); [rewrite nth_error_app1 by lia; exact Hj|]. exists bj. rewrite Hcut in B2 by lia. split; [|exact B2].
    rewrite <- (firstn_skipn (List.length m1) b) in B1. rewrite nth_error_app1 in B1 by (rewrite firstn_length; lia). exact B1.
Qed.

Lemma bound_all : forall (Q : nat -> nat -> Prop) K, (forall j, (j < K)%nat -> exists N, forall f, (N <= f)%nat -> Q j f) ->
  exists N, forall j f, (j < K)%nat -> (N <= f)%nat -> Q j f.
Proof.
  intros Q. induction K as [|K IH]; intros H; [exists 0%nat; intros; lia|].
  destruct IH as [N1 H1]; [intros j Hj; apply H; lia|]. destruct (H K) as [N2 H2]; [lia|].
  exists (N1 + N2)%nat. intros j f Hj Hf. destruct (Nat.eq_dec j K) as [->|]; [apply H2; lia|apply H1; lia].
Qed.

(** C62 *)
Lemma skein_ends : forall profile (o : options (A:=RA)) (g : gcode RA) (w : R) ys,
  setup_filter profile Skeinforge (g_layers g) = Ok (Some w, ys) -> 0 < w -> 0 < o_from o ->
  all_skein o w (o_from o * w) ys ->
  exists N, forall fuel, (N <= fuel)%nat -> stretch profile fuel Skeinforge o g <> Err OutOfFuel.
Proof.
  intros profile o g w ys Hset Hw Hf Hall.
  set (Q := fun n j f => forall y m1 m t cs old, nth_error ys n = Some y -> ly_lines y = m1 ++ m :: t -> List.length m1 = j ->
    to_stretch o (Some w) (m :: rev m1 ++ rev (lines_of (firstn n ys))) = true ->
    passed_lines o (Some w) (rev (lines_of (firstn n ys))) m1 cs ->
    absolute_stretch (A:=RA) f Skeinforge (edge_lengths o w) (cs ++ m :: t) (Z.of_nat (List.length cs)) (Some old)
      (limit o (Some w) (loop_of (map raw (m :: rev m1 ++ rev (lines_of (firstn n ys))))))
      (point_of (m :: rev m1 ++ rev (lines_of (firstn n ys)))) <> Err OutOfFuel).
  assert (HQ : forall n j, exists N, forall f, (N <= f)%nat -> Q n j f).
  { intros n j. destruct (nth_error ys n) as [y|] eqn:Ey; [|exists 0%nat; intros f _ y; congruence].
    destruct (nth_error (ly_lines y) j) as [m|] eqn:Em.
    2:{ exists 0%nat. intros f _ y' m1 m t cs old E1 E2 E3. assert (y' = y) by congruence. subst y'. rewrite E2, <- E3, nth_error_app2, Nat.sub_diag in Em by lia. discriminate Em. }
    destruct (nth_error_split _ _ Em) as (m1 & t & El & Lm).
    assert (Huniq : forall m1' m' t', ly_lines y = m1' ++ m' :: t' -> List.length m1' = j -> m1' = m1 /\ m' = m /\ t' = t).
    { intros m1' m' t' E L. rewrite El in E. assert (E' : m1 = m1' /\ m :: t = m' :: t').
      { clear - E L Lm. revert m1' E L. rewrite <- Lm. clear Lm. induction m1 as [|x m1 IH]; intros [|x' m1'] E L; try discriminate L; cbn in E.
        - split; [reflexivity|exact E].
        - inversion E; subst. destruct (IH m1' H1) as [-> E2]; [cbn in L; congruence|]. auto. }
      destruct E' as [-> E2]. inversion E2; subst. auto. }
    destruct (to_stretch o (Some w) (m :: rev m1 ++ rev (lines_of (firstn n ys)))) eqn:Et.
    2:{ exists 0%nat. intros f _ y' m1' m' t' cs old E1 E2 E3 E4. assert (y' = y) by congruence. subst y'.
        destruct (Huniq _ _ _ E2 E3) as (-> & -> & ->). congruence. }
    destruct (passed_dec o (Some w) (rev (lines_of (firstn n ys))) m1) as [[cs Hcs]|No].
    2:{ exists 0%nat. intros f _ y' m1' m' t' cs old E1 E2 E3 _ E5. assert (y' = y) by congruence. subst y'.
        destruct (Huniq _ _ _ E2 E3) as (-> & -> & ->). exfalso. apply No. eauto. }
    assert (Et' : to_stretch o (Some w) (rev (lines_of (firstn n ys) ++ m1 ++ [m])) = true).
    { rewrite app_assoc, rev_app_distr, rev_app_distr. exact Et. }
    destruct (Hall n y m1 m t Ey El Et') as (pre & b & r & z & post & k & ps & E1 & E2 & Hloop & Hps & Hcl & Hper).
    assert (Hxm : xy_move m = true).
    { unfold to_stretch in Et. apply andb_prop in Et as [Et _]. unfold loop_move in Et. apply andb_prop in Et as [Et _]. exact Et. }
    subst m1.
    assert (Hltb : n_ltb (a:=RA) n0 (limit o (Some w) (Some k)) = true).
    { pose proof Et as Et2. unfold to_stretch in Et2. apply andb_prop in Et2 as [_ Et2].
      destruct Hloop as (a & rest & on & ms & Ebody & Hlo & Hun & _). 
      assert (El2 : loop_of (map raw (m :: rev (pre ++ b) ++ rev (lines_of (firstn n ys)))) = Some k).
      { rewrite <- rev_app_distr. 
        replace (m :: rev (lines_of (firstn n ys) ++ pre ++ b)) with (rev (b ++ [m]) ++ rev (lines_of (firstn n ys) ++ pre)).
        - rewrite loop_of_unmarked; [exact Hlo|]. apply Forall_app in Hun as [U1 U2]. inversion U2; subst.
          apply Forall_app. split; [exact U1|]. constructor; [assumption|constructor].
        - rewrite <- rev_app_distr. rewrite <- app_assoc, (app_assoc pre), (app_assoc _ (pre ++ b)), (rev_app_distr _ [m]). reflexivity. }
      rewrite El2 in Et2. exact Et2. }
    destruct (skein_seen o (Some w) _ k pre _ z b m r cs Hloop Hltb eq_refl Hxm Hcs) as (B & bs & Ecs & LB & Kb & HB & Hlo & _).
    cbv zeta in Hlo.
    destruct (skein_round k _ pre _ z post b bs m r B ps Hloop eq_refl Hxm Kb HB Hps) as (am & bm & F1 & F2 & F3 & F4).
    set (jj := List.length (filter xy_move b)) in *.
    (* the point *)
    assert (Hnth : nth_error (filter xy_move (b ++ m :: r)) jj = Some m).
    { rewrite filter_app. rewrite nth_error_app2 by (unfold jj; lia). unfold jj. rewrite Nat.sub_diag. cbn [filter]. rewrite Hxm. reflexivity. }
    destruct (nth_error ps jj) as [p|] eqn:Ep.
    2:{ apply nth_error_None in Ep. rewrite (Forall2_len _ _ _ _ _ Hps) in Ep. assert (jj < List.length (filter xy_move (b ++ m :: r)))%nat by (apply nth_error_Some; congruence). lia. }
    assert (Hm : move_to m p).
    { destruct (Forall2_nth _ _ _ _ _ _ _ Hps Ep) as (m' & M1 & M2). assert (m' = m) by congruence. subst m'. exact M2. }
    assert (Hp : point_of (m :: rev (pre ++ b) ++ rev (lines_of (firstn n ys))) = p).
    { pose proof Et as Ht'. unfold to_stretch in Ht'. apply andb_prop in Ht' as [Hlm _]. cbn [point_of].
      destruct (point_of (rev (pre ++ b) ++ rev (lines_of (firstn n ys)))) as [a1 c1]. rewrite Hlm. destruct Hm as (_ & Bx & By). rewrite Bx, By. destruct p. reflexivity. }
    assert (La := ahead_perimeter ps jj p Hcl Ep). assert (Lb := behind_perimeter ps jj p Hcl Ep).
    destruct (absolute_far_ends Skeinforge o w _ _ p _ _ _ _ Hw Hf F1 F2 F3 F4) as [N HN]; [lra|lra|].
    exists N. intros f HfN y' m1' m' t' cs' old E1 E3 E4 _ E6. assert (y' = y) by congruence. subst y'.
    destruct (Huniq _ _ _ E3 E4) as (-> & -> & ->). rewrite (passed_det _ _ _ _ _ _ E6 Hcs), Hp, Ecs, E2.
    rewrite <- !app_assoc in *. cbn [app] in *. apply HN. exact HfN. }
  assert (Hb : exists N, forall n f, (n < List.length ys)%nat -> (N <= f)%nat -> forall y j, nth_error ys n = Some y -> (j < List.length (ly_lines y))%nat -> Q n j f).
  { apply (bound_all (fun n f => forall y j, nth_error ys n = Some y -> (j < List.length (ly_lines y))%nat -> Q n j f)).
    intros n Hn. destruct (nth_error ys n) as [y|] eqn:Ey; [|apply nth_error_None in Ey; lia].
    destruct (bound_all (Q n) (List.length (ly_lines y))) as [N HN]; [intros j _; apply HQ|].
    exists N. intros f Hfn y' j E Hj. assert (y' = y) by congruence. subst y'. apply HN; assumption. }
  destruct Hb as [N HN]. exists N. intros fuel Hfuel H.
  unfold stretch in H. rewrite Hset in H. cbn [bind] in H.
  destruct (stretch_layers _ _ _ _) as [[ys2 p]|e2] eqn:E2; cbn [bind] in H; [discriminate H|].
  assert (e2 = OutOfFuel) by congruence. subst e2.
  destruct (stretch_layers_blame _ _ _ _ _ _ _ _ (init_state o (Some w)) E2) as (pre & y & post & m1 & m & t & bs & Eys & Ely & Hpass & Hb).
  rewrite app_nil_r in Hpass, Hb.
  assert (En : nth_error ys (List.length pre) = Some y) by (rewrite Eys, nth_error_app2, Nat.sub_diag by lia; reflexivity).
  assert (Epre : firstn (List.length pre) ys = pre) by (rewrite Eys; apply firstn_split).
  inversion Hb as [Hn|we old e Hwe Ht Ha|we old mv pr e Hwe Ht Ha Hr|e Ht Hr]; subst.
  - assert (we = w) by congruence. subst we. revert Ha. 
    assert (HQn : Q (List.length pre) (List.length m1) fuel).
    { eapply HN; [apply nth_error_Some; congruence|exact Hfuel|exact En|]. rewrite Ely, app_length. cbn. lia. }
    unfold Q in HQn. rewrite Epre in HQn. apply (HQn y m1 m t bs old En Ely eq_refl Ht Hpass).
  - exact (reparse_fuel _ Hr).
  - exact (reparse_fuel _ Hr).
Qed.

(** ** Such loops exist *)

Lemma skein_intro : forall profile fuel (o : options (A:=RA)) (g : gcode RA) (w : R) ys n y pre body z post k ps,
  0 < w -> 0 < o_cross o -> 0 < o_from o ->
  (exists r, stretch profile fuel Skeinforge o g = Ok r) ->
  setup_filter profile Skeinforge (g_layers g) = Ok (Some w, ys) ->
  nth_error ys n = Some y -> ly_lines y = pre ++ body ++ z :: post -> skein_loop k (lines_of (firstn n ys)) pre body z ->
  0 < limit o (Some w) (Some k) -> Forall2 move_to (filter xy_move body) ps ->
  exists ps', stretches_skein profile fuel o w (limit o (Some w) (Some k)) ps ps'.
Proof.
  intros profile fuel o g w ys n y pre body z post k ps Hw Hc Hf [[g' pr] H] Hset Hy Hly Hloop Hmost Hps.
  destruct (stretch_shape _ _ _ _ _ _ _ H) as [_ Hs].
  pose proof (setup_marked _ _ _ _ _ Hset) as Hm.
  assert (Hlen : map (fun y => List.length (ly_lines y)) ys = map (fun y => List.length (ly_lines y)) (g_layers g)).
  { clear - Hm. induction Hm as [|a c l1 l2 (_ & _ & Hac) Hm IH]; [reflexivity|]. cbn [map]. f_equal; [|exact IH].
    clear - Hac. induction Hac; cbn; congruence. }
  rewrite <- Hlen in Hs. apply (f_equal (fun l => nth_error l n)) in Hs. rewrite !nth_error_map, Hy in Hs. cbn [option_map] in Hs.
  destruct (nth_error (g_layers g') n) as [y'|] eqn:Ey'; cbn [option_map] in Hs; [|discriminate Hs].
  set (body' := firstn (List.length body) (skipn (List.length pre) (ly_lines y'))).
  assert (Hex : exists ps', Forall2 move_to (map snd (filter (fun ll => xy_move (fst ll)) (combine body body'))) ps').
  { assert (Hall : forall j l', nth_error (map snd (filter (fun ll => xy_move (fst ll)) (combine body body'))) j = Some l' -> exists p', move_to l' p').
    { intros j l' N1. apply filter_combine_nth in N1 as (b & m & r & Eb & Em & El & Ej).
      unfold body' in El. apply nth_firstn in El. rewrite nth_skipn in El.
      assert (Hmj : nth_error (filter xy_move body) j = Some m).
      { rewrite Eb, filter_app. rewrite nth_error_app2 by lia. rewrite Ej, Nat.sub_diag. cbn [filter]. rewrite Em. reflexivity. }
      assert (Hp : exists p, nth_error ps j = Some p /\ move_to m p).
      { clear - Hps Hmj. revert j Hmj. induction Hps as [|x y xs ys Hx H IH]; intros [|j] Hj; cbn in *; try discriminate Hj.
        - inversion Hj; subst. eauto.
        - apply IH. exact Hj. }
      destruct Hp as (p & Hp & Hm').
      destruct (skein_point _ _ _ _ _ _ _ _ _ _ _ _ _ _ _ _ _ _ _ _ _ _ Hw Hc Hf H Hset Hy Hly Hloop Hmost Hps Eb Hm' Ey' El) as [W _].
      exact W. }
    revert Hall. generalize (map snd (filter (fun ll => xy_move (fst ll)) (combine body body'))). clear.
    intros ls. induction ls as [|l ls IH]; intros Hall; [exists []; constructor|].
    destruct (Hall 0%nat l eq_refl) as [p' Hp]. destruct IH as [ps' Hps]; [intros j l' Hj; apply (Hall (S j) l' Hj)|].
    exists (p' :: ps'). constructor; assumption. }
  destruct Hex as [ps' Hps']. exists ps'. exists g, g', pr, ys, n, y, y', pre, body, z, post, k. cbv zeta.
  repeat (split; [first [eassumption|reflexivity]|]). exact Hps'.
Qed.

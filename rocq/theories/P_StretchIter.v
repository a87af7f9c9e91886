(** * P_StretchIter: the line iterators of the stretch filters *)
From Coq Require Import List Ascii String ZArith NArith Bool Lia.
From Verif Require Import PyBase Arith Gcoder Filters SpecText SpecLoad SpecFilter Stretch SpecStretch
  P_Load P_Measure P_Stretch.
Import ListNotations.
Local Open Scope list_scope.

(** ** Searching *)

Lemma none_between_spec : forall p ts lo hi, none_between p ts lo hi = true ->
  forall k, lo <= k < hi -> at_ p ts k = false.
Proof.
  intros p ts lo hi H k Hk. unfold none_between in H. apply negb_true_iff in H.
  unfold at_. destruct (nth_error ts k) as [t|] eqn:E; [|reflexivity].
  apply not_true_iff_false. intros Hp. apply not_true_iff_false in H. apply H.
  apply existsb_exists. exists t. split; [|exact Hp].
  apply (nth_error_In _ (k - lo)).
  assert (E1 : nth_error (skipn lo ts) (k - lo) = Some t).
  { rewrite <- E. clear - Hk. destruct Hk as [Hk _]. revert lo k Hk. induction ts as [|x ts IH]; intros [|lo] k Hk.
    - destruct (k - 0); destruct k; reflexivity.
    - destruct (k - S lo); destruct k; reflexivity.
    - cbn. f_equal. lia.
    - destruct k as [|k]; [lia|]. cbn. apply IH. lia. }
  rewrite <- E1. clear - Hk. assert (Hl : k - lo < hi - lo) by lia. revert Hl.
  generalize (hi - lo) (k - lo) (skipn lo ts). intros n m l. revert n l.
  induction m as [|m IH]; intros [|n] [|x l] Hl; try lia; cbn; try reflexivity. apply IH. lia.
Qed.

Lemma first_from_spec : forall p ts k,
  match first_from p ts k with
  | Some f => k <= f /\ at_ p ts f = true /\ forall j, k <= j < f -> at_ p ts j = false
  | None => forall j, k <= j -> at_ p ts j = false
  end.
Proof.
  intros p. induction ts as [|t ts IH]; intros k; cbn [first_from].
  - intros j _. destruct j; reflexivity.
  - destruct k as [|k].
    + destruct (p t) eqn:Et.
      * split; [lia|]. split; [exact Et|]. intros j Hj. lia.
      * specialize (IH 0). destruct (first_from p ts 0) as [f|]; cbn [option_map].
        -- destruct IH as (_ & H1 & H2). split; [lia|]. split; [exact H1|]. intros [|j] Hj; [exact Et|].
           apply (H2 j). lia.
        -- intros [|j] _; [exact Et|]. apply (IH j). lia.
    + specialize (IH k). destruct (first_from p ts k) as [f|]; cbn [option_map].
      * destruct IH as (H0 & H1 & H2). split; [lia|]. split; [exact H1|]. intros [|j] Hj; [lia|]. apply (H2 j). lia.
      * intros [|j] Hj; [lia|]. apply (IH j). lia.
Qed.

Lemma last_before_spec : forall p ts n,
  match last_before p ts n with
  | Some a => a < n /\ at_ p ts a = true /\ forall j, a < j < n -> at_ p ts j = false
  | None => forall j, j < n -> at_ p ts j = false
  end.
Proof.
  intros p ts. induction n as [|n IH]; cbn [last_before]; [intros j H; lia|].
  destruct (at_ p ts n) eqn:En; [repeat split; [lia|exact En|intros j Hj; lia]|].
  destruct (last_before p ts n) as [a|].
  - destruct IH as (H1 & H2 & H3). split; [lia|]. split; [exact H2|]. intros j Hj.
    destruct (Nat.eq_dec j n) as [-> |Hne]; [exact En|]. apply H3. lia.
  - intros j Hj. destruct (Nat.eq_dec j n) as [-> |Hne]; [exact En|]. apply IH. lia.
Qed.

Section P.
Context {A : arith}.
Implicit Types l : line A.

Lemma at_line : forall q (ls : list (line A)) k,
  at_ q (map raw ls) k = match nth_error ls k with Some l => q (raw l) | None => false end.
Proof. intros q ls k. unfold at_. rewrite nth_error_map. destruct (nth_error ls k); reflexivity. Qed.

Lemma search_down_spec : forall mk (ls : list (line A)) n,
  match search_down (has mk) ls 0 n with
  | Some a => a < n /\ at_ (contains mk) (map raw ls) a = true /\
              forall j, a < j < n -> at_ (contains mk) (map raw ls) j = false
  | None => forall j, j < n -> at_ (contains mk) (map raw ls) j = false
  end.
Proof.
  intros mk ls. induction n as [|n IH]; cbn [search_down]; [intros j H; lia|].
  change (n <? 0) with false. cbv iota.
  pose proof (at_line (contains mk) ls n) as En. unfold has at 1.
  destruct (match nth_error ls n with Some l => contains mk (raw l) | None => false end).
  - split; [lia|]. split; [exact En|]. intros j Hj; lia.
  - destruct (search_down (has mk) ls 0 n) as [a|].
    + destruct IH as (H1 & H2 & H3). split; [lia|]. split; [exact H2|]. intros j Hj.
      destruct (Nat.eq_dec j n) as [-> |Hne]; [exact En|]. apply H3. lia.
    + intros j Hj. destruct (Nat.eq_dec j n) as [-> |Hne]; [exact En|]. apply IH. lia.
Qed.

Lemma search_up_spec : forall mk (ls : list (line A)) n,
  match search_up (has mk) ls n with
  | Some f => n <= f /\ f < n + List.length ls /\ at_ (contains mk) (map raw ls) (f - n) = true /\
              forall j, j < f - n -> at_ (contains mk) (map raw ls) j = false
  | None => forall j, at_ (contains mk) (map raw ls) j = false
  end.
Proof.
  intros mk. induction ls as [|l ls IH]; intros n; cbn [search_up].
  - intros j. destruct j; reflexivity.
  - destruct (has mk l) eqn:El.
    + split; [lia|]. cbn [List.length]. split; [lia|]. rewrite Nat.sub_diag. split; [exact El|]. intros j Hj; lia.
    + specialize (IH (S n)). destruct (search_up (has mk) ls (S n)) as [f|].
      * destruct IH as (H1 & H2 & H3 & H4). cbn [List.length]. split; [lia|]. split; [lia|].
        replace (f - n) with (S (f - S n)) by lia. split; [exact H3|]. intros [|j] Hj; [exact El|]. apply (H4 j). lia.
      * intros [|j]; [exact El|apply (IH j)].
Qed.

Lemma nth_skipn : forall (X : Type) (xs : list X) i j, nth_error (skipn i xs) j = nth_error xs (i + j).
Proof.
  intros X. induction xs as [|x xs IH]; intros [|i] j; try reflexivity.
  - destruct j; reflexivity.
  - cbn. apply IH.
Qed.

Lemma search_from_spec : forall mk (ls : list (line A)) i,
  match search_from (has mk) ls (Z.of_nat i) with
  | Some f => i <= f < List.length ls /\ at_ (contains mk) (map raw ls) f = true /\
              forall j, i <= j < f -> at_ (contains mk) (map raw ls) j = false
  | None => forall j, i <= j -> at_ (contains mk) (map raw ls) j = false
  end.
Proof.
  intros mk ls i. unfold search_from. rewrite Nat2Z.id.
  assert (Hat : forall j, at_ (contains mk) (map raw (skipn i ls)) j = at_ (contains mk) (map raw ls) (i + j)).
  { intros j. rewrite !at_line, nth_skipn. reflexivity. }
  pose proof (search_up_spec mk (skipn i ls) i) as H. pose proof (skipn_length i ls) as Hl.
  destruct (search_up (has mk) (skipn i ls) i) as [f|].
  - destruct H as (H1 & H2 & H3 & H4).
    assert (Hb : f < List.length ls).
    { destruct (Nat.le_gt_cases (List.length ls) i); [|lia]. exfalso.
      replace (List.length (skipn i ls)) with 0 in H2 by lia. lia. }
    split; [lia|]. split.
    + rewrite <- H3, Hat. f_equal. lia.
    + intros j Hj. specialize (H4 (j - i)). rewrite Hat in H4. replace (i + (j - i)) with j in H4 by lia. apply H4. lia.
  - intros j Hj. specialize (H (j - i)). rewrite Hat in H. replace (i + (j - i)) with j in H by lia. exact H.
Qed.

Lemma line_at_nat : forall (ls : list (line A)) k, line_at ls (Z.of_nat k) = nth_error ls k.
Proof.
  intros ls k. unfold line_at. destruct (Z.ltb_spec (Z.of_nat k) 0); [lia|]. rewrite Nat2Z.id. reflexivity.
Qed.

Lemma line_at_neg : forall (ls : list (line A)) z, (z < 0)%Z -> line_at ls z = None.
Proof. intros ls z H. unfold line_at. destruct (Z.ltb_spec z 0); [reflexivity|lia]. Qed.

Lemma line_at_some : forall (ls : list (line A)) z l, line_at ls z = Some l ->
  exists k, z = Z.of_nat k /\ nth_error ls k = Some l /\ k < List.length ls.
Proof.
  intros ls z l H. unfold line_at in H. destruct (Z.ltb_spec z 0); [discriminate H|].
  exists (Z.to_nat z). split; [lia|]. split; [exact H|]. apply nth_error_Some. congruence.
Qed.

Lemma xy_line : forall l, is_linear l && has_xy l = xy_move l.
Proof. exact is_linear_xy. Qed.

(** ** C64 *)

Lemma scan_returns : forall fuel d dir (ls : list (line A)) first i l it,
  scan fuel d dir ls first i = Ok (Next l it) ->
  line_at ls (i_index it - increment dir) = Some l /\ xy_move l = true.
Proof.
  induction fuel as [|n IH]; intros d dir ls first i l it H; cbn [scan] in H; [discriminate H|].
  destruct (line_at ls i) as [l0|] eqn:El; [|discriminate H].
  destruct (is_first first i); [discriminate H|].
  destruct (has off_marker l0 && stops_on_off d).
  - destruct (reset_index d dir ls i); [|discriminate H]. apply IH in H. exact H.
  - rewrite xy_line in H. destruct (xy_move l0) eqn:Ex.
    + apply ok_inj in H. inversion H; subst. cbn [i_index].
      replace (i + increment dir - increment dir)%Z with i by lia. auto.
    + apply IH in H. exact H.
Qed.

Lemma next_returns : forall fuel d dir (ls : list (line A)) it0 l it,
  get_next fuel d dir ls it0 = Ok (Next l it) ->
  line_at ls (i_index it - increment dir) = Some l /\ xy_move l = true.
Proof.
  intros fuel d dir ls it0 l it H. unfold get_next in H.
  destruct (wraps d dir ls (i_index it0)) as [w|e]; cbn [bind] in H; [|discriminate H].
  destruct w; [destruct (reset_index d dir ls (i_index it0)); [|discriminate H]|]; apply scan_returns in H; exact H.
Qed.

Lemma scan_straight : forall fuel d dir (ls : list (line A)) first i l it,
  (stops_on_off d = true -> forall j x, beyond dir i j -> line_at ls j = Some x -> has off_marker x = false) ->
  scan fuel d dir ls first i = Ok (Next l it) ->
  beyond dir i (i_index it - increment dir) /\
  forall j x, beyond dir i j -> beyond dir j (i_index it - increment dir) -> j <> (i_index it - increment dir)%Z ->
    line_at ls j = Some x -> xy_move x = false.
Proof.
  induction fuel as [|n IH]; intros d dir ls first i l it Hoff H; cbn [scan] in H; [discriminate H|].
  destruct (line_at ls i) as [l0|] eqn:El; [|discriminate H].
  destruct (is_first first i); [discriminate H|].
  assert (Ho : has off_marker l0 && stops_on_off d = false).
  { destruct (stops_on_off d); [|apply andb_false_r]. rewrite (Hoff eq_refl i l0); [reflexivity| |exact El].
    destruct dir; cbn; lia. }
  rewrite Ho, xy_line in H. destruct (xy_move l0) eqn:Ex.
  - apply ok_inj in H. inversion H; subst. cbn [i_index].
    replace (i + increment dir - increment dir)%Z with i by lia.
    split; [destruct dir; cbn; lia|]. intros j x H1 H2 H3 H4. exfalso. apply H3. destruct dir; cbn in *; lia.
  - apply IH in H.
    + destruct H as [H1 H2]. split; [destruct dir; cbn [beyond increment] in *; lia|].
      intros j x J1 J2 J3 J4. destruct (Z.eq_dec j i) as [-> |Hne]; [congruence|].
      apply (H2 j x); [destruct dir; cbn [beyond increment] in *; lia|exact J2|exact J3|exact J4].
    + intros Hd j x Hj. apply (Hoff Hd j x). destruct dir; cbn [beyond increment] in *; lia.
Qed.

(** ** Termination: a measure for the iterators *)

Section Measure.
Variables (d : dialect) (dir : direction) (ls : list (line A)).
(** [Inv] holds before each step of [scan], [Inv0] before each [get_next] *)
Variables Inv0 Inv : option Z -> Z -> Prop.
Variable mu : option Z -> Z -> nat.
(** [Loud]: a message may be printed *)
Variable Loud : Prop.

Definition first_of (first : option Z) (i : Z) : option Z :=
  match first with None => Some i | Some _ => first end.

Definition moves_on : Prop := forall first i l, Inv first i -> line_at ls i = Some l -> is_first first i = false ->
  (if has off_marker l && stops_on_off d then
     match reset_index d dir ls i with
     | None => Loud
     | Some j => Inv (first_of first i) j /\ mu (first_of first i) j < mu first i
     end
   else (xy_move l = false -> Inv (first_of first i) (i + increment dir)) /\
        (xy_move l = true -> Inv0 (first_of first i) (i + increment dir)) /\
        mu (first_of first i) (i + increment dir) < mu first i).

Definition wraps_well : Prop := forall first i, Inv0 first i ->
  match wraps d dir ls i with
  | Ok true =>
      match reset_index d dir ls i with
      | None => Loud
      | Some j => Inv first j /\ mu first j <= mu first i
      end
  | Ok false => Inv first i
  | Err _ => True
  end.

Hypothesis Hmoves : moves_on.
Hypothesis Hwraps : wraps_well.

Lemma scan_ends : forall fuel first i, Inv first i ->
  match scan fuel d dir ls first i with
  | Ok (Next l it) => Inv0 (i_first it) (i_index it) /\ mu (i_first it) (i_index it) < mu first i
  | Ok (Stop p) => p = [] \/ Loud
  | Err e => e = OutOfFuel -> fuel <= mu first i
  end.
Proof.
  induction fuel as [|n IH]; intros first i Hi; [cbn; lia|]. cbn [scan].
  destruct (line_at ls i) as [l|] eqn:El; [|now left].
  destruct (is_first first i) eqn:Ef; [now left|].
  pose proof (Hmoves first i l Hi El Ef) as Hs.
  change (match first with None => Some i | Some _ => first end) with (first_of first i).
  destruct (has off_marker l && stops_on_off d).
  - destruct (reset_index d dir ls i) as [j|]; [|now right]. destruct Hs as [H1 H2].
    specialize (IH (first_of first i) j H1).
    destruct (scan n d dir ls (first_of first i) j) as [[l' it|p]|e]; [|exact IH|intros He; specialize (IH He); lia].
    destruct IH as [IH1 IH2]. split; [exact IH1|lia].
  - destruct Hs as (H1 & H0 & H2). rewrite xy_line. destruct (xy_move l); [cbn [i_first i_index]; auto|].
    specialize (IH (first_of first i) (i + increment dir)%Z (H1 eq_refl)).
    destruct (scan n d dir ls (first_of first i) (i + increment dir)) as [[l' it|p]|e]; [|exact IH|intros He; specialize (IH He); lia].
    destruct IH as [IH1 IH2]. split; [exact IH1|lia].
Qed.

Lemma next_ends : forall fuel it, Inv0 (i_first it) (i_index it) ->
  match get_next fuel d dir ls it with
  | Ok (Next l it') => Inv0 (i_first it') (i_index it') /\ mu (i_first it') (i_index it') < mu (i_first it) (i_index it)
  | Ok (Stop p) => p = [] \/ Loud
  | Err e => e = OutOfFuel -> fuel <= mu (i_first it) (i_index it)
  end.
Proof.
  intros fuel it Hi. unfold get_next. pose proof (Hwraps _ _ Hi) as Hw.
  destruct (wraps d dir ls (i_index it)) as [w|e] eqn:Ew; cbn [bind].
  2:{ unfold wraps in Ew. intros ->. destruct dir, d; try discriminate Ew;
        repeat match type of Ew with context [if ?x then _ else _] => destruct x; try discriminate Ew
               | context [match ?x with _ => _ end] => destruct x; try discriminate Ew end. }
  destruct w.
  - destruct (reset_index d dir ls (i_index it)) as [j|]; [|now right].
    destruct Hw as [H1 H2]. pose proof (scan_ends fuel _ _ H1) as Hs.
    destruct (scan fuel d dir ls (i_first it) j) as [[l' it'|p]|e]; [|exact Hs|intros He; specialize (Hs He); lia].
    destruct Hs as [S1 S2]. split; [exact S1|lia].
  - apply scan_ends; assumption.
Qed.

Lemma c_div_fuel : forall (a : cplx (A:=A)) k, c_div a k <> Err OutOfFuel.
Proof. intros a k. unfold c_div. destruct (n_eqb k n0); discriminate. Qed.
Lemma py_div_fuel : forall a k : num A, py_div a k <> Err OutOfFuel.
Proof. intros a k. unfold py_div. destruct (n_eqb k n0); discriminate. Qed.

Lemma loop_ends : forall n fuel w old loc lastl point old_total total it,
  Inv0 (i_first it) (i_index it) ->
  match relative_loop n fuel d dir w ls old loc lastl point old_total total it with
  | Ok (_, p) => p = [] \/ Loud
  | Err e => e = OutOfFuel -> n <= mu (i_first it) (i_index it) \/ fuel <= mu (i_first it) (i_index it)
  end.
Proof.
  induction n as [|n IH]; intros fuel w old loc lastl point old_total total it Hi; [cbn; lia|]. cbn [relative_loop].
  pose proof (next_ends fuel it Hi) as Hn.
  destruct (get_next fuel d dir ls it) as [[l it'|p]|e]; cbn [bind].
  - destruct Hn as [N1 N2].
    destruct (n_leb (w_from w) _).
    + destruct (py_div _ _) as [r|e] eqn:Ep; cbn [bind].
      * destruct (c_div _ _) as [r'|e] eqn:Ec; cbn [bind]; [now left|].
        intros C. subst. destruct (c_div_fuel _ _ Ec).
      * intros C. subst. destruct (py_div_fuel _ _ Ep).
    + match goal with |- context [relative_loop n fuel d dir w ls old loc ?a ?b ?t ?u it'] =>
        pose proof (IH fuel w old loc a b t u it' N1) as H' end.
      destruct (relative_loop _ _ _ _ _ _ _ _ _ _ _ _ _) as [[r p]|e]; [exact H'|]. intros He. specialize (H' He). lia.
  - destruct (n_ltb n0 _); [|exact Hn].
    destruct (c_div _ _) as [r'|e] eqn:Ec; cbn [bind]; [exact Hn|].
    intros C. subst. destruct (c_div_fuel _ _ Ec).
  - intros C. right. apply Hn, C.
Qed.

Lemma cross_ends : forall fuel w old st start loc, Inv0 None start ->
  match cross_limited fuel d w ls old st dir start loc with
  | Ok (_, p) => p = [] \/ Loud
  | Err e => e = OutOfFuel -> fuel <= mu None start
  end.
Proof.
  intros fuel w old st start loc Hi. unfold cross_limited.
  pose proof (next_ends fuel (new_iter start) Hi) as Hn.
  destruct (get_next fuel d dir ls (new_iter start)) as [[l it'|p]|e]; cbn [bind]; [|exact Hn|exact Hn].
  destruct (n_leb _ (w_fraction w)); [now left|].
  destruct (c_div _ _) as [r'|e] eqn:Ec; cbn [bind].
  2:{ intros C. subst. destruct (c_div_fuel _ _ Ec). }
  destruct (n_ltb (w_cross w) _); [now left|].
  destruct (py_div _ _) as [r|e] eqn:Ep; cbn [bind]; [now left|].
  intros C. subst. destruct (py_div_fuel _ _ Ep).
Qed.

End Measure.

(** both directions together *)
Lemma absolute_found : forall d (ls : list (line A)) F0 F muF B0 B muB Loud most i,
  moves_on d Forward ls F0 F muF Loud -> wraps_well d Forward ls F0 F muF Loud ->
  moves_on d Backward ls B0 B muB Loud -> wraps_well d Backward ls B0 B muB Loud ->
  F0 None (i + 1)%Z -> B0 None (i - 1)%Z -> muF None (i + 1)%Z <= most -> muB None (i - 1)%Z <= most ->
  forall fuel w old max loc,
  match absolute_stretch fuel d w ls i old max loc with
  | Ok (_, p) => p = [] \/ Loud
  | Err e => e = OutOfFuel -> fuel <= most
  end.
Proof.
  intros d ls F0 F muF B0 B muB Loud most i MF WF MB WB SF SB LF LB fuel w old max loc.
  unfold absolute_stretch, relative_stretch.
  pose proof (loop_ends d Forward ls F0 F muF Loud MF WF fuel fuel w old loc loc loc n0 n0 (new_iter (i + 1)) SF) as H1.
  destruct (relative_loop _ _ _ Forward _ _ _ _ _ _ _ _ _) as [[r1 p1]|e]; cbn [bind].
  2:{ intros He. specialize (H1 He). cbn [new_iter i_first i_index] in H1. lia. }
  pose proof (loop_ends d Backward ls B0 B muB Loud MB WB fuel fuel w old loc loc loc n0 n0 (new_iter (i - 1)) SB) as H2.
  destruct (relative_loop _ _ _ Backward _ _ _ _ _ _ _ _ _) as [[r2 p2]|e]; cbn [bind].
  2:{ intros He. specialize (H2 He). cbn [new_iter i_first i_index] in H2. lia. }
  match goal with |- context [cross_limited fuel d w ls old ?st Forward _ _] =>
    pose proof (cross_ends d Forward ls F0 F muF Loud MF WF fuel w old st (i + 1) loc SF) as H3 end.
  destruct (cross_limited _ _ _ _ _ _ Forward _ _) as [[r3 p3]|e]; cbn [bind].
  2:{ intros He. specialize (H3 He). lia. }
  pose proof (cross_ends d Backward ls B0 B muB Loud MB WB fuel w old r3 (i - 1) loc SB) as H4.
  destruct (cross_limited _ _ _ _ _ _ Backward _ _) as [[r4 p4]|e]; cbn [bind].
  2:{ intros He. specialize (H4 He). lia. }
  assert (Hp : p1 ++ p2 ++ p3 ++ p4 = [] \/ Loud).
  { destruct H1 as [-> |?]; [|now right]. destruct H2 as [-> |?]; [|now right].
    destruct H3 as [-> |?]; [|now right]. destruct H4 as [-> |?]; [|now right]. now left. }
  destruct (n_ltb n1 (c_abs r4)); cbn [bind]; [|exact Hp].
  destruct (c_div r4 (c_abs r4)) as [r|e] eqn:Ec; cbn [bind]; [exact Hp|].
  intros ->. destruct (c_div_fuel _ _ Ec).
Qed.
End P.

(** * P_StretchEnd: the Slic3r filter ends when the loops are enclosed *)
From Coq Require Import List Ascii String ZArith NArith Bool Lia.
From Verif Require Import PyBase Arith Gcoder Filters SpecText SpecLoad SpecFilter Stretch SpecStretch
  P_Load P_Measure P_Stretch P_StretchIter.
Import ListNotations.
Local Open Scope list_scope.

Section P.
Context {A : arith}.
Variable ls : list (line A).
Variable i : nat.
Notation ts := (map raw ls).
Notation N := (List.length ls).
Notation off k := (at_ is_off ts k).
Notation start k := (at_ is_start ts k).
Hypothesis Hi : i < N.
Hypothesis Henc : enclosed ts i = true.
(** no message is printed if the loop begins and ends in this layer *)
Variable Loud : Prop.
Hypothesis Hloud : Loud \/ ends_here ts i = true.

Lemma enc_ahead : forall f, i < f -> off f = true -> (forall j, i < j < f -> off j = false) ->
  forall j, i < j < f -> start j = false.
Proof.
  intros f Hf Ho Hn j Hj. unfold enclosed in Henc. apply andb_prop in Henc as [H _].
  pose proof (first_from_spec is_off ts (S i)) as Hs. destruct (first_from is_off ts (S i)) as [f'|].
  - destruct Hs as (H1 & H2 & H3).
    assert (f' = f).
    { destruct (Nat.lt_trichotomy f' f) as [C|[C|C]]; [|exact C|].
      - rewrite Hn in H2 by lia. discriminate H2.
      - rewrite H3 in Ho by lia. discriminate Ho. }
    subst f'. apply (none_between_spec _ _ _ _ H). lia.
  - rewrite (Hs f) in Ho by lia. discriminate Ho.
Qed.

Lemma enc_behind : forall a, a <= i -> start a = true -> (forall j, a < j <= i -> start j = false) ->
  forall j, a < j <= i -> off j = false.
Proof.
  intros a Ha Hs Hn j Hj. unfold enclosed in Henc. apply andb_prop in Henc as [_ H].
  destruct (off i) eqn:Ei.
  - apply andb_prop in H as [H _]. rewrite (Hn i) in H by lia. discriminate H.
  - pose proof (last_before_spec is_start ts (S i)) as Hl. destruct (last_before is_start ts (S i)) as [a'|].
    + destruct Hl as (H1 & H2 & H3).
      assert (a' = a).
      { destruct (Nat.lt_trichotomy a' a) as [C|[C|C]]; [|exact C|].
        - rewrite H3 in Hs by lia. discriminate Hs.
        - rewrite Hn in H2 by lia. discriminate H2. }
      subst a'. destruct (Nat.eq_dec j i) as [-> |Hne]; [exact Ei|].
      apply (none_between_spec _ _ _ _ H). lia.
    + rewrite (Hl a) in Hs by lia. discriminate Hs.
Qed.

Lemma loud_start : (forall j, j <= i -> start j = false) -> Loud.
Proof.
  intros H. destruct Hloud as [L|L]; [exact L|]. exfalso. unfold ends_here in L.
  pose proof (last_before_spec is_start ts (S i)) as Hl. destruct (last_before is_start ts (S i)) as [a|]; [|discriminate L].
  destruct Hl as (H1 & H2 & _). rewrite H in H2 by lia. discriminate H2.
Qed.

Lemma loud_off : (forall j, i <= j -> off j = false) -> Loud.
Proof.
  intros H. destruct Hloud as [L|L]; [exact L|]. exfalso. unfold ends_here in L.
  pose proof (first_from_spec is_off ts (S i)) as Hf. destruct (last_before is_start ts (S i)); [|discriminate L].
  destruct (first_from is_off ts (S i)) as [f|]; [|discriminate L].
  destruct Hf as (H1 & H2 & _). rewrite H in H2 by lia. discriminate H2.
Qed.

Lemma enc_off : off i = true -> start i = true /\ forall j, i = S j -> off j = false.
Proof.
  intros Ho. unfold enclosed in Henc. apply andb_prop in Henc as [_ H]. rewrite Ho in H.
  apply andb_prop in H as [H1 H2]. split; [exact H1|]. intros j ->. apply negb_true_iff. exact H2.
Qed.

Lemma line_off : forall k l, nth_error ls k = Some l -> has off_marker l = off k.
Proof. intros k l H. rewrite at_line, H. reflexivity. Qed.
Lemma line_start : forall k l, nth_error ls k = Some l -> has start_marker l = start k.
Proof. intros k l H. rewrite at_line, H. reflexivity. Qed.

(** ** Forward *)

Definition InvF (first : option Z) (idx : Z) : Prop :=
  (first = None /\ idx = Z.of_nat (S i)) \/
  (exists k, first = Some (Z.of_nat (S i)) /\ idx = Z.of_nat k /\ S i < k <= N /\
     forall j, S i <= j < k -> off j = false) \/
  (exists a k, first = Some (Z.of_nat (S i)) /\ idx = Z.of_nat k /\ a < k <= S i /\
     forall j, a < j <= i -> off j = false).

Definition muF (first : option Z) (idx : Z) : nat :=
  match first with
  | None => 2 * N + 6
  | Some _ => if (idx <=? Z.of_nat (S i))%Z then Z.to_nat (Z.of_nat (S i) - idx)
              else N + 2 + Z.to_nat (Z.of_nat N - idx)
  end.

Lemma muF_low : forall s k, k <= S i -> muF (Some s) (Z.of_nat k) = S i - k.
Proof. intros s k H. unfold muF. destruct (Z.leb_spec (Z.of_nat k) (Z.of_nat (S i))); lia. Qed.
Lemma muF_high : forall s k, S i < k -> muF (Some s) (Z.of_nat k) = N + 2 + (N - k).
Proof. intros s k H. unfold muF. destruct (Z.leb_spec (Z.of_nat k) (Z.of_nat (S i))); lia. Qed.

Lemma reset_forward : forall k, S i <= k -> k < N -> off k = true -> (forall j, S i <= j < k -> off j = false) ->
  match reset_index Slic3r Forward ls (Z.of_nat k) with
  | None => Loud
  | Some j => InvF (Some (Z.of_nat (S i))) j /\ muF (Some (Z.of_nat (S i))) j < N + 2
  end.
Proof.
  intros k Hk HkN Ho Hn. unfold reset_index. rewrite Nat2Z.id.
  pose proof (search_down_spec start_marker ls k) as Hs.
  destruct (search_down (has start_marker) ls 0 k) as [a|]; cbn [shift].
  2:{ apply loud_start. intros j Hj. apply Hs. lia. }
  destruct Hs as (H1 & H2 & H3).
  assert (Ha : a <= i).
  { destruct (Nat.le_gt_cases a i); [assumption|].
    change (start a = true) in H2. rewrite (enc_ahead k) in H2; [discriminate H2|lia|exact Ho| |lia].
    intros j Hj. apply Hn. lia. }
  replace (Z.of_nat a + 1)%Z with (Z.of_nat (S a)) by lia. split.
  - right. right. exists a, (S a). repeat split; [lia|lia|].
    apply enc_behind; [exact Ha|exact H2|]. intros j Hj. apply H3. lia.
  - rewrite muF_low by lia. lia.
Qed.

Lemma forward_moves : moves_on Slic3r Forward ls InvF InvF muF Loud.
Proof.
  intros first idx l H Hl Hf. apply line_at_some in Hl as (k & -> & Hl & Hk).
  rewrite (line_off _ _ Hl). cbn [stops_on_off increment]. rewrite andb_true_r.
  destruct H as [(-> & H)|[(k' & -> & H & H1 & H2)|(a & k' & -> & H & H1 & H2)]]; apply Nat2Z.inj in H; subst.
  - cbn [first_of]. destruct (off (S i)) eqn:Ho.
    + pose proof (reset_forward (S i) (le_n _) Hk Ho ltac:(intros j Hj; lia)) as Hr.
      destruct (reset_index _ _ _ _) as [j|]; [|exact Hr]. destruct Hr as [R1 R2]. split; [exact R1|].
      change (muF None (Z.of_nat (S i))) with (2 * N + 6). lia.
    + assert (Hin : InvF (Some (Z.of_nat (S i))) (Z.of_nat (S i) + 1)).
      { right. left. exists (S (S i)). repeat split; [lia|lia|lia|]. intros j Hj. replace j with (S i) by lia. exact Ho. }
      split; [intros _; exact Hin|]. split; [intros _; exact Hin|].
      replace (Z.of_nat (S i) + 1)%Z with (Z.of_nat (S (S i))) by lia. rewrite muF_high by lia.
      change (muF None (Z.of_nat (S i))) with (2 * N + 6). lia.
  - cbn [first_of]. destruct (off k') eqn:Ho.
    + pose proof (reset_forward k' ltac:(lia) Hk Ho ltac:(intros j Hj; apply H2; lia)) as Hr.
      destruct (reset_index _ _ _ _) as [j|]; [|exact Hr]. destruct Hr as [R1 R2]. split; [exact R1|].
      rewrite (muF_high _ k') by lia. lia.
    + assert (Hin : InvF (Some (Z.of_nat (S i))) (Z.of_nat k' + 1)).
      { right. left. exists (S k'). repeat split; [lia|lia|lia|]. intros j Hj.
        destruct (Nat.eq_dec j k') as [-> |Hne]; [exact Ho|]. apply H2. lia. }
      split; [intros _; exact Hin|]. split; [intros _; exact Hin|].
      replace (Z.of_nat k' + 1)%Z with (Z.of_nat (S k')) by lia. rewrite !muF_high by lia. lia.
  - cbn [first_of]. cbn [is_first] in Hf. apply Z.eqb_neq in Hf.
    rewrite (H2 k') by lia.
    assert (Hin : InvF (Some (Z.of_nat (S i))) (Z.of_nat k' + 1)).
    { right. right. exists a, (S k'). repeat split; [lia|lia|lia|exact H2]. }
    split; [intros _; exact Hin|]. split; [intros _; exact Hin|].
    replace (Z.of_nat k' + 1)%Z with (Z.of_nat (S k')) by lia. rewrite !muF_low by lia. lia.
Qed.

Lemma forward_wraps : wraps_well Slic3r Forward ls InvF InvF muF Loud.
Proof. intros first idx H. cbn [wraps]. exact H. Qed.

Lemma forward_start : InvF None (Z.of_nat i + 1).
Proof. left. split; [reflexivity|lia]. Qed.

(** ** Backward *)

Definition F : option nat := first_from is_off ts i.

Lemma F_some : forall f, F = Some f -> i <= f < N /\ off f = true /\ forall j, i <= j < f -> off j = false.
Proof.
  intros f H. unfold F in H. pose proof (first_from_spec is_off ts i) as Hs. rewrite H in Hs.
  destruct Hs as (H1 & H2 & H3). repeat split; auto. unfold at_ in H2.
  destruct (nth_error ts f) eqn:E; [|discriminate H2].
  assert (Hn : nth_error ts f <> None) by congruence. apply nth_error_Some in Hn. rewrite map_length in Hn. exact Hn.
Qed.
Lemma F_none : F = None -> forall j, i <= j -> off j = false.
Proof. intros H. unfold F in H. pose proof (first_from_spec is_off ts i) as Hs. rewrite H in Hs. exact Hs. Qed.

(** the extrusion stops beyond [idx] only from [i] on *)
Definition calm (idx : Z) : Prop := forall j, (idx < Z.of_nat j)%Z -> off j = true -> i <= j.
(** at least two lines before the stop *)
Definition inside (idx : Z) : Prop := (-2 <= idx)%Z /\ forall f, F = Some f -> (idx <= Z.of_nat f - 2)%Z.

Lemma search_to_nat : forall p z, search_from (A:=A) p ls z = search_from p ls (Z.of_nat (Z.to_nat z)).
Proof. intros p z. unfold search_from. rewrite Nat2Z.id. reflexivity. Qed.

Lemma reset_backward : forall idx, calm idx -> (forall f, F = Some f -> (idx <= Z.of_nat f - 2)%Z \/ idx = Z.of_nat i - 1)%Z ->
  reset_index Slic3r Backward ls idx = shift (-2) F.
Proof.
  intros idx Hc Hin. unfold reset_index. f_equal. rewrite search_to_nat.
  set (n := Z.to_nat (idx + 1)).
  pose proof (search_from_spec off_marker ls n) as Hs.
  destruct (search_from (has off_marker) ls (Z.of_nat n)) as [g|].
  - destruct Hs as (H1 & H2 & H3). change (off g = true) in H2.
    destruct F as [f|] eqn:Ef.
    + destruct (F_some f Ef) as (F1 & F2 & F3). specialize (Hin f eq_refl).
      assert (i <= g) by (apply Hc; [lia|exact H2]).
      destruct (Nat.lt_trichotomy g f) as [C|[C|C]]; [|congruence|].
      * rewrite F3 in H2 by lia. discriminate H2.
      * assert (Hf : off f = false) by (apply H3; lia). congruence.
    + rewrite (F_none Ef) in H2; [discriminate H2|]. apply Hc; [lia|exact H2].
  - destruct F as [f|] eqn:Ef; [|reflexivity].
    destruct (F_some f Ef) as (F1 & F2 & F3). specialize (Hin f eq_refl).
    assert (Hf : off f = false) by (apply Hs; lia). congruence.
Qed.

Definition good (s : Z) : Prop :=
  inside s /\ (s <= Z.of_nat N)%Z /\ calm s /\
  ((s = (Z.of_nat i - 1)%Z /\ 0 < i /\ start i = false) \/ exists f, F = Some f /\ s = (Z.of_nat f - 2)%Z).

Definition later (first : option Z) (idx : Z) : Prop :=
  exists s, first = Some s /\ good s /\ inside idx /\ calm idx.

Definition InvB0 (first : option Z) (idx : Z) : Prop :=
  (first = None /\ idx = (Z.of_nat i - 1)%Z) \/ later first idx.
Definition InvB (first : option Z) (idx : Z) : Prop :=
  (first = None /\ good idx) \/ later first idx.

Definition muB (first : option Z) (idx : Z) : nat :=
  match first with
  | None => 2 * N + 6
  | Some s => if (idx <? s)%Z then N + 2 + Z.to_nat (idx + 2) else Z.to_nat (idx - s)
  end.

Lemma calm_stop : forall f, F = Some f -> calm (Z.of_nat f - 2) /\ inside (Z.of_nat f - 2).
Proof.
  intros f Ef. destruct (F_some f Ef) as (F1 & F2 & F3). split.
  - intros j Hj Ho. destruct (Nat.le_gt_cases i j); [assumption|].
    assert (Ei : f = i) by lia. assert (Ej : i = S j) by lia. rewrite Ei in F2.
    rewrite (proj2 (enc_off F2) j Ej) in Ho. discriminate Ho.
  - split; [lia|]. intros f' Ef'. assert (f' = f) by congruence. lia.
Qed.

Lemma good_stop : forall f, F = Some f -> good (Z.of_nat f - 2).
Proof.
  intros f Ef. destruct (calm_stop f Ef) as (C1 & C2). destruct (F_some f Ef) as (F1 & _).
  split; [exact C2|]. split; [lia|]. split; [exact C1|]. right. exists f. auto.
Qed.

Lemma inside_edge : forall idx, inside idx -> forall f, F = Some f -> ((idx <= Z.of_nat f - 2) \/ idx = Z.of_nat i - 1)%Z.
Proof. intros idx [_ H] f Hf. left. apply H, Hf. Qed.

Lemma backward_moves : moves_on Slic3r Backward ls InvB0 InvB muB Loud.
Proof.
  intros first idx l H Hl Hf. apply line_at_some in Hl as (k & -> & Hl & Hk).
  rewrite (line_off _ _ Hl). cbn [stops_on_off increment]. rewrite andb_true_r.
  destruct H as [(-> & Hg)|(s & -> & Hg & Hin & Hc)].
  - destruct Hg as (Hin & HsN & Hc & Hs). cbn [first_of].
    assert (Hg : good (Z.of_nat k)) by (repeat split; auto; apply Hin).
    destruct (off k) eqn:Ho.
    + rewrite reset_backward by (auto; apply inside_edge, Hin). destruct F as [f|] eqn:Ef; cbn [shift]; [|apply loud_off, F_none, Ef].
      destruct (calm_stop f Ef) as (C1 & C2).
      split; [right; exists (Z.of_nat k); auto|]. destruct (F_some f Ef) as (F1 & _).
      pose proof (proj2 Hin f Ef). change (muB None (Z.of_nat k)) with (2 * N + 6). unfold muB.
      destruct (Z.ltb_spec (Z.of_nat f + -2) (Z.of_nat k)); lia.
    + assert (Hlat : later (Some (Z.of_nat k)) (Z.of_nat k + -1)).
      { exists (Z.of_nat k). split; [reflexivity|]. split; [exact Hg|]. split.
        - split; [lia|]. intros f Ef. pose proof (proj2 Hin f Ef). lia.
        - intros j Hj Hoj. apply Hc; [|exact Hoj]. destruct (Nat.eq_dec j k) as [-> |Hne]; [congruence|lia]. }
      split; [intros _; right; exact Hlat|]. split; [intros _; right; exact Hlat|].
      change (muB None (Z.of_nat k)) with (2 * N + 6). unfold muB. destruct (Z.ltb_spec (Z.of_nat k + -1) (Z.of_nat k)); lia.
  - cbn [first_of]. cbn [is_first] in Hf. apply Z.eqb_neq in Hf. 
    destruct (off k) eqn:Ho.
    + rewrite reset_backward by (auto; apply inside_edge, Hin). destruct F as [f|] eqn:Ef; cbn [shift]; [|apply loud_off, F_none, Ef].
      destruct (calm_stop f Ef) as (C1 & C2). destruct (F_some f Ef) as (F1 & F2 & F3).
      split; [right; exists s; auto|].
      pose proof (proj2 Hin f Ef) as Hkf.
      assert (Hks : (Z.of_nat k < s)%Z).
      { destruct (Z.lt_ge_cases (Z.of_nat k) s) as [C|C]; [exact C|]. exfalso.
        assert (Hki : k < i).
        { destruct (Nat.le_gt_cases i k) as [C'|C']; [|exact C']. rewrite F3 in Ho by lia. discriminate Ho. }
        destruct Hg as (_ & _ & _ & [(G1 & _)|(f' & G1 & G2)]); [lia|]. assert (f' = f) by congruence. subst f'. lia. }
      destruct Hg as (Gin & GN & _). pose proof (proj2 Gin f Ef) as Gf. pose proof (proj1 Gin). unfold muB.
      destruct (Z.ltb_spec (Z.of_nat f + -2) s); [lia|]. destruct (Z.ltb_spec (Z.of_nat k) s); lia.
    + assert (Hlat : later (Some s) (Z.of_nat k + -1)).
      { exists s. split; [reflexivity|]. split; [exact Hg|]. split.
        - split; [lia|]. intros f Ef. pose proof (proj2 Hin f Ef). lia.
        - intros j Hj Hoj. apply Hc; [|exact Hoj]. destruct (Nat.eq_dec j k) as [-> |Hne]; [congruence|lia]. }
      split; [intros _; right; exact Hlat|]. split; [intros _; right; exact Hlat|].
      unfold muB. destruct (Z.ltb_spec (Z.of_nat k + -1) s), (Z.ltb_spec (Z.of_nat k) s); try lia.
Qed.

Lemma backward_wraps : wraps_well Slic3r Backward ls InvB0 InvB muB Loud.
Proof.
  intros first idx H. cbn [wraps].
  destruct H as [(-> & ->)|(s & -> & Hg & Hin & Hc)].
  - assert (Hcalm : calm (Z.of_nat i - 1)) by (intros j Hj _; lia).
    assert (Hreset : match reset_index Slic3r Backward ls (Z.of_nat i - 1) with
                     | None => Loud | Some j => InvB None j /\ muB None j <= muB None (Z.of_nat i - 1) end).
    { rewrite reset_backward by auto. destruct F as [f|] eqn:Ef; cbn [shift]; [|apply loud_off, F_none, Ef].
      split; [|reflexivity]. left. split; [reflexivity|].
      replace (Z.of_nat f + -2)%Z with (Z.of_nat f - 2)%Z by lia. apply good_stop, Ef. }
    destruct (Z.ltb_spec (Z.of_nat i - 1) 0); [exact Hreset|].
    replace (Z.of_nat i - 1 + 1)%Z with (Z.of_nat i) by lia. rewrite line_at_nat.
    destruct (nth_error ls i) as [l|] eqn:El; [|exact I]. rewrite (line_start _ _ El).
    destruct (start i) eqn:Es; [exact Hreset|].
    left. split; [reflexivity|].
    assert (Hno : off i = false).
    { apply not_true_iff_false. intros C. apply enc_off in C. destruct C. congruence. }
    split; [split; [lia|]|].
    + intros f Ef. destruct (F_some f Ef) as (F1 & F2 & _).
      destruct (Nat.eq_dec f i) as [-> |Hne]; [congruence|lia].
    + split; [lia|]. split; [exact Hcalm|]. left. repeat split; [lia|exact Es].
  - assert (Hreset : (forall f, F = Some f -> (s <= idx)%Z -> idx = (Z.of_nat f - 2)%Z) ->
                     match reset_index Slic3r Backward ls idx with
                     | None => Loud | Some j => InvB (Some s) j /\ muB (Some s) j <= muB (Some s) idx end).
    { intros He. rewrite reset_backward by (auto; apply inside_edge, Hin). destruct F as [f|] eqn:Ef; cbn [shift]; [|apply loud_off, F_none, Ef].
      destruct (calm_stop f Ef) as (C1 & C2). destruct (F_some f Ef) as (F1 & _).
      split; [right; exists s; auto|]. specialize (He f eq_refl).
      destruct Hg as (Gin & GN & _). pose proof (proj2 Gin f Ef) as Gf. pose proof (proj1 Gin). pose proof (proj1 Hin).
      unfold muB. destruct (Z.ltb_spec (Z.of_nat f + -2) s); [lia|]. destruct (Z.ltb_spec idx s); lia. }
    destruct (Z.ltb_spec idx 0).
    { apply Hreset. intros f Ef Hle. pose proof (proj2 Hin f Ef).
      destruct Hg as (_ & _ & _ & [(G1 & G2 & _)|(f' & G1 & G2)]); [lia|]. assert (f' = f) by congruence. subst f'. lia. }
    destruct (line_at ls (idx + 1)) as [l|] eqn:El; [|exact I].
    apply line_at_some in El as (k & Ek & El & Hk). rewrite (line_start _ _ El).
    destruct (start k) eqn:Es; [|right; exists s; auto].
    apply Hreset. intros f Ef Hle. pose proof (proj2 Hin f Ef) as Hif. destruct (F_some f Ef) as (F1 & F2 & F3).
    destruct (Z.eq_dec idx (Z.of_nat f - 2)) as [|Hne]; [assumption|]. exfalso.
    destruct Hg as (_ & _ & _ & [(G1 & G2 & G3)|(f' & G1 & G2)]).
    2:{ assert (f' = f) by congruence. subst f'. lia. }
    destruct (Nat.eq_dec k i) as [-> |Hki]; [congruence|].
    rewrite (enc_ahead f) in Es; [discriminate Es|lia|exact F2| |lia]. intros j Hj. apply F3. lia.
Qed.

Lemma backward_start : InvB0 None (Z.of_nat i - 1).
Proof. left. auto. Qed.

(** the stretch of this line is found *)
Lemma absolute_ends : forall fuel w old max loc,
  match absolute_stretch fuel Slic3r w ls (Z.of_nat i) old max loc with
  | Ok (_, p) => p = [] \/ Loud
  | Err e => e = OutOfFuel -> fuel <= 2 * N + 6
  end.
Proof.
  intros fuel w old max loc. apply (absolute_found Slic3r ls InvF InvF muF InvB0 InvB muB Loud (2 * N + 6));
    auto using forward_moves, forward_wraps, backward_moves, backward_wraps, forward_start, backward_start.
Qed.

End P.

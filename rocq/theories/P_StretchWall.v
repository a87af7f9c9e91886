(** * P_StretchWall: the Cura filter ends when the walls are delimited *)
From Coq Require Import List Ascii String ZArith NArith Bool Lia.
From Verif Require Import PyBase Arith Gcoder Filters SpecText SpecLoad SpecFilter Stretch SpecStretch
  P_Load P_Measure P_Stretch P_StretchIter P_StretchEnd.
Import ListNotations.
Local Open Scope list_scope.

Lemma no_number_spec : forall p lo hi, no_number p lo hi = true -> forall k, lo <= k < hi -> p k = false.
Proof.
  intros p lo hi H k Hk. unfold no_number in H. apply negb_true_iff in H. apply not_true_iff_false. intros C.
  apply not_true_iff_false in H. apply H, existsb_exists. exists k. split; [apply in_seq; lia|exact C].
Qed.

Lemma find_seq : forall p n lo, match find p (seq lo n) with
  | Some f => lo <= f < lo + n /\ p f = true /\ forall k, lo <= k < f -> p k = false
  | None => forall k, lo <= k < lo + n -> p k = false
  end.
Proof.
  intros p. induction n as [|n IH]; intros lo; cbn [seq find]; [intros k Hk; lia|].
  destruct (p lo) eqn:E; [split; [lia|]; split; [exact E|intros k Hk; lia]|].
  specialize (IH (S lo)). destruct (find p (seq (S lo) n)) as [f|].
  - destruct IH as (H1 & H2 & H3). split; [lia|]. split; [exact H2|]. intros k Hk.
    destruct (Nat.eq_dec k lo) as [-> |Hne]; [exact E|apply H3; lia].
  - intros k Hk. destruct (Nat.eq_dec k lo) as [-> |Hne]; [exact E|apply IH; lia].
Qed.

Lemma next_number_spec : forall p lo hi, match next_number p lo hi with
  | Some f => lo <= f < hi /\ p f = true /\ forall k, lo <= k < f -> p k = false
  | None => forall k, lo <= k < hi -> p k = false
  end.
Proof.
  intros p lo hi. unfold next_number. pose proof (find_seq p (hi - lo) lo) as H.
  destruct (find p (seq lo (hi - lo))) as [f|].
  - destruct H as (H1 & H2 & H3). repeat split; auto; lia.
  - intros k Hk. apply H. lia.
Qed.

Lemma last_number_spec : forall p hi, match last_number p hi with
  | Some f => f < hi /\ p f = true /\ forall k, f < k < hi -> p k = false
  | None => forall k, k < hi -> p k = false
  end.
Proof.
  intros p. unfold last_number. induction hi as [|n IH]; [cbn; intros k Hk; lia|].
  rewrite seq_S, rev_app_distr. cbn [rev app plus find]. destruct (p n) eqn:E.
  - split; [lia|]. split; [exact E|]. intros k Hk. lia.
  - destruct (find p (rev (seq 0 n))) as [f|].
    + destruct IH as (H1 & H2 & H3). split; [lia|]. split; [exact H2|]. intros k Hk.
      destruct (Nat.eq_dec k n) as [-> |Hne]; [exact E|apply H3; lia].
    + intros k Hk. destruct (Nat.eq_dec k n) as [-> |Hne]; [exact E|apply IH; lia].
Qed.

Section P.
Context {A : arith}.
Variable ls : list (line A).
Variable i : nat.
Notation ts := (map raw ls).
Notation N := (List.length ls).
Notation st k := (at_ is_start ts k).
Notation sp k := (at_ is_stop ts k).
Notation mv k := (moves_at ls k).
Hypothesis Hi : i < N.
Hypothesis Hmi : mv i = true.
Hypothesis Hw : walled ls i = true.
Variable Loud : Prop.
Hypothesis Hloud : Loud \/ wall_here ts i = true.

Lemma line_stop : forall k l, nth_error ls k = Some l -> has stop_marker l = sp k.
Proof. intros k l H. rewrite at_line, H. reflexivity. Qed.
Lemma line_move : forall k l, nth_error ls k = Some l -> xy_move l = mv k.
Proof. intros k l H. unfold moves_at. rewrite H. reflexivity. Qed.
Lemma at_lt : forall p k, at_ p ts k = true -> k < N.
Proof.
  intros p k H. unfold at_ in H. destruct (nth_error ts k) eqn:E; [|discriminate H].
  assert (Hn : nth_error ts k <> None) by congruence. apply nth_error_Some in Hn. rewrite map_length in Hn. exact Hn.
Qed.

Lemma seen_stop : forall k, mv k = true -> stop_seen ls (S k) = sp (S k).
Proof. intros k H. unfold stop_seen. rewrite H. apply andb_true_r. Qed.
Lemma unseen_stop : forall k, mv k = false -> stop_seen ls (S k) = false.
Proof. intros k H. unfold stop_seen. rewrite H. apply andb_false_r. Qed.
Lemma seen_start : forall k, mv k = true -> start_seen ls k = st k.
Proof. intros k H. unfold start_seen. rewrite H. apply andb_true_r. Qed.

Lemma wall_ahead : forall f, i < f -> stop_seen ls f = true -> (forall j, i < j < f -> stop_seen ls j = false) ->
  forall j, i < j < f -> st j = false.
Proof.
  intros f Hf Hs Hn j Hj. unfold walled in Hw. apply andb_prop in Hw as [H _]. apply andb_prop in H as [H _].
  apply andb_prop in H as [H _].
  assert (HfN : f < N) by (unfold stop_seen in Hs; apply andb_prop in Hs as [Hs _]; eapply at_lt, Hs).
  pose proof (next_number_spec (stop_seen ls) (S i) N) as Hx. destruct (next_number (stop_seen ls) (S i) N) as [f'|].
  - destruct Hx as (H1 & H2 & H3).
    assert (f' = f).
    { destruct (Nat.lt_trichotomy f' f) as [C|[C|C]]; [|exact C|].
      - rewrite Hn in H2 by lia. discriminate H2.
      - rewrite H3 in Hs by lia. discriminate Hs. }
    subst f'. apply (no_number_spec _ _ _ H). lia.
  - rewrite Hx in Hs by lia. discriminate Hs.
Qed.

Lemma wall_behind : forall a, a <= i -> st a = true -> (forall j, a < j <= i -> st j = false) ->
  forall j, a < j <= i -> stop_seen ls j = false.
Proof.
  intros a Ha Hs Hn j Hj. unfold walled in Hw. apply andb_prop in Hw as [H _]. apply andb_prop in H as [_ H].
  pose proof (last_number_spec (fun k => st k) (S i)) as Hx.
  destruct (last_number (at_ is_start ts) (S i)) as [a'|].
  - destruct Hx as (H1 & H2 & H3).
    assert (a' = a).
    { destruct (Nat.lt_trichotomy a' a) as [C|[C|C]]; [|exact C|].
      - rewrite H3 in Hs by lia. discriminate Hs.
      - rewrite Hn in H2 by lia. discriminate H2. }
    subst a'. apply (no_number_spec _ _ _ H). lia.
  - rewrite Hx in Hs by lia. discriminate Hs.
Qed.

(** the first line of the wall that the walk back can see, or of the layer *)
Definition lo : nat := match last_number (start_seen ls) (S i) with Some a => a | None => 0 end.

Lemma lo_le : lo <= i.
Proof.
  unfold lo. pose proof (last_number_spec (start_seen ls) (S i)) as Hx.
  destruct (last_number (start_seen ls) (S i)) as [a|]; [|lia]. destruct Hx as (H1 & _). lia.
Qed.
Lemma lo_last : forall k, lo < k <= i -> start_seen ls k = false.
Proof.
  unfold lo. pose proof (last_number_spec (start_seen ls) (S i)) as Hx. intros k Hk.
  destruct (last_number (start_seen ls) (S i)) as [a|]; [|apply Hx; lia]. destruct Hx as (_ & _ & Hx). apply Hx. lia.
Qed.
Lemma lo_seen : start_seen ls lo = true \/ lo = 0.
Proof.
  unfold lo. pose proof (last_number_spec (start_seen ls) (S i)) as Hx.
  destruct (last_number (start_seen ls) (S i)) as [a|]; [|now right]. left. apply Hx.
Qed.
Lemma lo_calm : forall k, lo <= k <= i -> sp k = false.
Proof.
  intros k Hk. unfold walled in Hw. apply andb_prop in Hw as [_ H]. fold lo in H.
  apply (no_number_spec _ _ _ H). lia.
Qed.

(** the stop after the line *)
Definition G : option nat := next_number (at_ is_stop ts) (S i) N.

Lemma G_some : forall g, G = Some g -> i < g < N /\ sp g = true /\ (forall k, i < k < g -> sp k = false) /\
  forall k, i < k < g -> start_seen ls k = false.
Proof.
  intros g H. unfold G in H. pose proof (next_number_spec (at_ is_stop ts) (S i) N) as Hx. rewrite H in Hx.
  destruct Hx as (H1 & H2 & H3). split; [lia|]. split; [exact H2|]. split; [intros k Hk; apply H3; lia|].
  unfold walled in Hw. apply andb_prop in Hw as [H4 _]. apply andb_prop in H4 as [H4 _].
  apply andb_prop in H4 as [_ H4]. rewrite H in H4. intros k Hk. apply (no_number_spec _ _ _ H4). lia.
Qed.
Lemma G_none : G = None -> forall k, i < k -> sp k = false.
Proof.
  intros H k Hk. unfold G in H. pose proof (next_number_spec (at_ is_stop ts) (S i) N) as Hx. rewrite H in Hx.
  destruct (Nat.lt_ge_cases k N) as [C|C]; [apply Hx; lia|]. apply not_true_iff_false. intros E. apply at_lt in E. lia.
Qed.

Lemma wall_loud_start : (forall j, j <= i -> st j = false) -> Loud.
Proof.
  intros H. destruct Hloud as [L|L]; [exact L|]. exfalso. unfold wall_here in L.
  pose proof (last_before_spec is_start ts (S i)) as Hl. destruct (last_before is_start ts (S i)) as [a|]; [|discriminate L].
  destruct Hl as (H1 & H2 & _). rewrite H in H2 by lia. discriminate H2.
Qed.
Lemma wall_loud_stop : G = None -> Loud.
Proof.
  intros E. destruct Hloud as [L|L]; [exact L|]. exfalso. unfold wall_here in L.
  pose proof (first_from_spec is_stop ts (S i)) as Hf. destruct (last_before is_start ts (S i)); [|discriminate L].
  destruct (first_from is_stop ts (S i)) as [f|]; [|discriminate L].
  destruct Hf as (H1 & H2 & _). rewrite (G_none E) in H2 by lia. discriminate H2.
Qed.

(** ** Forward *)

(** [a] is the start of the wall *)
Definition begins (a : nat) : Prop := a <= i /\ st a = true /\ forall j, a < j <= i -> st j = false.

Definition WF0 (first : option Z) (idx : Z) : Prop :=
  (first = None /\ idx = Z.of_nat (S i)) \/
  (exists k, first = Some (Z.of_nat (S i)) /\ idx = Z.of_nat (S k) /\ S i < S k <= N /\ mv k = true /\
     forall j, S i <= j < S k -> stop_seen ls j = false) \/
  (exists a k, begins a /\ first = Some (Z.of_nat (S i)) /\ idx = Z.of_nat (S k) /\ a < S k <= S i /\ mv k = true /\ sp (S i) = false) \/
  (exists a k, begins a /\ first = Some (Z.of_nat a) /\ idx = Z.of_nat (S k) /\ a < S k <= S i /\ mv k = true /\ sp (S i) = true).
Definition WF (first : option Z) (idx : Z) : Prop :=
  (first = None /\ idx = Z.of_nat (S i) /\ sp (S i) = false) \/
  (exists a, begins a /\ first = None /\ idx = Z.of_nat a /\ sp (S i) = true) \/
  (exists k, first = Some (Z.of_nat (S i)) /\ idx = Z.of_nat k /\ S i < k <= N /\ forall j, S i <= j <= k -> stop_seen ls j = false) \/
  (exists a k, begins a /\ first = Some (Z.of_nat (S i)) /\ idx = Z.of_nat k /\ a <= k <= S i /\ sp (S i) = false) \/
  (exists a k, begins a /\ first = Some (Z.of_nat a) /\ idx = Z.of_nat k /\ a <= k <= i /\ sp (S i) = true).

Definition muWF (first : option Z) (idx : Z) : nat :=
  match first with
  | None => 2 * N + 6
  | Some s => if (idx <=? Z.of_nat (S i))%Z then if (idx =? s)%Z then 0 else S (Z.to_nat (Z.of_nat (S i) - idx))
              else N + 4 + Z.to_nat (Z.of_nat N - idx)
  end.

Ltac mu := unfold muWF; repeat match goal with
  | |- context [(?a <=? ?b)%Z] => destruct (Z.leb_spec a b)
  | |- context [(?a =? ?b)%Z] => destruct (Z.eqb_spec a b) end; lia.

Lemma reset_ahead : forall k, i < k -> (forall j, i < j < k -> st j = false) ->
  match reset_index Cura Forward ls (Z.of_nat k) with
  | None => Loud
  | Some j => exists a, j = Z.of_nat a /\ begins a
  end.
Proof.
  intros k Hk Hn. unfold reset_index. rewrite Nat2Z.id. pose proof (search_down_spec start_marker ls k) as Hs.
  destruct (search_down (has start_marker) ls 0 k) as [a|]; cbn [shift].
  2:{ apply wall_loud_start. intros j Hj. apply Hs. lia. }
  destruct Hs as (H1 & H2 & H3).
  assert (Ha : a <= i).
  { destruct (Nat.le_gt_cases a i) as [C|C]; [exact C|]. change (st a = true) in H2. rewrite Hn in H2 by lia. discriminate H2. }
  exists a. split; [lia|]. split; [exact Ha|]. split; [exact H2|]. intros j Hj. apply H3. lia.
Qed.

Lemma wall_forward_wraps : wraps_well Cura Forward ls WF0 WF muWF Loud.
Proof.
  intros first idx H. cbn [wraps].
  destruct (line_at ls idx) as [l|] eqn:El; [|exact I].
  apply line_at_some in El as (k & -> & El & Hk). rewrite (line_stop _ _ El).
  destruct H as [(-> & E)|[(k' & -> & E & H1 & H2 & H3)|[(a & k' & Ha & -> & E & H1 & H2 & H3)|(a & k' & Ha & -> & E & H1 & H2 & H3)]]];
    apply Nat2Z.inj in E; subst k.
  - destruct (sp (S i)) eqn:Es.
    + pose proof (reset_ahead (S i) ltac:(lia) ltac:(intros j Hj; lia)) as Hr.
      destruct (reset_index Cura Forward ls (Z.of_nat (S i))) as [j|]; [|exact Hr]. destruct Hr as (a & -> & Ha).
      split; [right; left; exists a; auto|]. cbn [muWF]. lia.
    + left. auto.
  - destruct (sp (S k')) eqn:Es.
    + assert (Hst : forall j, i < j < S k' -> st j = false).
      { apply wall_ahead; [lia|rewrite seen_stop; assumption|]. intros j Hj. apply H3. lia. }
      pose proof (reset_ahead (S k') ltac:(lia) Hst) as Hr.
      destruct (reset_index Cura Forward ls (Z.of_nat (S k'))) as [j|]; [|exact Hr]. destruct Hr as (a & -> & Ha).
      split.
      * right. right. right. left. exists a, a. pose proof (proj1 Ha). repeat split; auto; try apply Ha; try lia.
        rewrite <- (seen_stop i Hmi). apply H3. lia.
      * pose proof (proj1 Ha). mu.
    + right. right. left. exists (S k'). repeat split; auto; try lia. intros j Hj.
      destruct (Nat.eq_dec j (S k')) as [-> |Hne]; [rewrite seen_stop; assumption|apply H3; lia].
  - assert (Es : sp (S k') = false).
    { destruct (Nat.eq_dec k' i) as [-> |Hne]; [exact H3|]. rewrite <- (seen_stop k' H2).
      apply (wall_behind a); try apply Ha. lia. }
    rewrite Es. right. right. right. left. exists a, (S k'). repeat split; auto; try apply Ha; lia.
  - destruct (Nat.eq_dec k' i) as [-> |Hne].
    + rewrite H3. pose proof (reset_ahead (S i) ltac:(lia) ltac:(intros j Hj; lia)) as Hr.
      destruct (reset_index Cura Forward ls (Z.of_nat (S i))) as [j|]; [|exact Hr]. destruct Hr as (a' & -> & Ha').
      assert (a' = a).
      { destruct Ha as (A1 & A2 & A3), Ha' as (B1 & B2 & B3). destruct (Nat.lt_trichotomy a' a) as [C|[C|C]]; [|exact C|].
        - rewrite B3 in A2 by lia. discriminate A2.
        - rewrite A3 in B2 by lia. discriminate B2. }
      subst a'. split.
      * right. right. right. right. exists a, a. repeat split; auto; try apply Ha; lia.
      * pose proof (proj1 Ha). mu.
    + assert (Es : sp (S k') = false).
      { rewrite <- (seen_stop k' H2). apply (wall_behind a); try apply Ha. lia. }
      rewrite Es. right. right. right. right. exists a, (S k'). repeat split; auto; try apply Ha; lia.
Qed.

Lemma wall_forward_moves : moves_on Cura Forward ls WF0 WF muWF Loud.
Proof.
  intros first idx l H Hl Hf. apply line_at_some in Hl as (k & -> & Hl & Hk).
  cbn [stops_on_off increment]. rewrite andb_false_r. rewrite (line_move _ _ Hl).
  replace (Z.of_nat k + 1)%Z with (Z.of_nat (S k)) by lia.
  destruct H as [(-> & E & H1)|[(a & Ha & -> & E & H1)|[(k' & -> & E & H1 & H2)|[(a & k' & Ha & -> & E & H1 & H2)|(a & k' & Ha & -> & E & H1 & H2)]]]];
    apply Nat2Z.inj in E; subst k; cbn [first_of].
  - split; [|split].
    + intros Hm. right. right. left. exists (S (S i)). repeat split; auto; try lia. intros j Hj.
      destruct (Nat.eq_dec j (S i)) as [-> |Hne]; [rewrite seen_stop; assumption|]. replace j with (S (S i)) by lia.
      apply unseen_stop, Hm.
    + intros Hm. right. left. exists (S i). repeat split; auto; try lia. intros j Hj. replace j with (S i) by lia.
      rewrite seen_stop; assumption.
    + mu.
  - pose proof (proj1 Ha) as Hai. split; [|split].
    + intros Hm. right. right. right. right. exists a, (S a). repeat split; auto; try apply Ha; try lia.
      destruct (Nat.eq_dec a i) as [-> |Hne]; [congruence|lia].
    + intros Hm. right. right. right. exists a, a. repeat split; auto; try apply Ha; lia.
    + mu.
  - split; [|split].
    + intros Hm. right. right. left. exists (S k'). repeat split; auto; try lia. intros j Hj.
      destruct (Nat.eq_dec j (S k')) as [-> |Hne]; [apply unseen_stop, Hm|apply H2; lia].
    + intros Hm. right. left. exists k'. repeat split; auto; try lia. intros j Hj. apply H2. lia.
    + mu.
  - pose proof (proj1 Ha) as Hai. cbn [is_first] in Hf. apply Z.eqb_neq in Hf. split; [|split].
    + intros Hm. right. right. right. left. exists a, (S k'). repeat split; auto; try apply Ha; lia.
    + intros Hm. right. right. left. exists a, k'. repeat split; auto; try apply Ha; lia.
    + mu.
  - pose proof (proj1 Ha) as Hai. cbn [is_first] in Hf. apply Z.eqb_neq in Hf. split; [|split].
    + intros Hm. right. right. right. right. exists a, (S k'). repeat split; auto; try apply Ha; try lia.
      destruct (Nat.eq_dec k' i) as [-> |Hne]; [congruence|lia].
    + intros Hm. right. right. right. exists a, k'. repeat split; auto; try apply Ha; lia.
    + mu.
Qed.

Lemma wall_forward_start : WF0 None (Z.of_nat i + 1).
Proof. left. split; [reflexivity|lia]. Qed.

(** ** Backward *)

(** the walk back goes below the line first *)
Definition below : Prop := start_seen ls i = false /\ 0 < i.
Lemma below_dec : below \/ start_seen ls i = true \/ i = 0.
Proof. unfold below. destruct (start_seen ls i); [now right; left|]. destruct (Nat.eq_dec i 0); [now right; right|left; split; [reflexivity|lia]]. Qed.

Definition WB0 (first : option Z) (idx : Z) : Prop :=
  (first = None /\ idx = (Z.of_nat i - 1)%Z) \/
  (exists k, below /\ first = Some (Z.of_nat i - 1)%Z /\ idx = (Z.of_nat k - 1)%Z /\ lo <= k < i /\ mv k = true) \/
  (exists k g, below /\ first = Some (Z.of_nat i - 1)%Z /\ idx = (Z.of_nat k - 1)%Z /\ G = Some g /\ i <= k < g /\ mv k = true) \/
  (exists k g, (start_seen ls i = true \/ i = 0) /\ first = Some (Z.of_nat g - 1)%Z /\ idx = (Z.of_nat k - 1)%Z /\ G = Some g /\
     i <= k < g /\ mv k = true).
Definition WB (first : option Z) (idx : Z) : Prop :=
  (below /\ first = None /\ idx = (Z.of_nat i - 1)%Z) \/
  (exists g, (start_seen ls i = true \/ i = 0) /\ first = None /\ idx = (Z.of_nat g - 1)%Z /\ G = Some g) \/
  (below /\ first = Some (Z.of_nat i - 1)%Z /\ (-1 <= idx <= Z.of_nat i - 2)%Z /\ (start_seen ls lo = true -> (Z.of_nat lo <= idx)%Z)) \/
  (exists g, below /\ first = Some (Z.of_nat i - 1)%Z /\ G = Some g /\ (Z.of_nat i - 1 <= idx <= Z.of_nat g - 1)%Z) \/
  (exists g, (start_seen ls i = true \/ i = 0) /\ first = Some (Z.of_nat g - 1)%Z /\ G = Some g /\ (Z.of_nat i <= idx <= Z.of_nat g - 1)%Z).

Definition muWB (first : option Z) (idx : Z) : nat :=
  match first with
  | None => 2 * N + 6
  | Some s => if (idx =? s)%Z then 0
              else if (idx <? Z.of_nat i - 1)%Z then N + 5 + Z.to_nat (idx + 1)
              else S (Z.to_nat (idx + 1 - Z.of_nat i))
  end.

Ltac mu ::= unfold muWB; repeat match goal with
  | |- context [(?a <? ?b)%Z] => destruct (Z.ltb_spec a b)
  | |- context [(?a =? ?b)%Z] => destruct (Z.eqb_spec a b) end; lia.

Lemma reset_behind : forall k, lo <= k <= i ->
  reset_index Cura Backward ls (Z.of_nat k - 1) = match G with Some g => Some (Z.of_nat g - 1)%Z | None => None end.
Proof.
  intros k Hk. unfold reset_index. replace (Z.of_nat k - 1 + 1)%Z with (Z.of_nat k) by lia.
  pose proof (search_from_spec stop_marker ls k) as Hs.
  destruct (search_from (has stop_marker) ls (Z.of_nat k)) as [f|]; cbn [shift].
  - destruct Hs as (H1 & H2 & H3). change (sp f = true) in H2.
    assert (Hif : i < f).
    { destruct (Nat.lt_ge_cases i f) as [C|C]; [exact C|]. rewrite lo_calm in H2 by lia. discriminate H2. }
    destruct G as [g|] eqn:Eg.
    + destruct (G_some g Eg) as (G1 & G2 & G3 & _). f_equal.
      assert (f = g); [|lia]. destruct (Nat.lt_trichotomy f g) as [C|[C|C]]; [|exact C|].
      * rewrite G3 in H2 by lia. discriminate H2.
      * assert (Hg : sp g = false) by (apply H3; lia). congruence.
    + rewrite (G_none Eg) in H2 by lia. discriminate H2.
  - destruct G as [g|] eqn:Eg; [|reflexivity]. destruct (G_some g Eg) as (G1 & G2 & _).
    assert (Hg : sp g = false) by (apply Hs; lia). congruence.
Qed.

Lemma wall_backward_wraps : wraps_well Cura Backward ls WB0 WB muWB Loud.
Proof.
  intros first idx H. cbn [wraps].
  assert (Hi' : exists k, idx = (Z.of_nat k - 1)%Z /\ mv k = true).
  { destruct H as [(_ & ->)|[(k & _ & _ & -> & _ & Hm)|[(k & g & _ & _ & -> & _ & _ & Hm)|(k & g & _ & _ & -> & _ & _ & Hm)]]]; eauto. }
  destruct Hi' as (k & -> & Hm).
  replace (Z.of_nat k - 1 + 1)%Z with (Z.of_nat k) by lia.
  assert (HkN : exists l, nth_error ls k = Some l).
  { unfold moves_at in Hm. destruct (nth_error ls k) as [l|]; [eauto|discriminate Hm]. }
  destruct HkN as (l & El).
  (* the walk begins again when it sees the start, or before the first line *)
  assert (Ew : (if (Z.of_nat k - 1 <? 0)%Z then Ok true
                else match line_at ls (Z.of_nat k) with Some l => Ok (has start_marker l) | None => Err IndexError end) =
               Ok (start_seen ls k || (k =? 0)%nat)).
  { destruct (Z.ltb_spec (Z.of_nat k - 1) 0) as [C|C].
    - replace (k =? 0)%nat with true by (symmetry; apply Nat.eqb_eq; lia). rewrite orb_true_r. reflexivity.
    - replace (k =? 0)%nat with false by (symmetry; apply Nat.eqb_neq; lia). rewrite orb_false_r, line_at_nat, El.
      rewrite (seen_start k Hm), at_line, El. reflexivity. }
  rewrite Ew. clear Ew.
  assert (Hr : forall first', lo <= k <= i ->
    (forall g, G = Some g -> WB first' (Z.of_nat g - 1) /\ muWB first' (Z.of_nat g - 1) <= muWB first' (Z.of_nat k - 1)) ->
    match reset_index Cura Backward ls (Z.of_nat k - 1) with
    | None => Loud | Some j => WB first' j /\ muWB first' j <= muWB first' (Z.of_nat k - 1) end).
  { intros first' Hk Hg. rewrite reset_behind by exact Hk. destruct G as [g|] eqn:Eg; [|apply wall_loud_stop, Eg]. apply Hg. reflexivity. }
  destruct H as [(-> & E)|[(k' & Hb & -> & E & H1 & H2)|[(k' & g & Hb & -> & E & Eg & H1 & H2)|(k' & g & Hb & -> & E & Eg & H1 & H2)]]].
  - assert (k = i) by lia. subst k. destruct below_dec as [Hb|Hb].
    + destruct Hb as [B1 B2]. rewrite B1. replace (i =? 0)%nat with false by (symmetry; apply Nat.eqb_neq; lia). cbn [orb].
      left. repeat split; auto.
    + replace (start_seen ls i || (i =? 0)%nat) with true.
      2:{ symmetry. destruct Hb as [-> | ->]; [reflexivity|apply orb_true_r]. }
      apply Hr; [pose proof lo_le; lia|]. intros g Eg. split; [|cbn [muWB]; lia]. right. left. exists g. auto.
  - assert (k' = k) by lia. subst k'. destruct (start_seen ls k || (k =? 0)%nat) eqn:Es.
    + apply Hr; [lia|]. intros g Eg. destruct (G_some g Eg) as (G1 & _). split.
      * right. right. right. left. exists g. repeat split; auto; try apply Hb; lia.
      * mu.
    + apply orb_false_iff in Es as [E1 E2]. apply Nat.eqb_neq in E2. right. right. left.
      split; [exact Hb|]. split; [reflexivity|]. split; [lia|]. intros Hs.
      destruct (Nat.eq_dec k lo) as [-> |Hne]; [congruence|lia].
  - assert (k' = k) by lia. subst k'. destruct (G_some g Eg) as (G1 & G2 & G3 & G4).
    replace (start_seen ls k || (k =? 0)%nat) with false.
    2:{ symmetry. apply orb_false_iff. destruct Hb as [B1 B2]. split; [|apply Nat.eqb_neq; lia].
        destruct (Nat.eq_dec k i) as [-> |Hne]; [exact B1|apply G4; lia]. }
    right. right. right. left. exists g. repeat split; auto; try apply Hb; lia.
  - assert (k' = k) by lia. subst k'. destruct (G_some g Eg) as (G1 & G2 & G3 & G4).
    destruct (Nat.eq_dec k i) as [-> |Hne].
    + replace (start_seen ls i || (i =? 0)%nat) with true.
      2:{ symmetry. destruct Hb as [-> | ->]; [reflexivity|apply orb_true_r]. }
      apply Hr; [pose proof lo_le; lia|]. intros g' Eg'. assert (g' = g) by congruence. subst g'. split.
      * right. right. right. right. exists g. repeat split; auto; lia.
      * mu.
    + replace (start_seen ls k || (k =? 0)%nat) with false.
      2:{ symmetry. apply orb_false_iff. split; [apply G4; lia|apply Nat.eqb_neq; lia]. }
      right. right. right. right. exists g. repeat split; auto; lia.
Qed.

Lemma wall_backward_moves : moves_on Cura Backward ls WB0 WB muWB Loud.
Proof.
  intros first idx l H Hl Hf. apply line_at_some in Hl as (k & -> & Hl & Hk).
  cbn [stops_on_off increment]. rewrite andb_false_r. rewrite (line_move _ _ Hl).
  pose proof lo_le as Hlo.
  destruct H as [(Hb & -> & E)|[(g & Hb & -> & E & Eg)|[(Hb & -> & H1 & H2)|[(g & Hb & -> & Eg & H1)|(g & Hb & -> & Eg & H1)]]]];
    cbn [first_of].
  - destruct Hb as [B1 B2].
    assert (Hlt : lo < i \/ lo = i /\ start_seen ls lo = false).
    { destruct (Nat.eq_dec lo i) as [Ee|Hne]; [right; split; [exact Ee|rewrite Ee; exact B1]|left; lia]. }
    assert (Hlt' : lo < i) by (destruct Hlt as [?|[E1 E2]]; [assumption|]; destruct lo_seen; [congruence|lia]).
    split; [|split].
    + intros Hm. right. right. left. split; [split; assumption|]. split; [f_equal; exact E|]. split; [lia|]. intros Hs.
      assert (lo <> k); [|lia]. intros Ek. unfold start_seen in Hs. rewrite Ek, Hm, andb_false_r in Hs. discriminate Hs.
    + intros Hm. right. left. exists k. repeat split; auto; try lia. f_equal; exact E.
    + mu.
  - destruct (G_some g Eg) as (G1 & _). split; [|split].
    + intros Hm. right. right. right. right. exists g. repeat split; auto; try lia; [f_equal; exact E|].
      destruct (Nat.eq_dec k i) as [-> |Hne]; [congruence|lia].
    + intros Hm. right. right. right. exists k, g. repeat split; auto; try lia. f_equal; exact E.
    + mu.
  - cbn [is_first] in Hf. apply Z.eqb_neq in Hf.
    assert (Hk0 : lo <= k) by (destruct lo_seen as [C|C]; [specialize (H2 C); lia|lia]).
    split; [|split].
    + intros Hm. right. right. left. split; [exact Hb|]. split; [reflexivity|]. split; [lia|]. intros Hs.
      assert (lo <> k); [|lia]. intros Ek. unfold start_seen in Hs. rewrite Ek, Hm, andb_false_r in Hs. discriminate Hs.
    + intros Hm. right. left. exists k. repeat split; auto; try apply Hb; lia.
    + mu.
  - cbn [is_first] in Hf. apply Z.eqb_neq in Hf. split; [|split].
    + intros Hm. right. right. right. left. exists g. repeat split; auto; try apply Hb; try lia.
    + intros Hm. right. right. left. exists k, g. repeat split; auto; try apply Hb; lia.
    + mu.
  - cbn [is_first] in Hf. apply Z.eqb_neq in Hf. split; [|split].
    + intros Hm. right. right. right. right. exists g. repeat split; auto; try lia.
      destruct (Nat.eq_dec k i) as [-> |Hne]; [congruence|lia].
    + intros Hm. right. right. right. exists k, g. repeat split; auto; lia.
    + mu.
Qed.

Lemma wall_backward_start : WB0 None (Z.of_nat i - 1).
Proof. left. auto. Qed.

Lemma wall_absolute_ends : forall fuel w old max loc,
  match absolute_stretch fuel Cura w ls (Z.of_nat i) old max loc with
  | Ok (_, p) => p = [] \/ Loud
  | Err e => e = OutOfFuel -> fuel <= 2 * N + 6
  end.
Proof.
  intros fuel w old max loc. apply (absolute_found Cura ls WF0 WF muWF WB0 WB muWB Loud (2 * N + 6));
    auto using wall_forward_moves, wall_forward_wraps, wall_backward_moves, wall_backward_wraps, wall_forward_start, wall_backward_start.
Qed.

End P.

(** * P_StretchGeo: how far a stretched point moves *)
From Coq Require Import List Ascii String ZArith NArith Bool Lia Reals Lra.
From Verif Require Import PyBase Arith ArithR Gcoder Filters SpecText SpecLoad SpecMachine SpecMeasure SpecEqual SpecFilter
  Stretch SpecStretch P_Load P_Text P_Wf P_Machine P_Measure P_Format P_Filter P_FilterMotion P_Stretch P_StretchRead.
Import ListNotations.
Local Open Scope list_scope.
Local Open Scope R_scope.

Lemma r_scale : forall (a : cplx (A:=RA)) (k : num RA), c_scale a k = ((fst a * k)%R, (snd a * k)%R).
Proof.
  intros [x y] k. unfold c_scale. cbn. f_equal; try lra.
Qed.
Lemma r_div : forall (a : cplx (A:=RA)) (k : num RA) r, c_div a k = Ok r ->
  (k <> 0)%R /\ r = ((fst a / k)%R, (snd a / k)%R).
Proof.
  intros [x y] k r H. unfold c_div in H. 
  destruct (n_eqb k n0) eqn:Ek; [discriminate H|].
  assert (Hk : k <> 0).
  { intros C. assert (n_eqb (a:=RA) k n0 = true) by (apply (val_eqb RA exactR); rewrite val_n0; exact C). congruence. }
  split; [exact Hk|]. apply ok_inj in H. subst r. cbn [fst snd].
  cbn. f_equal; field; exact Hk.
Qed.

Lemma r_hypot_sq : forall a : cplx (A:=RA), (c_abs a * c_abs a)%R = (fst a * fst a + snd a * snd a)%R.
Proof.
  intros [x y]. unfold c_abs. cbn [n_hypot RA fst snd]. apply sqrt_sqrt. nra.
Qed.
Lemma r_hypot_pos : forall a : cplx (A:=RA), (0 <= (c_abs a : R))%R.
Proof. intros [x y]. unfold c_abs. cbn [n_hypot RA fst snd]. apply sqrt_pos. Qed.

(** the stretch is clipped to the maximum *)
Lemma absolute_clipped : forall fuel d w ls i old (max : num RA) loc move printed, (0 <= max)%R ->
  absolute_stretch (A:=RA) fuel d w ls i old max loc = Ok (move, printed) ->
  (fst move * fst move + snd move * snd move <= max * max)%R.
Proof.
  intros fuel d w ls i old max loc move printed Hm H. unfold absolute_stretch in H.
  destruct (relative_stretch _ _ Forward _ _ _ _ _) as [[r1 p1]|e]; cbn [bind] in H; [|discriminate H].
  destruct (relative_stretch _ _ Backward _ _ _ _ _) as [[r2 p2]|e]; cbn [bind] in H; [|discriminate H].
  destruct (cross_limited _ _ _ _ _ _ Forward _ _) as [[r3 p3]|e]; cbn [bind] in H; [|discriminate H].
  destruct (cross_limited _ _ _ _ _ _ Backward _ _) as [[r4 p4]|e]; cbn [bind] in H; [|discriminate H].
  assert (Hu : forall r5 : cplx (A:=RA), (fst r5 * fst r5 + snd r5 * snd r5 <= 1)%R ->
    (fst (c_scale r5 max) * fst (c_scale r5 max) + snd (c_scale r5 max) * snd (c_scale r5 max) <= max * max)%R).
  { intros [x y] Hr. rewrite r_scale. cbn [fst snd] in *.
    replace (x * max * (x * max) + y * max * (y * max))%R with ((x * x + y * y) * (max * max))%R by ring.
    assert (0 <= max * max) by nra. nra. }
  pose proof (r_hypot_sq r4) as Hs. pose proof (r_hypot_pos r4) as Hp.
  destruct (n_ltb n1 (c_abs r4)) eqn:El.
  - destruct (c_div r4 (c_abs r4)) as [r5|e] eqn:Ed; cbn [bind] in H; [|discriminate H].
    apply ok_inj in H. inversion H; subst move. apply Hu. apply r_div in Ed as [Hn ->]. cbn [fst snd].
    replace (fst r4 / c_abs r4 * (fst r4 / c_abs r4) + snd r4 / c_abs r4 * (snd r4 / c_abs r4))%R
      with ((fst r4 * fst r4 + snd r4 * snd r4) / (c_abs r4 * c_abs r4))%R by (field; exact Hn).
    rewrite <- Hs. right. field. exact Hn.
  - cbn [bind] in H. apply ok_inj in H. inversion H; subst move. apply Hu.
    assert (Hl : ~ (n1 (A:=RA) < c_abs r4)%R).
    { intros C. assert (n_ltb (a:=RA) n1 (c_abs r4) = true) by (apply (val_ltb RA exactR); exact C). congruence. }
    assert (H1 : (n1 (A:=RA)) = 1%R) by (apply (val_n1 exactR)). rewrite H1 in Hl. rewrite <- Hs. nra.
Qed.

(** ** The whole filter *)

Section P.
Context {A : arith}.

Lemma upto_cons : forall k (ms : list (line A)) m, nth_error ms k = Some m -> upto k ms = m :: rev (firstn k ms).
Proof.
  intros k ms m H. unfold upto.
  assert (E : firstn (S k) ms = firstn k ms ++ [m]).
  { revert ms H. induction k as [|k IH]; intros [|x ms] H; cbn in H; try discriminate.
    - injection H as ->. reflexivity.
    - cbn. f_equal. apply IH, H. }
  rewrite E, rev_app_distr. reflexivity.
Qed.

Lemma to_stretch_move : forall o w m (seen : list (line A)), to_stretch o w (m :: seen) = true -> xy_move m = true.
Proof.
  intros o w m seen H. unfold to_stretch, loop_move in H. apply andb_prop in H as [H _].
  apply andb_prop in H as [H _]. exact H.
Qed.

Lemma stretch_lines_fate : forall profile fuel d o (g g' : gcode A) printed,
  stretch profile fuel d o g = Ok (g', printed) ->
  exists w ms, marking profile d g w ms /\
    Forall2 marked_line (all_lines g) ms /\ List.length (all_lines g') = List.length ms /\
    forall k m l', nth_error ms k = Some m -> nth_error (all_lines g') k = Some l' ->
      exists layer_ i, line_fate fuel d o w layer_ i (rev (firstn k ms)) m l'.
Proof.
  intros profile fuel d o g g' printed H. apply stretch_ok in H as (w & ys & H1 & H2 & H3 & H4 & H5 & H6).
  exists w, (lines_of ys). repeat split; auto. exists ys. auto.
Qed.

Lemma forall2_nth : forall (X Y : Type) (P : X -> Y -> Prop) xs ys k x, Forall2 P xs ys -> nth_error xs k = Some x ->
  exists y, nth_error ys k = Some y /\ P x y.
Proof.
  intros X Y P xs ys k x H. revert k x. induction H as [|a b xs ys Hab H IH]; intros [|k] x Hk; cbn in Hk; try discriminate.
  - injection Hk as ->. exists b. auto.
  - destruct (IH k x Hk) as (y & H1 & H2). exists y. auto.
Qed.

Lemma nth_of_length : forall (X Y : Type) (xs : list X) (ys : list Y) k x, List.length xs = List.length ys ->
  nth_error xs k = Some x -> exists y, nth_error ys k = Some y.
Proof.
  intros X Y xs ys k x Hl H. destruct (nth_error ys k) as [y|] eqn:E; [eauto|].
  apply nth_error_None in E. assert (nth_error xs k <> None) by congruence. apply nth_error_Some in H0. lia.
Qed.

(** C56: shape *)
Lemma stretch_shape : forall profile fuel d o (g g' : gcode A) printed,
  stretch profile fuel d o g = Ok (g', printed) ->
  same_frame g g' /\
  map (fun y => List.length (ly_lines y)) (g_layers g') = map (fun y => List.length (ly_lines y)) (g_layers g).
Proof.
  intros profile fuel d o g g' printed H. apply stretch_ok in H as (w & ys & H1 & H2 & H3 & _). auto.
Qed.

(** C56: text of the lines *)
Lemma stretch_texts : forall profile fuel d o (g g' : gcode A) printed,
  stretch profile fuel d o g = Ok (g', printed) ->
  exists w ms, marking profile d g w ms /\
    Forall2 (fun l m => same_but_text l m /\ marked (raw l) (raw m)) (all_lines g) ms /\
    List.length (all_lines g') = List.length (all_lines g) /\
    forall k l l', nth_error (all_lines g) k = Some l -> nth_error (all_lines g') k = Some l' ->
      to_stretch o w (upto k ms) = false ->
      marked (raw l) (raw l') /\ (settled l -> markable (raw l) -> reads_alike l l').
Proof.
  intros profile fuel d o g g' printed H.
  destruct (stretch_lines_fate _ _ _ _ _ _ _ H) as (w & ms & H1 & H2 & H3 & H4).
  exists w, ms. split; [exact H1|]. split; [exact H2|].
  split. { rewrite H3. clear - H2. induction H2; cbn; congruence. }
  intros k l l' Hl Hl' Ht. destruct (forall2_nth _ _ _ _ _ _ _ H2 Hl) as (m & Hm & M1 & M2).
  rewrite (upto_cons _ _ _ Hm) in Ht.
  destruct (H4 k m l' Hm Hl') as (la & i & Hf). destruct Hf as [l' _ Hr|]; [|congruence].
  split.
  - rewrite (reparse_raw _ _ Hr). exact M2.
  - intros Hs Hk. eapply settled_marked; eassumption.
Qed.

(** C59: the words of a stretched line *)
Lemma stretch_words : forall profile fuel d o (g g' : gcode A) printed,
  stretch profile fuel d o g = Ok (g', printed) ->
  exists w ms, marking profile d g w ms /\
    forall k l', nth_error (all_lines g') k = Some l' -> to_stretch o w (upto k ms) = true ->
      exists m move, nth_error ms k = Some m /\ xy_move m = true /\
        (finite_args (moved_args m (point_of (upto k ms)) move (feed_of (upto k ms))) ->
         command l' = command m /\ is_move l' = true /\
         largs l' = rounded_args (moved_args m (point_of (upto k ms)) move (feed_of (upto k ms)))).
Proof.
  intros profile fuel d o g g' printed H.
  destruct (stretch_lines_fate _ _ _ _ _ _ _ H) as (w & ms & H1 & H2 & H3 & H4).
  exists w, ms. split; [exact H1|]. intros k l' Hl' Ht.
  destruct (nth_of_length _ _ _ _ _ _ H3 Hl') as (m & Hm). rewrite (upto_cons _ _ _ Hm) in Ht |- *.
  pose proof (to_stretch_move _ _ _ _ Ht) as Hx.
  destruct (H4 k m l' Hm Hl') as (la & i & Hf). destruct Hf as [l' Hn _|we move pr old l' Hw _ Hold Ha Hr]; [congruence|].
  exists m, move. split; [exact Hm|]. split; [exact Hx|]. intros Hf. apply stretched_reads; assumption.
Qed.

Section Exact.
Variable E : exact A.

(** C58 *)
Lemma zero_strength : forall o w (seen : list (line A)), (val E (o_strength o) = 0)%R -> to_stretch o w seen = false.
Proof.
  intros o w seen H. unfold to_stretch. destruct (loop_move seen); [|reflexivity]. cbn [andb].
  apply not_true_iff_false. intros C. apply (val_ltb A E) in C. rewrite val_n0 in C.
  unfold limit in C. destruct w as [we|]; [|rewrite val_n0 in C; lra].
  destruct (loop_of _) as [[]|]; rewrite ?(val_mul A E), ?H, ?val_n0 in C; lra.
Qed.

Lemma zero_strength_texts : forall profile fuel d o (g g' : gcode A) printed, (val E (o_strength o) = 0)%R ->
  stretch profile fuel d o g = Ok (g', printed) ->
  Forall2 (fun l l' => marked (raw l) (raw l') /\ (settled l -> markable (raw l) -> reads_alike l l'))
    (all_lines g) (all_lines g').
Proof.
  intros profile fuel d o g g' printed H0 H. destruct (stretch_texts _ _ _ _ _ _ _ H) as (w & ms & _ & _ & Hl & H1).
  assert (H2 : forall k l l', nth_error (all_lines g) k = Some l -> nth_error (all_lines g') k = Some l' ->
    marked (raw l) (raw l') /\ (settled l -> markable (raw l) -> reads_alike l l')).
  { intros k l l' A1 A2. apply (H1 k l l' A1 A2), zero_strength, H0. }
  clear - Hl H2. revert Hl H2. generalize (all_lines g) (all_lines g'). clear g g'. intros xs.
  induction xs as [|x xs IH]; intros [|y ys] Hl H; cbn in Hl; try discriminate; constructor.
  - apply (H 0%nat x y); reflexivity.
  - apply IH; [congruence|]. intros k l l' A1 A2. apply (H (S k) l l' A1 A2).
Qed.

End Exact.
End P.

(** C57, C59: over the reals *)
Lemma stretch_moves : forall profile fuel d (o : options (A:=RA)) (g g' : gcode RA) printed,
  stretch profile fuel d o g = Ok (g', printed) ->
  exists w ms, marking profile d g w ms /\
    forall k l', nth_error (all_lines g') k = Some l' -> to_stretch o w (upto k ms) = true ->
      exists m dx dy, nth_error ms k = Some m /\
        (dx * dx + dy * dy <= limit o w (loop_of (map raw (upto k ms))) * limit o w (loop_of (map raw (upto k ms))))%R /\
        command l' = command m /\ is_move l' = true /\
        largs l' = rounded_args (moved_args m (point_of (upto k ms)) (dx, dy) (feed_of (upto k ms))).
Proof.
  intros profile fuel d o g g' printed H.
  destruct (stretch_lines_fate _ _ _ _ _ _ _ H) as (w & ms & H1 & H2 & H3 & H4).
  exists w, ms. split; [exact H1|]. intros k l' Hl' Ht.
  destruct (nth_of_length _ _ _ _ _ _ H3 Hl') as (m & Hm). rewrite (upto_cons _ _ _ Hm) in Ht |- *.
  pose proof (to_stretch_move _ _ _ _ Ht) as Hx.
  destruct (H4 k m l' Hm Hl') as (la & i & Hf). destruct Hf as [l' Hn _|we move pr old l' Hw _ Hold Ha Hr]; [congruence|].
  exists m, (fst move), (snd move). split; [exact Hm|]. split.
  - eapply absolute_clipped; [|exact Ha]. unfold to_stretch in Ht. apply andb_prop in Ht as [_ Ht].
    apply (val_ltb RA exactR) in Ht. rewrite val_n0 in Ht. left. exact Ht.
  - destruct move as [dx dy]. apply stretched_reads; [exact Hx|apply (exact_finite exactR)|exact Hr].
Qed.

(** * P_StretchSafe: when a stretch filter raises nothing *)
From Coq Require Import List Ascii String ZArith NArith Bool Lia Reals Lra.
From Verif Require Import PyBase Arith ArithR Gcoder Filters SpecText SpecLoad SpecMeasure SpecEqual SpecFilter
  Stretch SpecStretch P_Load P_Text P_Wf P_Machine P_Measure P_Format P_Filter P_FilterMotion P_Stretch P_StretchRead P_StretchGeo
  P_StretchIter P_StretchEnd P_StretchErr.
Import ListNotations.
Local Open Scope list_scope.

Section P.
Context {A : arith}.

Lemma reparse_marked_ok : forall l m l1 : line A, reparse l = Ok l1 -> markable (raw l) -> same_but_text l m ->
  marked (raw l) (raw m) -> exists m', reparse m = Ok m'.
Proof.
  intros l m l1 H Hk Hm Hmk. pose proof (same_set_raw _ _ Hm) as Em.
  destruct (words_marked _ _ Hk Hmk) as (suf & W & Hsuf). rewrite reparse_read in H |- *. rewrite W. clear W.
  assert (Hnil : forall ws (x : line A), ws = [] \/ ws = [(""%string, ""%string)] -> exists y, parse_coordinates false ws x = Ok y).
  { intros ws x [-> | ->]; unfold parse_coordinates; destruct (command x) as [c|]; eauto; destruct (first_is "G" c); cbn; eauto. }
  destruct (words (raw l)) as [|[c v] t].
  - destruct Hsuf as [-> | ->]; cbn [app read_into]; apply Hnil; auto.
  - cbn [read_into app] in H |- *. rewrite Em. cbn [command set_raw].
    set (cmd := if String.eqb c "" && String.eqb v "" then command l else Some (upper c ++ v)%string) in *.
    change ((c, v) :: t ++ suf) with (((c, v) :: t) ++ suf). rewrite parse_coordinates_suf by exact Hsuf.
    change (set_command cmd (cmd_in cmd move_gcodes) (set_raw (raw m) l))
      with (set_raw (raw m) (set_command cmd (cmd_in cmd move_gcodes) l)).
    rewrite parse_coordinates_set_raw.
    eexists. exact (f_equal (fun r => bind r (fun x => Ok (set_raw (raw m) x))) H).
Qed.

Section Exact.
Variable E : exact A.
Notation val := (val E).
Local Open Scope R_scope.

Lemma eqb_zero : forall x : num A, val x <> 0 -> n_eqb x n0 = false.
Proof.
  intros x H. apply not_true_iff_false. intros C. apply (val_eqb A E) in C. rewrite val_n0 in C. contradiction.
Qed.

Lemma c_div_ok : forall (a : cplx (A:=A)) k, val k <> 0 -> exists r, c_div a k = Ok r.
Proof. intros a k H. unfold c_div. rewrite eqb_zero by exact H. eauto. Qed.
Lemma py_div_ok : forall a k : num A, val k <> 0 -> exists r, py_div a k = Ok r.
Proof. intros a k H. unfold py_div. rewrite eqb_zero by exact H. eauto. Qed.

Lemma not_ltb : forall x y : num A, n_ltb x y = false -> val y <= val x.
Proof.
  intros x y H. apply Rnot_lt_le. intros C. apply (val_ltb A E) in C. congruence.
Qed.
Lemma not_leb : forall x y : num A, n_leb x y = false -> val y < val x.
Proof.
  intros x y H. apply Rnot_le_lt. intros C. apply (val_leb A E) in C. congruence.
Qed.

Section Layer.
Variables (d : dialect) (ls : list (line A)).
(** no call of [get_next] fails *)
Variable Good : direction -> iter -> Prop.
Hypothesis Hnext : forall fuel dir it, Good dir it ->
  match get_next fuel d dir ls it with
  | Ok (Next _ it') => Good dir it'
  | Ok (Stop _) => True
  | Err e => e = OutOfFuel
  end.

Lemma loop_safe : forall n fuel dir w old loc lastl point old_total total it e, Good dir it ->
  0 < val (w_from w) -> val total < val (w_from w) ->
  relative_loop n fuel d dir w ls old loc lastl point old_total total it = Err e -> e = OutOfFuel.
Proof.
  induction n as [|n IH]; intros fuel dir w old loc lastl point old_total total it e Hg Hf Ht H; cbn [relative_loop] in H.
  { congruence. }
  pose proof (Hnext fuel dir it Hg) as Hn.
  destruct (get_next fuel d dir ls it) as [[l it'|p]|e']; cbn [bind] in H.
  - destruct (n_leb (w_from w) _) eqn:El.
    + apply (val_leb A E) in El. rewrite (val_add A E) in El.
      destruct (py_div_ok (n_sub (w_from w) old_total) (c_abs (c_sub lastl (drop_axis (get_location old l))))) as (r & Er); [lra|].
      rewrite Er in H. cbn [bind] in H.
      match type of H with context [c_div ?a ?k] => destruct (c_div_ok a k) as (r' & Er'); [lra|rewrite Er' in H] end.
      cbn [bind] in H. discriminate H.
    + apply not_leb in El. eapply IH; [exact Hn|exact Hf|exact El|exact H].
  - destruct (n_ltb n0 _) eqn:El; [|discriminate H]. apply (val_ltb A E) in El. rewrite val_n0 in El.
    match type of H with context [c_div ?a ?k] => destruct (c_div_ok a k) as (r' & Er'); [lra|rewrite Er' in H] end.
    cbn [bind] in H. discriminate H.
  - congruence.
Qed.

Lemma cross_safe : forall fuel dir w old st start loc e, Good dir (new_iter start) ->
  0 <= val (w_fraction w) -> val (w_remainder w) = 2 / 3 * val (w_cross w) ->
  cross_limited fuel d w ls old st dir start loc = Err e -> e = OutOfFuel.
Proof.
  intros fuel dir w old st start loc e Hg Hfr Hrem H. unfold cross_limited in H.
  pose proof (Hnext fuel dir (new_iter start) Hg) as Hn.
  destruct (get_next fuel d dir ls (new_iter start)) as [[l it'|p]|e']; cbn [bind] in H; [|discriminate H|congruence].
  set (len := c_abs (c_sub loc (drop_axis (get_location old l)))) in *.
  destruct (n_leb len (w_fraction w)) eqn:El; [discriminate H|]. apply not_leb in El.
  match type of H with context [c_div ?a ?k] => destruct (c_div_ok a k) as (r' & Er'); [lra|rewrite Er' in H] end.
  cbn [bind] in H. destruct (n_ltb (w_cross w) len) eqn:Ec; [discriminate H|]. apply not_ltb in Ec.
  match type of H with context [py_div ?a ?k] => destruct (py_div_ok a k) as (r2 & Er2); [lra|rewrite Er2 in H] end.
  cbn [bind] in H. discriminate H.
Qed.

Lemma absolute_safe : forall fuel o we i old max loc e, Good Forward (new_iter (i + 1)) -> Good Backward (new_iter (i - 1)) ->
  0 < val we -> 0 <= val (o_cross o) -> 0 < val (o_from o) ->
  absolute_stretch fuel d (edge_lengths o we) ls i old max loc = Err e -> e = OutOfFuel.
Proof.
  intros fuel o we i old max loc e G1 G2 Hw Hc Hf H. unfold absolute_stretch, relative_stretch in H.
  assert (Hfrom : 0 < val (w_from (edge_lengths o we))).
  { unfold edge_lengths. cbn [w_from]. rewrite (val_mul A E). nra. }
  assert (H3 : val (lit 3 0) = 3) by (rewrite val_lit; cbn; lra).
  assert (Hcr : val (w_cross (edge_lengths o we)) = val we * val (o_cross o)).
  { unfold edge_lengths. cbn [w_cross]. apply (val_mul A E). }
  assert (Hfr : val (w_fraction (edge_lengths o we)) = val (w_cross (edge_lengths o we)) / 3).
  { unfold edge_lengths. cbn [w_fraction w_cross]. rewrite (val_div A E), H3 by lra. reflexivity. }
  assert (Hrem : val (w_remainder (edge_lengths o we)) = 2 / 3 * val (w_cross (edge_lengths o we))).
  { unfold edge_lengths. cbn [w_remainder w_cross]. rewrite (val_sub A E), (val_div A E), H3 by lra. lra. }
  assert (Hfr0 : 0 <= val (w_fraction (edge_lengths o we))) by (rewrite Hfr, Hcr; nra).
  assert (Ht : val n0 < val (w_from (edge_lengths o we))) by (rewrite val_n0; exact Hfrom).
  destruct (relative_loop _ _ _ Forward _ _ _ _ _ _ _ _ _) as [[r1 p1]|e1] eqn:E1; cbn [bind] in H.
  2:{ rewrite (loop_safe _ _ _ _ _ _ _ _ _ _ _ _ G1 Hfrom Ht E1) in H. congruence. }
  destruct (relative_loop _ _ _ Backward _ _ _ _ _ _ _ _ _) as [[r2 p2]|e2] eqn:E2; cbn [bind] in H.
  2:{ rewrite (loop_safe _ _ _ _ _ _ _ _ _ _ _ _ G2 Hfrom Ht E2) in H. congruence. }
  destruct (cross_limited _ _ _ _ _ _ Forward _ _) as [[r3 p3]|e3] eqn:E3; cbn [bind] in H.
  2:{ rewrite (cross_safe _ _ _ _ _ _ _ _ G1 Hfr0 Hrem E3) in H. congruence. }
  destruct (cross_limited _ _ _ _ _ _ Backward _ _) as [[r4 p4]|e4] eqn:E4; cbn [bind] in H.
  2:{ rewrite (cross_safe _ _ _ _ _ _ _ _ G2 Hfr0 Hrem E4) in H. congruence. }
  destruct (n_ltb n1 (c_abs r4)) eqn:El; cbn [bind] in H; [|discriminate H].
  apply (val_ltb A E) in El. rewrite val_n1 in El.
  destruct (c_div_ok r4 (c_abs r4)) as (r5 & E5); [lra|]. rewrite E5 in H. discriminate H.
Qed.
End Layer.
End Exact.

(** ** No call of [get_next] fails *)

Definition iter_good (ls : list (line A)) (dir : direction) (it : iter) : Prop :=
  match dir with
  | Forward => (0 <= i_index it < Z.of_nat (List.length ls))%Z
  | Backward => (-1 <= i_index it < Z.of_nat (List.length ls) - 1)%Z
  end.

Lemma scan_err : forall fuel d dir (ls : list (line A)) first i e, scan fuel d dir ls first i = Err e -> e = OutOfFuel.
Proof.
  induction fuel as [|n IH]; intros d dir ls first i e H; cbn [scan] in H; [congruence|].
  destruct (line_at ls i); [|discriminate H]. destruct (is_first first i); [discriminate H|].
  destruct (_ && stops_on_off d); [destruct (reset_index d dir ls i); [eauto|discriminate H]|].
  destruct (_ && _); [discriminate H|eauto].
Qed.

Lemma last_nth : forall (ls : list (line A)) k l x, nth_error ls k = Some l -> S k = List.length ls -> last ls x = l.
Proof.
  intros ls k l x H Hk. destruct (exists_last (l:=ls)) as (pre & z & ->); [destruct ls; [destruct k|]; discriminate|].
  rewrite last_last. rewrite app_length in Hk. cbn in Hk.
  rewrite nth_error_app2 in H by lia. replace (k - List.length pre) with 0 in H by lia. cbn in H. congruence.
Qed.

Lemma next_good : forall d (ls : list (line A)), (d = Cura -> ends_moving ls = false) ->
  forall fuel dir it, (d = Cura \/ dir = Backward -> iter_good ls dir it) ->
  match get_next fuel d dir ls it with
  | Ok (Next _ it') => d = Cura \/ dir = Backward -> iter_good ls dir it'
  | Ok (Stop _) => True
  | Err e => e = OutOfFuel
  end.
Proof.
  intros d ls Hend fuel dir it Hg.
  destruct (get_next fuel d dir ls it) as [[l it'|p]|e] eqn:En; [|exact I|].
  - apply next_returns in En as (H1 & H2). intros Hd. specialize (Hg Hd).
    apply line_at_some in H1 as (k & H1 & H3 & H4). destruct dir; cbn [iter_good increment] in *.
    + destruct Hd as [Hd|Hd]; [|discriminate Hd]. specialize (Hend Hd).
      split; [lia|]. destruct (Z.eq_dec (i_index it') (Z.of_nat (List.length ls))) as [C|C]; [|lia]. exfalso.
      unfold ends_moving in Hend. rewrite (last_nth ls k l) in Hend; [congruence|exact H3|lia].
    + lia.
  - unfold get_next in En. destruct (wraps d dir ls (i_index it)) as [w|e'] eqn:Ew; cbn [bind] in En.
    + destruct w; [destruct (reset_index d dir ls (i_index it)); [|discriminate En]|]; eapply scan_err, En.
    + exfalso. unfold wraps in Ew. destruct dir; cbn [iter_good] in Hg.
      * destruct d; try discriminate Ew. specialize (Hg (or_introl eq_refl)).
        destruct (line_at ls (i_index it)) eqn:El; [discriminate Ew|].
        unfold line_at in El. destruct (Z.ltb_spec (i_index it) 0); [lia|]. apply nth_error_None in El. lia.
      * specialize (Hg (or_intror eq_refl)).
        assert (Hl : (i_index it <? 0)%Z = true \/ exists l, line_at ls (i_index it + 1) = Some l).
        { destruct (Z.ltb_spec (i_index it) 0); [now left|]. right.
          destruct (line_at ls (i_index it + 1)) eqn:El; [eauto|].
          unfold line_at in El. destruct (Z.ltb_spec (i_index it + 1) 0); [lia|]. apply nth_error_None in El. lia. }
        destruct d; try discriminate Ew; destruct Hl as [Hl|(x & Hl)]; rewrite Hl in Ew; try discriminate Ew;
          destruct (i_index it <? 0)%Z; discriminate Ew.
Qed.

(** ** The whole filter *)

Lemma stretched_line_reads : forall (E : exact A) (m : line A) p move feed, xy_move m = true ->
  exists l', reparse (stretched_line m p move feed) = Ok l'.
Proof.
  intros E m p move feed Hm.
  destruct (linear_command m Hm) as (v & sg & ip & pt & fp & Hc & Hv & Hmv).
  assert (Hf : finite_args (moved_args m p move feed)) by (apply (exact_finite E)).
  rewrite reparse_read. unfold stretched_line, unsplit. rewrite Hc. cbn [command largs raw set_raw].
  change (Args (Some (fst (c_add p move))) _ _ _ _ _ _) with (moved_args m p move feed).
  rewrite (words_unsplit _ _ _ _ _ _ Hv Hf). cbn [read_into].
  change (String.eqb "g" "" && String.eqb v "") with false. cbv iota.
  change (upper "g" ++ v)%string with (String "G" v).
  unfold parse_coordinates. cbn [command set_command first_is].
  change (Ascii.eqb "G" "G") with true. cbv iota.
  change (("g"%string, v) :: flat_map (word_of (moved_args m p move feed)) all_letters)
    with ([("g"%string, v)] ++ flat_map (word_of (moved_args m p move feed)) all_letters).
  rewrite foldM_app. cbn [foldM]. unfold parse_word at 1.
  change (letter_of_code "g") with (@None letter). cbn [bind]. rewrite parse_tail by exact Hf. eauto.
Qed.

Lemma last_app_cons : forall (X : Type) (a : list X) x b z, last (a ++ x :: b) z = last (x :: b) z.
Proof. intros X a x b z. induction a as [|y a IH]; [reflexivity|]. cbn [app]. destruct (a ++ x :: b) eqn:Ea; [destruct a; discriminate|]. exact IH. Qed.

Lemma marked_move : forall l m : line A, marked_line l m -> xy_move m = xy_move l.
Proof.
  intros l m ((H1 & H2 & H3 & H4) & _). unfold xy_move, is_command, l_x, l_y. rewrite H1, H3. reflexivity.
Qed.

Lemma marked_ends : forall ls ms : list (line A), Forall2 marked_line ls ms -> ends_moving ms = ends_moving ls.
Proof.
  intros ls ms H. unfold ends_moving. induction H as [|l m ls ms Hlm H IH]; [reflexivity|].
  destruct H as [|l' m' ls ms Hlm' H]; [cbn; apply marked_move, Hlm|]. exact IH.
Qed.

Lemma stretch_safe : forall (E : exact A) profile fuel d o (g : gcode A) we ys,
  setup_filter profile d (g_layers g) = Ok (Some we, ys) ->
  (0 < val E we)%R -> (0 <= val E (o_cross o))%R -> (0 < val E (o_from o))%R ->
  (d = Cura -> forall y, In y (g_layers g) -> ends_moving (ly_lines y) = false) ->
  Forall (fun l => markable (raw l) /\ exists l', reparse l = Ok l') (all_lines g) ->
  match stretch profile fuel d o g with Ok _ => True | Err e => e = OutOfFuel end.
Proof.
  intros E profile fuel d o g we ys Hset Hw Hc Hf Hend Hread.
  destruct (stretch profile fuel d o g) as [r|e] eqn:Es; [exact I|].
  apply stretch_err in Es as [Es|Es]; [congruence|].
  destruct Es as (w' & ys' & pre & y & post & Hset' & Ey & m1 & m & t & bs & Els & Hp & Hb).
  rewrite Hset in Hset'. assert (Ew : w' = Some we) by congruence. assert (Eys : ys = pre ++ y :: post) by congruence.
  clear Hset' Ey ys'. subst w' ys.
  pose proof (setup_marked _ _ _ _ _ Hset) as Hm.
  assert (Hlen : List.length bs = List.length m1) by (clear - Hp; induction Hp; cbn; congruence).
  (* the original of this layer *)
  assert (Hy : exists y0, In y0 (g_layers g) /\ Forall2 marked_line (ly_lines y0) (ly_lines y)).
  { clear - Hm. revert Hm. generalize (g_layers g). induction pre as [|x pre IH]; intros l Hm; inversion Hm; subst.
    - eexists. split; [now left|]. match goal with H : marked_layer _ _ |- _ => destruct H as (_ & _ & H); exact H end.
    - destruct (IH _ H3) as (y0 & H & H'). exists y0. split; [now right|exact H']. }
  destruct Hy as (y0 & Hin & Hy).
  assert (Hmv : to_stretch o (Some we) (m :: rev m1 ++ rev (lines_of pre)) = true ->
    forall old, absolute_stretch fuel d (edge_lengths o we) (bs ++ m :: t) (Z.of_nat (List.length bs)) (Some old)
      (limit o (Some we) (loop_of (map raw (m :: rev m1 ++ rev (lines_of pre)))))
      (point_of (m :: rev m1 ++ rev (lines_of pre))) = Err e -> e = OutOfFuel).
  { intros Ht old Ha. pose proof (to_stretch_move _ _ _ _ Ht) as Hx.
    assert (Hcura : d = Cura -> ends_moving (bs ++ m :: t) = false).
    { intros Hd. unfold ends_moving. rewrite last_app_cons. rewrite <- (last_app_cons _ m1 m t), <- Els.
      change (ends_moving (ly_lines y) = false). rewrite (marked_ends _ _ Hy). apply (Hend Hd), Hin. }
    refine (absolute_safe E d (bs ++ m :: t)
      (fun dir it => d = Cura \/ dir = Backward -> iter_good (bs ++ m :: t) dir it) _ fuel o we
      (Z.of_nat (List.length bs)) (Some old) _ _ e _ _ Hw Hc Hf Ha).
    - intros fuel' dir it. apply next_good, Hcura.
    - intros [Hd|Hd]; [|discriminate Hd]. cbn [iter_good new_iter i_index]. rewrite app_length. cbn [List.length].
      specialize (Hcura Hd). destruct t as [|x t]; [|cbn [List.length]; lia]. exfalso.
      unfold ends_moving in Hcura. rewrite last_last in Hcura. congruence.
    - intros _. cbn [iter_good new_iter i_index]. rewrite app_length. cbn [List.length]. lia. }
  inversion Hb; subst.
  - discriminate.
  - match goal with H : Some we = Some ?x |- _ => assert (x = we) by congruence; subst x end. eapply Hmv; eassumption.
  - exfalso. match goal with Ht : to_stretch _ _ _ = true, Hr : reparse _ = Err _ |- _ =>
      pose proof (to_stretch_move _ _ _ _ Ht) as Hx; revert Hr end.
    match goal with |- reparse (stretched_line ?m ?p ?mv ?f) = _ -> _ =>
      destruct (stretched_line_reads E m p mv f Hx) as (l' & ->) end. discriminate.
  - exfalso. match goal with Hr : reparse _ = Err _ |- _ => revert Hr end.
    assert (Hin0 : exists l0, In l0 (ly_lines y0) /\ marked_line l0 m).
    { assert (Hinm : In m (ly_lines y)) by (rewrite Els; apply in_or_app; right; now left).
      clear - Hy Hinm. induction Hy as [|a b la lb Hab Hy IH]; [destruct Hinm|].
      destruct Hinm as [-> |Hinm]; [exists a; split; [now left|exact Hab]|].
      destruct (IH Hinm) as (l0 & H1 & H2). exists l0. split; [now right|exact H2]. }
    destruct Hin0 as (l0 & Hl0 & M1 & M2).
    assert (Hall : In l0 (all_lines g)).
    { rewrite <- lines_of_all. unfold lines_of. apply in_concat. exists (ly_lines y0). split; [apply in_map, Hin|exact Hl0]. }
    rewrite Forall_forall in Hread. destruct (Hread l0 Hall) as (R1 & l1 & R2).
    destruct (reparse_marked_ok l0 m l1 R2 R1 M1 M2) as (m' & ->). discriminate.
Qed.

End P.

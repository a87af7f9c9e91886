(** * P_StretchWhole: where the points of a whole loop go *)
From Coq Require Import List Ascii String ZArith NArith Bool Lia Reals Lra.
From Verif Require Import PyBase Arith ArithR Gcoder Filters SpecText SpecLoad SpecMachine SpecMeasure SpecFilter
  Stretch SpecStretch SpecBend P_Load P_Text P_Wf P_Machine P_Measure P_Format P_Filter P_FilterMotion P_Stretch P_StretchRead P_StretchGeo
  P_StretchIter P_StretchLoop P_StretchProps P_StretchBend P_StretchRound.
Import ListNotations.
Local Open Scope list_scope.

(** ** The lines the iterators see *)

Section Seen.
Context {A : arith}.

Lemma fates_seen : forall fuel d o w m1 seen before (m : line A) t out l', fates fuel d o w seen before (m1 ++ m :: t) out ->
  nth_error out (List.length m1) = Some l' ->
  exists bs, List.length bs = List.length m1 /\
    (forall j mj, nth_error m1 j = Some mj -> exists bj, nth_error bs j = Some bj /\
       if to_stretch o w (rev (firstn (S j) m1) ++ seen) then bj = mj else reparse mj = Ok bj) /\
    line_fate fuel d o w (before ++ bs ++ m :: t) (List.length (before ++ bs)) (rev m1 ++ seen) m l'.
Proof.
  intros fuel d o w. induction m1 as [|a m1 IH]; intros seen before m t out l' H Hl.
  - inversion H as [|? ? ? ? ? ? Hf _]; subst. cbn in Hl. inversion Hl; subst. exists []. split; [reflexivity|].
    split; [intros [|j] mj Hj; discriminate Hj|]. rewrite app_nil_r. exact Hf.
  - cbn [app] in H. inversion H as [|? ? ? ? ? ? Hf Hr]; subst. cbn in Hl.
    destruct (IH _ _ _ _ _ _ Hr Hl) as (bs & H1 & H2 & H3).
    match type of H3 with context [before ++ [?e]] => exists (e :: bs) end. split; [cbn; congruence|]. split.
    + intros [|j] mj Hj.
      * cbn in Hj. inversion Hj; subst. cbn [nth_error firstn rev app]. eexists. split; [reflexivity|].
        destruct (to_stretch o w (mj :: seen)) eqn:E; [reflexivity|]. inversion Hf as [? Hn Hre|]; subst; [exact Hre|congruence].
      * cbn [nth_error] in *. destruct (H2 j mj Hj) as (bj & B1 & B2). exists bj. split; [exact B1|].
        rewrite firstn_cons. cbn [rev]. rewrite <- app_assoc. exact B2.
    + cbn [rev]. rewrite <- !app_assoc in *. cbn [app] in *. exact H3.
Qed.

(** the same text; the same line, if it is a move *)
Definition kept_line (l l1 : line A) : Prop :=
  raw l1 = raw l /\ if xy_move l then l1 = l else xy_move l1 = false.

Lemma kept_moves : forall xs ys, Forall2 kept_line xs ys -> moves ys = moves xs.
Proof.
  intros xs ys H. induction H as [|l l1 xs ys [_ Hl] H IH]; [reflexivity|]. cbn [moves filter].
  destruct (xy_move l) eqn:E.
  - subst l1. rewrite E. f_equal. exact IH.
  - rewrite Hl. exact IH.
Qed.

Lemma kept_refl : forall xs, Forall2 kept_line xs xs.
Proof. induction xs; constructor; [|assumption]. split; [reflexivity|]. destruct (xy_move a); reflexivity. Qed.

Lemma firstn_split : forall (X : Type) (b : list X) m r, firstn (List.length b) (b ++ m :: r) = b.
Proof. intros. rewrite firstn_app, firstn_all, Nat.sub_diag. cbn [firstn]. apply app_nil_r. Qed.

Lemma firstn_split_S : forall (X : Type) (b : list X) m r, firstn (S (List.length b)) (b ++ m :: r) = b ++ [m].
Proof. intros. rewrite firstn_app, firstn_all2 by lia. replace (S (List.length b) - List.length b) with 1 by lia. reflexivity. Qed.

Lemma turn_app : forall (X : Type) (u v : list X), turn (List.length u) (u ++ v) = v ++ u.
Proof.
  intros X u v. unfold turn. rewrite skipn_app, firstn_app, skipn_all, firstn_all, Nat.sub_diag.
  cbn [skipn firstn app]. rewrite app_nil_r. reflexivity.
Qed.

Lemma moves_turn : forall i (xs : list (line A)), moves (turn i xs) = turn (List.length (moves (firstn i xs))) (moves xs).
Proof.
  intros i xs. replace (moves xs) with (moves (firstn i xs) ++ moves (skipn i xs)) by (rewrite <- moves_app, firstn_skipn; reflexivity).
  rewrite turn_app. unfold turn. apply moves_app.
Qed.

Lemma moves_rev : forall xs : list (line A), moves (rev xs) = rev (moves xs).
Proof.
  induction xs as [|x xs IH]; [reflexivity|]. cbn [rev]. rewrite moves_app, IH. cbn [moves filter].
  destruct (xy_move x); [reflexivity|apply app_nil_r].
Qed.

Lemma moves_one : forall m : line A, xy_move m = true -> moves [m] = [m].
Proof. intros m H. cbn. rewrite H. reflexivity. Qed.

Lemma removelast_moves : forall xs (m : line A), xs <> [] -> xy_move (last xs m) = true -> moves (removelast xs) = removelast (moves xs).
Proof.
  intros xs m Hn Hl. rewrite (app_removelast_last m Hn) at 2. rewrite moves_app, (moves_one _ Hl), removelast_last. reflexivity.
Qed.

Lemma ahead_moves : forall b (m : line A) r a ms, xy_move m = true -> xy_move a = true -> b ++ m :: r = a :: ms ->
  moves (turn (List.length b) ms) = turn (List.length (moves b)) (tl (moves (a :: ms))) /\
  moves (turn (S (List.length b)) (a :: ms)) = turn (S (List.length (moves b))) (moves (a :: ms)).
Proof.
  intros b m r a ms Hm Ha E. split; rewrite moves_turn.
  - destruct b as [|a' b]; cbn [app] in E.
    + inversion E; subst. cbn [List.length firstn moves filter]. rewrite Ha. reflexivity.
    + inversion E; subst. cbn [List.length]. rewrite firstn_split_S, moves_app, moves_one, app_length by assumption.
      unfold moves. cbn [filter]. rewrite Ha. cbn [List.length tl]. f_equal. lia.
  - rewrite <- E, firstn_split_S, moves_app, moves_one, app_length by assumption. cbn [List.length]. f_equal. lia.
Qed.

Lemma behind_moves : forall b (m : line A) r full, full = b ++ m :: r -> xy_move (last full m) = true ->
  moves (rev (turn (List.length b) full)) = rev (turn (List.length (moves b)) (moves full)) /\
  moves (rev (turn (List.length b) (removelast full))) = rev (turn (List.length (moves b)) (removelast (moves full))).
Proof.
  intros b m r full E Hl. rewrite !moves_rev, !moves_turn. split.
  - rewrite E, firstn_split. reflexivity.
  - rewrite removelast_moves with (m := m) by (try exact Hl; subst full; destruct b; discriminate).
    replace (firstn (List.length b) (removelast full)) with b; [reflexivity|].
    rewrite E, removelast_app by discriminate. rewrite firstn_app, firstn_all, Nat.sub_diag. cbn [firstn]. rewrite app_nil_r. reflexivity.
Qed.

(** ** The loop of the lines *)

Lemma loop_of_quiet : forall t before, opened t = None -> contains "stretch-loop-stop" t = false -> loop_of (t :: before) = loop_of before.
Proof. intros t before H1 H2. cbn [loop_of]. rewrite H1, H2. reflexivity. Qed.

Lemma loop_of_body : forall (a : line A) ms seen k, opened (raw a) = Some k ->
  Forall (fun l => opened (raw l) = None /\ contains "stretch-loop-stop" (raw l) = false) ms ->
  loop_of (map raw (rev (a :: ms) ++ seen)) = Some k.
Proof.
  intros a ms seen k Ha H. cbn [rev]. rewrite <- app_assoc. cbn [app].
  assert (Hr : Forall (fun l => opened (raw l) = None /\ contains "stretch-loop-stop" (raw l) = false) (rev ms)).
  { apply Forall_forall. intros x Hx. apply (proj1 (Forall_forall _ _) H). apply in_rev. exact Hx. }
  induction Hr as [|l t [H1 H2] Hr IH]; cbn [app map].
  - cbn [loop_of]. rewrite Ha. reflexivity.
  - rewrite loop_of_quiet by assumption. exact IH.
Qed.

Definition quiet (d : dialect) (l : line A) : Prop :=
  opened (raw l) = None /\ contains "stretch-loop-stop" (raw l) = false /\ ends_loop d (raw l) = false.

Lemma opened_start : forall l : line A, has start_marker l = match opened (raw l) with Some _ => true | None => false end.
Proof.
  intros l. unfold opened, has. destruct (contains inner_marker (raw l)) eqn:E1.
  { change (contains "stretch-loop-start stretch-inner-edge-start" (raw l)) with (contains inner_marker (raw l)). rewrite E1.
    destruct (contains start_marker (raw l)) eqn:E; [reflexivity|].
    pose proof (contains_shorter start_marker " stretch-inner-edge-start" (raw l) E) as C. unfold inner_marker in E1. cbn in C, E1. congruence. }
  change (contains "stretch-loop-start stretch-inner-edge-start" (raw l)) with (contains inner_marker (raw l)). rewrite E1.
  change (contains "stretch-loop-start stretch-outer-edge-start" (raw l)) with (contains outer_marker (raw l)).
  destruct (contains outer_marker (raw l)) eqn:E2.
  { destruct (contains start_marker (raw l)) eqn:E; [reflexivity|].
    pose proof (contains_shorter start_marker " stretch-outer-edge-start" (raw l) E) as C. unfold outer_marker in E2. cbn in C, E2. congruence. }
  change (contains "stretch-loop-start" (raw l)) with (contains start_marker (raw l)).
  destruct (contains start_marker (raw l)); reflexivity.
Qed.

(** what the iterators see around a line of a loop *)
Lemma loop_window : forall profile fuel d o (g g' : gcode A) printed w ys n y y' pre a ms z post k b m r l',
  stretch profile fuel d o g = Ok (g', printed) ->
  setup_filter profile d (g_layers g) = Ok (w, ys) ->
  nth_error ys n = Some y -> ly_lines y = pre ++ (a :: ms) ++ z :: post ->
  opened (raw a) = Some k -> Forall (quiet d) ms -> xy_move a = true ->
  Forall (fun l => xy_move l = false -> forall l', reparse l = Ok l' -> xy_move l' = false) ms ->
  n_ltb n0 (limit o w (Some k)) = true ->
  a :: ms = b ++ m :: r -> xy_move m = true ->
  nth_error (g_layers g') n = Some y' -> nth_error (ly_lines y') (List.length pre + List.length b) = Some l' ->
  exists B bs, List.length B = List.length pre /\ Forall2 kept_line b bs /\
    let seen := rev (lines_of (firstn n ys) ++ pre ++ b) in
    loop_of (map raw (m :: seen)) = Some k /\ to_stretch o w (m :: seen) = true /\
    line_fate fuel d o w (B ++ (bs ++ m :: r) ++ z :: post) (List.length B + List.length bs) seen m l'.
Proof.
  intros profile fuel d o g g' printed w ys n y y' pre a ms z post k b m r l' H Hset Hy Hly Ha Hq Hxa Hn Hm Eb Hxm Hy' Hl'.
  assert (Hpre : forall b1 x r1, a :: ms = b1 ++ x :: r1 ->
    loop_of (map raw (rev (b1 ++ [x]) ++ rev pre ++ rev (lines_of (firstn n ys)))) = Some k).
  { intros b1 x r1 E. destruct b1 as [|a1 b1]; cbn [app] in E.
    - inversion E; subst. cbn [app rev map loop_of]. rewrite Ha. reflexivity.
    - inversion E; subst. cbn [app]. apply loop_of_body; [exact Ha|]. apply Forall_app in Hq as [Q1 Q2]. inversion Q2; subst.
      apply Forall_app. split; [|constructor; [|constructor]].
      + eapply Forall_impl; [|exact Q1]. intros l (L1 & L2 & _). auto.
      + destruct H2 as (L1 & L2 & _). auto. }
  unfold stretch in H. rewrite Hset in H. cbn [bind] in H.
  destruct (stretch_layers _ _ _ _) as [[ys2 p2]|e] eqn:E; cbn [bind] in H; [|discriminate H].
  apply ok_inj in H. apply (f_equal fst) in H. cbn [fst] in H. subst g'. change (nth_error ys2 n = Some y') in Hy'.
  destruct (stretch_layers_ok _ _ _ _ _ _ _ _ _ (init_state o w) E) as (_ & Hk).
  destruct (Hk n) as (z1 & z' & K1 & K2 & K3). { apply nth_error_Some. rewrite Hy. discriminate. }
  assert (z1 = y) by congruence. assert (z' = y') by congruence. subst z1 z'.
  rewrite Hly, app_nil_r, Eb in K3.
  replace (pre ++ (b ++ m :: r) ++ z :: post) with ((pre ++ b) ++ m :: r ++ z :: post) in K3 by (rewrite <- !app_assoc; reflexivity).
  rewrite <- app_length in Hl'.
  destruct (fates_seen _ _ _ _ _ _ _ _ _ _ _ K3 Hl') as (cs & C1 & C2 & C3). cbn [app] in C3.
  exists (firstn (List.length pre) cs), (skipn (List.length pre) cs).
  assert (L : List.length cs = List.length pre + List.length b) by (rewrite C1, app_length; reflexivity).
  split; [apply firstn_length_le; lia|]. split.
  - (* the lines of the loop *)
    assert (Hj : forall j mj, nth_error b j = Some mj -> exists bj, nth_error (skipn (List.length pre) cs) j = Some bj /\ kept_line mj bj).
    { intros j mj Hj. destruct (C2 (List.length pre + j) mj) as (bj & B1 & B2).
      { rewrite nth_error_app2 by lia. rewrite <- Hj. f_equal. lia. }
      exists bj. split; [rewrite nth_skipn; exact B1|].
      assert (Hsplit : exists b1 b2, b = b1 ++ mj :: b2 /\ List.length b1 = j) by (apply nth_error_split; exact Hj).
      destruct Hsplit as (b1 & b2 & -> & <-).
      assert (Ef : firstn (S (List.length pre + List.length b1)) (pre ++ b1 ++ mj :: b2) = pre ++ b1 ++ [mj]).
      { rewrite firstn_app, firstn_all2 by lia. f_equal. replace (S (List.length pre + List.length b1) - List.length pre) with (S (List.length b1)) by lia.
        apply firstn_split_S. }
      rewrite Ef, rev_app_distr, <- app_assoc in B2.
      assert (El := Hpre b1 mj (b2 ++ m :: r)). rewrite <- app_assoc in Eb. cbn [app] in Eb. specialize (El Eb).
      assert (Et : to_stretch o w (rev (b1 ++ [mj]) ++ rev pre ++ rev (lines_of (firstn n ys))) = xy_move mj).
      { unfold to_stretch. rewrite El, Hm, andb_true_r. rewrite rev_app_distr in *. cbn [rev app] in *. unfold loop_move. rewrite El. apply andb_true_r. }
      rewrite Et in B2. unfold kept_line. destruct (xy_move mj) eqn:Ex.
      - subst bj. auto.
      - split; [apply (reparse_raw _ _ B2)|].
        destruct b1 as [|a1 b1]; cbn [app] in Eb; inversion Eb; subst; [congruence|].
        apply Forall_app in Hn as [_ Hn]. inversion Hn; subst. auto. }
    assert (Ls : List.length (skipn (List.length pre) cs) = List.length b) by (rewrite skipn_length; lia).
    revert Hj Ls. generalize (skipn (List.length pre) cs). clear. induction b as [|x b IH]; intros [|c cs] Hj Ls; try discriminate Ls; constructor.
    + destruct (Hj 0 x eq_refl) as (bj & B1 & B2). cbn in B1. inversion B1; subst. exact B2.
    + apply IH; [|cbn in Ls; congruence]. intros j mj H. apply (Hj (S j) mj H).
  - cbv zeta. pose proof (Hpre b m r Eb) as El.
    assert (Es : m :: rev (lines_of (firstn n ys) ++ pre ++ b) = rev (b ++ [m]) ++ rev pre ++ rev (lines_of (firstn n ys))).
    { rewrite !rev_app_distr. cbn [rev app]. rewrite <- !app_assoc. reflexivity. }
    rewrite Es. split; [exact El|]. split.
    + unfold to_stretch. rewrite El, Hm, andb_true_r. rewrite rev_app_distr in *. cbn [rev app] in *. unfold loop_move. rewrite El, Hxm. reflexivity.
    + rewrite <- app_assoc. replace (List.length (firstn (List.length pre) cs) + List.length (skipn (List.length pre) cs)) with (List.length cs)
        by (rewrite firstn_length, skipn_length; lia).
      rewrite rev_app_distr. rewrite <- (firstn_skipn (List.length pre) cs) in C3. rewrite <- !app_assoc in C3.
      rewrite firstn_skipn in C3. exact C3.
Qed.
End Seen.

(** ** Over the reals *)

Local Open Scope R_scope.

Lemma heading_end : forall p q r : point, (if n_ltb (a:=RA) n0 (c_abs (A:=RA) (c_sub (A:=RA) p q))
    then c_div (A:=RA) (c_sub (A:=RA) p q) (c_abs (A:=RA) (c_sub (A:=RA) p q)) else Ok (n0, n0)) = Ok r -> r = heading q p.
Proof.
  intros p q r H. rewrite c_sub_minus, c_abs_size in H. unfold heading, distance.
  assert (Es : size (minus q p) = size (minus p q)).
  { unfold size, inner, minus. cbn [fst snd]. f_equal. ring. }
  rewrite Es. assert (En0 : n0 (A:=RA) = 0) by (apply (val_n0 exactR)). rewrite En0 in H.
  destruct (n_ltb (a:=RA) 0 (size (minus p q))) eqn:E.
  - apply c_div_times in H as [_ ->]. reflexivity.
  - apply ltb_false in E. pose proof (size_nonneg (minus p q)) as Hn. assert (Hz : size (minus p q) = 0) by lra.
    apply ok_inj in H. subst r. pose proof (size_sq (minus p q)) as Hs. rewrite Hz in Hs.
    destruct p as [a b], q as [c e]. unfold inner, minus, times in *. cbn [fst snd] in *.
    pose proof (Rle_0_sqr (a - c)) as H1. pose proof (Rle_0_sqr (b - e)) as H2. unfold Rsqr in *.
    assert (Ha : a - c = 0) by (apply Rsqr_0_uniq; unfold Rsqr; lra). assert (Hb : b - e = 0) by (apply Rsqr_0_uniq; unfold Rsqr; lra).
    rewrite Ha, Hb. f_equal; ring.
Qed.

Lemma loop_pull : forall n fuel d dir (w : lengths (A:=RA)) (ls : list (line RA)) old (loc : point) ms qs (lastl : point) (total : R) it r pr,
  gives fuel d dir ls it ms -> Forall2 move_to ms qs -> 0 < w_from w - total ->
  relative_loop (A:=RA) n fuel d dir w ls (Some old) loc lastl lastl total total it = Ok (r, pr) ->
  (exists f, reaches (w_from w - total) lastl qs f /\ r = times (/ w_from w) (minus loc f)) \/
  (path_length lastl qs < w_from w - total /\ r = heading (last qs lastl) loc).
Proof.
  induction n as [|n IH]; intros fuel d dir w ls old loc ms qs lastl total it r pr Hy Hp Hs H;
    cbn [relative_loop] in H; [discriminate H|].
  destruct (get_next fuel d dir ls it) as [nx|e] eqn:En; cbn [bind] in H; [|discriminate H].
  destruct Hp as [|l q ms qs Hl Hp]; cbn [gives] in Hy.
  - destruct (Hy nx En) as (pr' & ->). right. cbn [path_length last]. split; [exact Hs|].
    apply (heading_end loc lastl r). destruct (n_ltb _ _).
    + destruct (c_div _ _) as [r1|e]; cbn [bind] in H; [|discriminate H]. apply ok_inj in H. apply (f_equal fst) in H. cbn [fst] in H. f_equal. exact H.
    + apply ok_inj in H. apply (f_equal fst) in H. cbn [fst] in H. f_equal. exact H.
  - destruct (Hy nx En) as (it1 & -> & Hy1). rewrite (move_location _ _ _ Hl) in H.
    rewrite c_sub_minus, c_abs_size in H. change (size (minus lastl q)) with (distance lastl q) in H.
    change (n_add (a:=RA) total (distance lastl q)) with (total + distance lastl q) in H.
    change (n_sub (a:=RA) (w_from w) total) with (w_from w - total) in H.
    destruct (n_leb (a:=RA) (w_from w) (total + distance lastl q)) eqn:El.
    + apply leb_real in El. destruct (py_div _ _) as [ratio|e] eqn:Ed; cbn [bind] in H; [|discriminate H].
      apply py_div_real in Ed as [Hd ->].
      destruct (c_div _ _) as [r1|e] eqn:Ec; cbn [bind] in H; [|discriminate H].
      rewrite !c_scale_times, c_add_plus, c_sub_minus in Ec.
      apply c_div_times in Ec as [Hw ->]. apply ok_inj in H. apply (f_equal fst) in H. cbn [fst] in H. subst r.
      left. eexists. split; [apply reaches_here; cbn [num RA] in *; lra|]. f_equal. f_equal. destruct lastl as [a b], q as [c e].
      change (n_sub (a:=RA) n1 ((w_from w - total) / distance (a, b) (c, e))) with (n1 (A:=RA) - (w_from w - total) / distance (a, b) (c, e)).
      replace (n1 (A:=RA)) with 1 by (symmetry; apply (val_n1 exactR)).
      unfold heading. set (D := distance (a, b) (c, e)) in *. unfold plus, times, minus. cbn [fst snd num RA].
      f_equal; field; exact Hd.
    + apply leb_false in El. pose proof El as El'. apply (IH _ _ _ _ _ _ _ _ _ _ _ _ _ _ Hy1 Hp) in H; [|cbn [num RA] in *; lra].
      replace (w_from w - (total + distance lastl q)) with (w_from w - total - distance lastl q) in H by (cbn [num RA]; ring).
      destruct H as [(f & Hf & ->)|[Hlen ->]].
      * left. exists f. split; [|reflexivity]. apply reaches_on; [cbn [num RA] in *; lra|exact Hf].
      * right. cbn [path_length]. split; [lra|]. f_equal. clear. destruct qs as [|q' qs]; [reflexivity|]. cbn [last].
        revert q'. induction qs as [|q2 qs IHq]; intros q'; [reflexivity|]. apply IHq.
Qed.

Lemma absolute_displaced : forall fuel d (o : options (A:=RA)) (we : R) (ls : list (line RA)) i old (max : R) (p : point) am aps bm bps move pr,
  0 < we -> 0 < o_cross o -> 0 < o_from o ->
  gives fuel d Forward ls (new_iter (i + 1)) am -> Forall2 move_to am aps ->
  gives fuel d Backward ls (new_iter (i - 1)) bm -> Forall2 move_to bm bps ->
  absolute_stretch (A:=RA) fuel d (edge_lengths o we) ls i (Some old) max p = Ok (move, pr) ->
  exists u v, pull (o_from o * we) p aps u /\ pull (o_from o * we) p bps v /\
    move = times max (displaced (we * o_cross o) p aps bps u v).
Proof.
  intros fuel d o we ls i old max p am aps bm bps move pr Hw Hc Hf Ya Pa Yb Pb H.
  unfold absolute_stretch, relative_stretch in H.
  set (w := edge_lengths o we) in *.
  assert (E1 : w_from w = o_from o * we) by reflexivity.
  assert (E2 : w_cross w = we * o_cross o) by reflexivity.
  assert (E3 : w_fraction w = w_cross w / 3).
  { change (w_fraction w) with (w_cross w / lit (A:=RA) 3 0). f_equal. etransitivity; [apply (val_lit exactR)|cbn; lra]. }
  assert (E4 : w_remainder w = 2 / 3 * w_cross w).
  { change (w_remainder w) with (w_cross w - w_fraction w). rewrite E3. cbn [num RA]. field. }
  clearbody w.
  assert (Hfw : 0 < o_from o * we) by (cbn [num RA] in *; nra).
  assert (Hcw : 0 < w_cross w) by (rewrite E2; cbn [num RA] in *; nra).
  assert (En0 : n0 (A:=RA) = 0) by (apply (val_n0 exactR)).
  assert (Hpull : forall dir it ms qs r pr', gives fuel d dir ls it ms -> Forall2 move_to ms qs ->
    relative_loop (A:=RA) fuel fuel d dir w ls (Some old) p p p 0 0 it = Ok (r, pr') -> pull (o_from o * we) p qs r).
  { intros dir it ms qs r pr' Hg Hp R1. apply (loop_pull _ _ _ _ _ _ _ _ _ _ _ _ _ _ _ Hg Hp) in R1; [|rewrite E1; cbn [num RA] in *; lra].
    rewrite E1 in R1. replace (o_from o * we - 0) with (o_from o * we) in R1 by (cbn [num RA]; ring).
    destruct R1 as [(f & F1 & ->)|[F1 ->]]; constructor; assumption. }
  destruct (relative_loop _ _ _ Forward _ _ _ _ _ _ _ _ _) as [[r1 p1]|e] eqn:R1; cbn [bind] in H; [|discriminate H].
  destruct (relative_loop _ _ _ Backward _ _ _ _ _ _ _ _ _) as [[r2 p2]|e] eqn:R2; cbn [bind] in H; [|discriminate H].
  rewrite En0 in R1, R2. apply (Hpull _ _ _ _ _ _ Ya Pa) in R1. apply (Hpull _ _ _ _ _ _ Yb Pb) in R2.
  exists r1, r2. split; [exact R1|]. split; [exact R2|].
  assert (Hheld : forall dir start ms qs v r pr', gives fuel d dir ls (new_iter start) ms -> Forall2 move_to ms qs ->
    cross_limited (A:=RA) fuel d w ls (Some old) v dir start p = Ok (r, pr') -> r = held (we * o_cross o) p qs v).
  { intros dir start ms qs v r pr' Hg Hp C. destruct Hp as [|l q ms qs Hl Hp]; cbn [held].
    - unfold cross_limited in C. destruct (get_next _ _ _ _ _) as [nx|e] eqn:En; cbn [bind] in C; [|discriminate C].
      destruct (Hg nx En) as [pr1 ->]. apply ok_inj in C. apply (f_equal fst) in C. cbn [fst] in C. congruence.
    - apply gives_yields in Hg. rewrite <- E2.
      apply (cross_restrained _ _ _ _ _ _ _ _ _ _ _ _ _ _ Hg (move_location _ _ _ Hl) Hcw E3 E4 C). }
  rewrite c_add_plus, c_scale_times in H.
  destruct (cross_limited _ _ _ _ _ _ Forward _ _) as [[r3 p3]|e] eqn:C1; cbn [bind] in H; [|discriminate H].
  apply (Hheld _ _ _ _ _ _ _ Ya Pa) in C1.
  destruct (cross_limited _ _ _ _ _ _ Backward _ _) as [[r4 p4]|e] eqn:C2; cbn [bind] in H; [|discriminate H].
  apply (Hheld _ _ _ _ _ _ _ Yb Pb) in C2.
  match type of H with context [bind ?X _] => destruct X as [r5|e] eqn:C3; cbn [bind] in H; [|discriminate H] end.
  apply clip_clipped in C3. apply ok_inj in H. apply (f_equal fst) in H. cbn [fst] in H. subst move.
  rewrite c_scale_times. f_equal. rewrite C3, C2, C1. unfold displaced. do 4 f_equal.
  etransitivity; [apply (val_lit exactR)|cbn; lra].
Qed.

(** ** One point *)

Lemma Forall2_turn : forall (X Y : Type) (R : X -> Y -> Prop) k xs ys, Forall2 R xs ys -> Forall2 R (turn k xs) (turn k ys).
Proof.
  intros X Y R k xs ys H. unfold turn.
  assert (Hk : Forall2 R (firstn k xs) (firstn k ys) /\ Forall2 R (skipn k xs) (skipn k ys)).
  { revert k. induction H as [|x y xs ys Hx H IH]; intros [|k]; cbn [firstn skipn]; try (split; constructor; auto; fail).
    destruct (IH k) as [H1 H2]. split; [constructor; assumption|exact H2]. }
  destruct Hk. apply Forall2_app; assumption.
Qed.

Lemma Forall2_rev : forall (X Y : Type) (R : X -> Y -> Prop) xs ys, Forall2 R xs ys -> Forall2 R (rev xs) (rev ys).
Proof.
  intros X Y R xs ys H. induction H as [|x y xs ys Hx H IH]; cbn [rev]; [constructor|]. apply Forall2_app; [exact IH|]. constructor; [exact Hx|constructor].
Qed.

Lemma Forall2_removelast : forall (X Y : Type) (R : X -> Y -> Prop) xs ys, Forall2 R xs ys -> Forall2 R (removelast xs) (removelast ys).
Proof.
  intros X Y R xs ys H. induction H as [|x y xs ys Hx H IH]; [constructor|]. cbn [removelast].
  inversion H; subst; [constructor|]. constructor; [exact Hx|exact IH].
Qed.

Lemma Forall2_tl : forall (X Y : Type) (R : X -> Y -> Prop) xs ys, Forall2 R xs ys -> Forall2 R (tl xs) (tl ys).
Proof. intros X Y R xs ys H. destruct H; [constructor|assumption]. Qed.

(** the words of the line *)
Definition rounds (p : point) : point := (py_round (A:=RA) 3 (fst p), py_round (A:=RA) 3 (snd p)).

Lemma rounds_close : forall p, close_to (rounds p) p.
Proof. intros [x y]. split; cbn [fst snd rounds]; apply r3. Qed.

Lemma one_point : forall profile fuel d (o : options (A:=RA)) (g g' : gcode RA) printed (w : R) ys n y y' pre a ms z post k b m r l' ps p,
  d <> Skeinforge -> 0 < w -> 0 < o_cross o -> 0 < o_from o ->
  stretch profile fuel d o g = Ok (g', printed) ->
  setup_filter profile d (g_layers g) = Ok (Some w, ys) ->
  nth_error ys n = Some y -> ly_lines y = pre ++ (a :: ms) ++ z :: post -> is_loop d k (a :: ms) z ->
  0 < limit o (Some w) (Some k) ->
  Forall2 move_to (filter xy_move (a :: ms)) ps ->
  a :: ms = b ++ m :: r -> move_to m p ->
  nth_error (g_layers g') n = Some y' -> nth_error (ly_lines y') (List.length pre + List.length b) = Some l' ->
  exists u v, let j := List.length (filter xy_move b) in
    pull (o_from o * w) p (ahead d j ps) u /\ pull (o_from o * w) p (behind d j ps) v /\
    move_to l' (rounds (plus p (times (limit o (Some w) (Some k)) (displaced (w * o_cross o) p (ahead d j ps) (behind d j ps) u v)))).
Proof.
  intros profile fuel d o g g' printed w ys n y y' pre a ms z post k b m r l' ps p Hd Hw Hc Hf H Hset Hy Hly
    (a' & ms' & E & Hne & Ho & Hea & Hq & Hxa & Hxl & Hn & Hz) Hmost Hps Eb Hm Hy' Hl'.
  inversion E; subst a' ms'. clear E.
  assert (Hltb : n_ltb (a:=RA) n0 (limit o (Some w) (Some k)) = true).
  { apply ltb_real. replace (n0 (A:=RA)) with 0 by (symmetry; apply (val_n0 exactR)). exact Hmost. }
  destruct (loop_window _ _ _ _ _ _ _ _ _ _ _ _ _ _ _ _ _ _ _ _ _ _ H Hset Hy Hly Ho Hq Hxa Hn Hltb Eb (proj1 Hm) Hy' Hl')
    as (B & bs & LB & Hk & Hlo & Ht & Hfate). cbv zeta in *.
  set (seen := rev (lines_of (firstn n ys) ++ pre ++ b)) in *.
  destruct Hfate as [l' Hno _|we move pr old l' Hw' _ Hold Ha Hr]; [congruence|].
  assert (we = w) by congruence. subst we. rewrite Hlo in Ha.
  assert (Hp : point_of (m :: seen) = p).
  { pose proof Ht as Ht'. unfold to_stretch in Ht'. apply andb_prop in Ht' as [Hlm _]. cbn [point_of].
    destruct (point_of seen) as [a1 c1]. rewrite Hlm. destruct Hm as (_ & Bx & By). rewrite Bx, By. destruct p. reflexivity. }
  rewrite Hp in *. clear Hp Hold.
  (* the loop as the iterators see it *)
  assert (Hkall : Forall2 kept_line (a :: ms) (bs ++ m :: r)) by (rewrite Eb; apply Forall2_app; [exact Hk|apply kept_refl]).
  assert (Hex : exists a1 ms1, bs ++ m :: r = a1 :: ms1).
  { destruct bs as [|a1 bs]; cbn [app]; eauto. }
  destruct Hex as (a1 & ms1 & E1). rewrite E1 in *.
  pose proof (kept_moves _ _ Hkall) as Hmv.
  inversion Hkall as [|x1 y1 l1 l2 Hka Hkms]; subst.
  assert (Ea : a1 = a). { destruct Hka as [_ Hka]. rewrite Hxa in Hka. exact Hka. } subst a1.
  assert (Hraw : forall l2, In l2 ms1 -> exists l1, In l1 ms /\ raw l2 = raw l1).
  { clear - Hkms. induction Hkms as [|l1 l2 t1 t2 [Hl _] Hk IH]; [intros l3 []|]; intros l3 [<-|Hin]; [exists l1; split; [left; reflexivity|exact Hl]|].
    destruct (IH l3 Hin) as (l4 & H1 & H2). exists l4. split; [right; exact H1|exact H2]. }
  assert (Hne1 : ms1 <> []) by (intros ->; inversion Hkms; subst; congruence).
  assert (Hlast : xy_move (last ms1 a) = true).
  { clear - Hkms Hxl. revert Hxl. generalize a. induction Hkms as [|l1 l2 t1 t2 Hl Hk IH]; intros a0 Hx; [exact Hx|].
    destruct Hk as [|l3 l4 t3 t4 Hl' Hk]; [|apply (IH a0 Hx)]. cbn [last] in *. destruct Hl as [_ Hl]. rewrite Hx in Hl. congruence. }
  assert (G1 : Forall (fun l => ends d l = false) (a :: ms1)).
  { constructor; [destruct d; exact Hea|]. apply Forall_forall. intros l2 Hin. destruct (Hraw l2 Hin) as (l1 & I1 & I2).
    destruct (proj1 (Forall_forall _ _) Hq l1 I1) as (_ & _ & Q). unfold ends, has, ends_loop in *. rewrite I2. destruct d; exact Q. }
  assert (G2 : has start_marker a = true) by (rewrite opened_start, Ho; reflexivity).
  assert (G3 : Forall (fun l => has start_marker l = false) ms1).
  { apply Forall_forall. intros l2 Hin. destruct (Hraw l2 Hin) as (l1 & I1 & I2).
    destruct (proj1 (Forall_forall _ _) Hq l1 I1) as (Q & _ & _). rewrite opened_start, I2, Q. reflexivity. }
  assert (G4 : ends d z = true) by (destruct d; exact Hz).
  assert (Lb : (List.length bs <= List.length ms1)%nat).
  { apply (f_equal (@List.length _)) in E1. rewrite app_length in E1. cbn [List.length] in E1. lia. }
  pose proof (ring_ahead fuel d B a ms1 z post Hd Hne1 G1 Hlast G2 G3 G4 (List.length bs) Lb) as RA1.
  pose proof (ring_behind fuel d B a ms1 z post Hd Hne1 G1 Hlast G2 G3 G4 Hxa (List.length bs) Lb) as RB1.
  destruct (ahead_moves bs m r a ms1 (proj1 Hm) Hxa E1) as [A1 A2].
  assert (Hlast' : xy_move (last (a :: ms1) m) = true).
  { destruct ms1 as [|x ms1]; [congruence|]. change (last (a :: x :: ms1) m) with (last (x :: ms1) m).
    clear - Hlast. revert Hlast. generalize x. induction ms1 as [|x' ms1 IH]; intros x0 Hl; [exact Hl|]. apply (IH x'). exact Hl. }
  destruct (behind_moves bs m r (a :: ms1) (eq_sym E1) Hlast') as [B1 B2].
  assert (Hj : List.length (moves bs) = List.length (filter xy_move b)) by (rewrite (kept_moves _ _ Hk); reflexivity).
  rewrite Hj in A1, A2, B1, B2. rewrite Hmv in A1, A2, B1, B2.
  assert (Fa : exists am, gives fuel d Forward (B ++ (a :: ms1) ++ z :: post) (new_iter (Z.of_nat (List.length B + List.length bs) + 1)) am /\
    Forall2 move_to am (ahead d (List.length (filter xy_move b)) ps)).
  { eexists. split; [exact RA1|]. unfold ahead. destruct d; [rewrite A1|rewrite A2|congruence].
    - apply Forall2_turn, Forall2_tl. exact Hps.
    - apply Forall2_turn. exact Hps. }
  assert (Fb : exists bm, gives fuel d Backward (B ++ (a :: ms1) ++ z :: post) (new_iter (Z.of_nat (List.length B + List.length bs) - 1)) bm /\
    Forall2 move_to bm (behind d (List.length (filter xy_move b)) ps)).
  { eexists. split; [exact RB1|]. unfold behind. destruct d; [rewrite B2|rewrite B1|congruence].
    - apply Forall2_rev, Forall2_turn, Forall2_removelast. exact Hps.
    - apply Forall2_rev, Forall2_turn. exact Hps. }
  destruct Fa as (am & Fa1 & Fa2). destruct Fb as (bm & Fb1 & Fb2).
  destruct (absolute_displaced _ _ _ _ _ _ _ _ _ _ _ _ _ _ _ Hw Hc Hf Fa1 Fa2 Fb1 Fb2 Ha) as (u & v & U & V & ->).
  exists u, v. split; [exact U|]. split; [exact V|].
  apply stretched_reads in Hr as (Hcmd & _ & Hargs); [|exact (proj1 Hm)|apply (exact_finite exactR)].
  set (move := times _ _) in *.
  assert (Ex : l_x l' = Some (fst (rounds (plus p move)))) by (unfold l_x; rewrite Hargs; reflexivity).
  assert (Ey : l_y l' = Some (snd (rounds (plus p move)))) by (unfold l_y; rewrite Hargs; reflexivity).
  split; [|split; assumption]. destruct Hm as (Hm & _ & _). clear - Hm Hcmd Ex. unfold xy_move, is_command in *.
  rewrite Hcmd, Ex. apply andb_prop in Hm as [Hm _]. rewrite Hm. reflexivity.
Qed.

(** ** All points *)

Lemma filter_combine_nth : forall (X : Type) (f : X -> bool) (xs ys : list X) j l',
  nth_error (map snd (filter (fun ll => f (fst ll)) (combine xs ys))) j = Some l' ->
  exists b m r, xs = b ++ m :: r /\ f m = true /\ nth_error ys (List.length b) = Some l' /\ List.length (filter f b) = j.
Proof.
  intros X f. induction xs as [|x xs IH]; intros [|y ys] j l' H; cbn [combine filter map] in H; try (destruct j; discriminate H).
  cbn [fst] in H. destruct (f x) eqn:E; cbn [map] in H.
  - destruct j as [|j]; cbn [nth_error snd] in H.
    + exists [], x, xs. inversion H; subst. auto.
    + destruct (IH ys j l' H) as (b & m & r & E1 & E2 & E3 & E4). exists (x :: b), m, r. subst xs. cbn [filter]. rewrite E.
      repeat split; try assumption. cbn. congruence.
  - destruct (IH ys j l' H) as (b & m & r & E1 & E2 & E3 & E4). exists (x :: b), m, r. subst xs. cbn [filter]. rewrite E. auto.
Qed.

Lemma nth_firstn : forall (X : Type) (xs : list X) n j x, nth_error (firstn n xs) j = Some x -> nth_error xs j = Some x.
Proof.
  intros X xs n. revert xs. induction n as [|n IH]; intros [|y xs] [|j] x H; cbn [firstn nth_error] in *; try discriminate H; auto.
Qed.

Lemma Forall2_nth : forall (X Y : Type) (R : X -> Y -> Prop) xs ys j y, Forall2 R xs ys -> nth_error ys j = Some y ->
  exists x, nth_error xs j = Some x /\ R x y.
Proof.
  intros X Y R xs ys j y H. revert j. induction H as [|x' y' xs ys Hx H IH]; intros [|j] Hj; cbn in *; try discriminate Hj.
  - inversion Hj; subst. eauto.
  - apply IH. exact Hj.
Qed.

Lemma move_to_det : forall l p q, move_to l p -> move_to l q -> p = q.
Proof. intros l [a b] [c e] (_ & H1 & H2) (_ & H3 & H4). cbn in *. congruence. Qed.

(** C96 *)
Lemma whole_loop : forall profile fuel d (o : options (A:=RA)) (w most : R) ps ps' j p',
  stretches_loop profile fuel d o w most ps ps' -> d <> Skeinforge -> 0 < w -> 0 < o_cross o -> 0 < o_from o ->
  nth_error ps' j = Some p' ->
  exists p u v, nth_error ps j = Some p /\
    pull (o_from o * w) p (ahead d j ps) u /\ pull (o_from o * w) p (behind d j ps) v /\
    p' = rounds (plus p (times most (displaced (w * o_cross o) p (ahead d j ps) (behind d j ps) u v))).
Proof.
  intros profile fuel d o w most ps ps' j p'
    (g & g' & printed & ys & n & y & y' & pre & body & z & post & k & H1 & H2 & H3 & H4 & H5 & H6 & H7 & H8 & H9 & H10) Hd Hw Hc Hf Hj.
  destruct (Forall2_nth _ _ _ _ _ _ _ H10 Hj) as (l' & N1 & N2).
  apply filter_combine_nth in N1 as (b & m & r & Eb & Em & El & Ej).
  apply nth_firstn in El. rewrite nth_skipn in El.
  assert (Hex : exists a ms, body = a :: ms) by (destruct H5 as (a & ms & E & _); eauto). destruct Hex as (a & ms & ->).
  assert (Hmj : nth_error (filter xy_move (a :: ms)) j = Some m).
  { rewrite Eb, filter_app. rewrite nth_error_app2 by lia. rewrite Ej, Nat.sub_diag. cbn [filter]. rewrite Em. reflexivity. }
  assert (Hp : exists p, nth_error ps j = Some p /\ move_to m p).
  { clear - H9 Hmj. revert j Hmj. induction H9 as [|x y xs ys Hx H IH]; intros [|j] Hj; cbn in *; try discriminate Hj.
    - inversion Hj; subst. eauto.
    - apply IH. exact Hj. }
  destruct Hp as (p & Hp & Hm). subst most.
  destruct (one_point _ _ _ _ _ _ _ _ _ _ _ _ _ _ _ _ _ _ _ _ _ _ _ _ Hd Hw Hc Hf H1 H2 H3 H4 H5 H7 H9 Eb Hm H8 El) as (u & v & U & V & W).
  cbv zeta in *. rewrite Ej in *. exists p, u, v. repeat split; try assumption. apply (move_to_det _ _ _ N2 W).
Qed.

Lemma Forall2_len : forall (X Y : Type) (R : X -> Y -> Prop) xs ys, Forall2 R xs ys -> List.length ys = List.length xs.
Proof. intros X Y R xs ys H. induction H; cbn; congruence. Qed.

Lemma whole_length : forall profile fuel d (o : options (A:=RA)) (w most : R) ps ps',
  stretches_loop profile fuel d o w most ps ps' -> List.length ps' = List.length ps.
Proof.
  intros profile fuel d o w most ps ps'
    (g & g' & printed & ys & n & y & y' & pre & body & z & post & k & H1 & H2 & H3 & H4 & H5 & H6 & H7 & H8 & H9 & H10).
  rewrite (Forall2_len _ _ _ _ _ H10), (Forall2_len _ _ _ _ _ H9).
  destruct (stretch_shape _ _ _ _ _ _ _ H1) as [_ Hs].
  pose proof (setup_marked _ _ _ _ _ H2) as Hm.
  assert (Hlen : map (fun y => List.length (ly_lines y)) ys = map (fun y => List.length (ly_lines y)) (g_layers g)).
  { clear - Hm. induction Hm as [|a c l1 l2 (_ & _ & Hac) Hm IH]; [reflexivity|]. cbn [map]. f_equal; [|exact IH].
    clear - Hac. induction Hac; cbn; congruence. }
  rewrite <- Hlen in Hs. apply (f_equal (fun l => nth_error l n)) in Hs. rewrite !nth_error_map, H3, H8 in Hs. cbn [option_map] in Hs.
  assert (Hy : List.length (ly_lines y') = List.length (ly_lines y)) by congruence.
  set (body' := firstn _ _). assert (Lb : List.length body' = List.length body).
  { unfold body'. apply firstn_length_le. rewrite skipn_length, Hy, H4, !app_length. cbn. lia. }
  clearbody body'. rewrite map_length. clear - Lb. revert body' Lb. induction body as [|x body IH]; intros [|x' body'] Lb; try discriminate Lb; [reflexivity|].
  cbn [combine filter fst]. cbn in Lb. destruct (xy_move x); cbn [List.length]; [f_equal|]; apply IH; congruence.
Qed.

(** the pull is determined *)
Lemma reaches_det : forall s p qs f, reaches s p qs f -> forall f', reaches s p qs f' -> f = f'.
Proof.
  intros s p qs f H. induction H as [s p q qs Hle|s p q qs r Hlt H IH]; intros f' H'; inversion H'; subst; try reflexivity; try lra.
  apply IH. assumption.
Qed.

Lemma reaches_length : forall s p qs f, reaches s p qs f -> s <= path_length p qs.
Proof.
  intros s p qs f H. induction H as [s p q qs Hle|s p q qs r Hlt H IH]; cbn [path_length]; [|lra].
  assert (0 <= path_length q qs); [|lra]. clear. revert q. induction qs as [|q' qs IH]; intros q; cbn [path_length]; [lra|].
  pose proof (size_nonneg (minus q q')). specialize (IH q'). unfold distance. lra.
Qed.

Lemma pull_det : forall far p qs u v, pull far p qs u -> pull far p qs v -> u = v.
Proof.
  intros far p qs u v Hu Hv. inversion Hu as [f F|F]; inversion Hv as [f' F'|F']; subst; try reflexivity.
  - rewrite (reaches_det _ _ _ _ F _ F'). reflexivity.
  - apply reaches_length in F. lra.
  - apply reaches_length in F'. lra.
Qed.

Lemma pull_ex : forall far p qs, 0 < far -> exists u, pull far p qs u.
Proof.
  intros far p qs Hf. destruct (Rlt_or_le (path_length p qs) far) as [C|C]; [eexists; apply pull_short; exact C|].
  assert (Hr : forall qs p s, s <= path_length p qs -> qs <> [] -> exists f, reaches s p qs f).
  { clear. induction qs as [|q qs IH]; intros p s H Hn; [congruence|]. cbn [path_length] in H.
    destruct (Rle_or_lt s (distance p q)) as [C|C]; [eexists; apply reaches_here; exact C|].
    destruct qs as [|q' qs]; [cbn [path_length] in H; lra|].
    destruct (IH q (s - distance p q)) as [f F]; [lra|discriminate|]. exists f. apply reaches_on; assumption. }
  destruct qs as [|q qs]; [cbn [path_length] in C; lra|].
  destruct (Hr _ _ _ C) as [f F]; [discriminate|]. eexists. apply pull_reached. exact F.
Qed.

Lemma whole_close : forall profile fuel d (o : options (A:=RA)) (w most : R) ps ps' j p p' u v,
  stretches_loop profile fuel d o w most ps ps' -> d <> Skeinforge -> 0 < w -> 0 < o_cross o -> 0 < o_from o ->
  nth_error ps j = Some p -> nth_error ps' j = Some p' ->
  pull (o_from o * w) p (ahead d j ps) u -> pull (o_from o * w) p (behind d j ps) v ->
  close_to p' (plus p (times most (displaced (w * o_cross o) p (ahead d j ps) (behind d j ps) u v))).
Proof.
  intros profile fuel d o w most ps ps' j p p' u v H Hd Hw Hc Hf Hp Hp' Hu Hv.
  destruct (whole_loop _ _ _ _ _ _ _ _ _ _ H Hd Hw Hc Hf Hp') as (p1 & u1 & v1 & P1 & U1 & V1 & ->).
  assert (p1 = p) by congruence. subst p1. rewrite (pull_det _ _ _ _ _ Hu U1), (pull_det _ _ _ _ _ Hv V1). apply rounds_close.
Qed.

Lemma nth_ext_error : forall (X : Type) (xs ys : list X), (forall j, nth_error xs j = nth_error ys j) -> xs = ys.
Proof.
  intros X. induction xs as [|x xs IH]; intros [|y ys] H; [reflexivity|discriminate (H 0%nat)|discriminate (H 0%nat)|].
  pose proof (H 0%nat) as H0. cbn in H0. f_equal; [congruence|]. apply IH. intros j. apply (H (S j)).
Qed.

(** the loop alone determines where its points go *)
Lemma whole_det : forall profile1 fuel1 profile2 fuel2 d (o : options (A:=RA)) (w most : R) ps ps1 ps2,
  stretches_loop profile1 fuel1 d o w most ps ps1 -> stretches_loop profile2 fuel2 d o w most ps ps2 ->
  d <> Skeinforge -> 0 < w -> 0 < o_cross o -> 0 < o_from o -> ps1 = ps2.
Proof.
  intros profile1 fuel1 profile2 fuel2 d o w most ps ps1 ps2 H1 H2 Hd Hw Hc Hf.
  assert (L : List.length ps1 = List.length ps2) by (rewrite (whole_length _ _ _ _ _ _ _ _ H1), (whole_length _ _ _ _ _ _ _ _ H2); reflexivity).
  apply nth_ext_error. intros j. destruct (nth_error ps1 j) as [p1|] eqn:E1.
  - destruct (nth_error ps2 j) as [p2|] eqn:E2.
    2:{ apply nth_error_None in E2. assert (j < List.length ps1)%nat by (apply nth_error_Some; congruence). lia. }
    destruct (whole_loop _ _ _ _ _ _ _ _ _ _ H1 Hd Hw Hc Hf E1) as (q1 & u1 & v1 & P1 & U1 & V1 & ->).
    destruct (whole_loop _ _ _ _ _ _ _ _ _ _ H2 Hd Hw Hc Hf E2) as (q2 & u2 & v2 & P2 & U2 & V2 & ->).
    assert (q1 = q2) by congruence. subst q2. rewrite (pull_det _ _ _ _ _ U1 U2), (pull_det _ _ _ _ _ V1 V2). reflexivity.
  - apply nth_error_None in E1. symmetry. apply nth_error_None. lia.
Qed.

(** a loop of Slic3r stays closed *)
Lemma whole_closed : forall profile fuel (o : options (A:=RA)) (w most : R) ps ps',
  stretches_loop profile fuel Slic3r o w most ps ps' -> 0 < w -> 0 < o_cross o -> 0 < o_from o ->
  closed ps -> closed ps'.
Proof.
  intros profile fuel o w most ps ps' H Hw Hc Hf (p & mid & Ep).
  pose proof (whole_length _ _ _ _ _ _ _ _ H) as L. set (n := S (List.length mid)).
  assert (Lp : List.length ps = S n) by (rewrite Ep; cbn; rewrite app_length; cbn; unfold n; lia).
  assert (Hlt : forall j, (j <= n)%nat -> exists p', nth_error ps' j = Some p').
  { intros j Hj. destruct (nth_error ps' j) as [p'|] eqn:E; [eauto|]. apply nth_error_None in E. lia. }
  destruct (Hlt 0%nat) as [p0 E0]; [lia|]. destruct (Hlt n) as [pn En]; [lia|].
  assert (Hd : Slic3r <> Skeinforge) by discriminate.
  destruct (whole_loop _ _ _ _ _ _ _ _ _ _ H Hd Hw Hc Hf E0) as (q1 & u1 & v1 & P1 & U1 & V1 & Q1).
  destruct (whole_loop _ _ _ _ _ _ _ _ _ _ H Hd Hw Hc Hf En) as (q2 & u2 & v2 & P2 & U2 & V2 & Q2).
  assert (Hq1 : q1 = p) by (rewrite Ep in P1; cbn in P1; congruence).
  assert (Hq2 : q2 = p).
  { rewrite Ep in P2. unfold n in P2. cbn [nth_error] in P2. rewrite nth_error_app2, Nat.sub_diag in P2 by lia. cbn in P2. congruence. }
  subst q1 q2.
  assert (Ea : ahead Slic3r n ps = ahead Slic3r 0 ps).
  { unfold ahead, turn. rewrite Ep. cbn [tl skipn firstn]. rewrite app_nil_r.
    rewrite skipn_all2, firstn_all2 by (rewrite app_length; cbn; unfold n; lia). reflexivity. }
  assert (Eb : behind Slic3r n ps = behind Slic3r 0 ps).
  { unfold behind, turn. assert (Lr : List.length (removelast ps) = n).
    { rewrite Ep. change (p :: mid ++ [p]) with ((p :: mid) ++ [p]). rewrite removelast_last. reflexivity. }
    cbn [skipn firstn]. rewrite app_nil_r. rewrite skipn_all2, firstn_all2 by lia. reflexivity. }
  rewrite Ea, Eb in *. rewrite (pull_det _ _ _ _ _ U2 U1), (pull_det _ _ _ _ _ V2 V1) in Q2.
  assert (Epn : pn = p0) by congruence. rewrite Epn in En. clear Q1 Q2 Epn.
  exists p0. destruct ps' as [|x ps']; [discriminate E0|]. cbn in E0. inversion E0; subst x.
  exists (removelast ps'). f_equal.
  assert (Hne : ps' <> []) by (intros ->; cbn in L; lia).
  rewrite (app_removelast_last p0 Hne) at 1. f_equal. f_equal.
  unfold n in En. cbn [nth_error] in En. assert (Ll : List.length ps' = S (List.length mid)) by (cbn in L; unfold n in *; lia).
  clear - En Ll Hne. rewrite (app_removelast_last p0 Hne) in En.
  assert (Lr : List.length (removelast ps') = List.length mid).
  { rewrite (app_removelast_last p0 Hne), app_length in Ll. cbn in Ll. lia. }
  rewrite nth_error_app2, Lr, Nat.sub_diag in En by lia. cbn in En. congruence.
Qed.

(** ** Such loops exist *)

Lemma loop_intro : forall profile fuel d (o : options (A:=RA)) (g : gcode RA) (w : R) ys n y pre body z post k ps,
  d <> Skeinforge -> 0 < w -> 0 < o_cross o -> 0 < o_from o ->
  (exists r, stretch profile fuel d o g = Ok r) ->
  setup_filter profile d (g_layers g) = Ok (Some w, ys) ->
  nth_error ys n = Some y -> ly_lines y = pre ++ body ++ z :: post -> is_loop d k body z ->
  0 < limit o (Some w) (Some k) -> Forall2 move_to (filter xy_move body) ps ->
  exists ps', stretches_loop profile fuel d o w (limit o (Some w) (Some k)) ps ps'.
Proof.
  intros profile fuel d o g w ys n y pre body z post k ps Hd Hw Hc Hf [[g' pr] H] Hset Hy Hly Hloop Hmost Hps.
  destruct (stretch_shape _ _ _ _ _ _ _ H) as [_ Hs].
  pose proof (setup_marked _ _ _ _ _ Hset) as Hm.
  assert (Hlen : map (fun y => List.length (ly_lines y)) ys = map (fun y => List.length (ly_lines y)) (g_layers g)).
  { clear - Hm. induction Hm as [|a c l1 l2 (_ & _ & Hac) Hm IH]; [reflexivity|]. cbn [map]. f_equal; [|exact IH].
    clear - Hac. induction Hac; cbn; congruence. }
  rewrite <- Hlen in Hs. apply (f_equal (fun l => nth_error l n)) in Hs. rewrite !nth_error_map, Hy in Hs. cbn [option_map] in Hs.
  destruct (nth_error (g_layers g') n) as [y'|] eqn:Ey'; cbn [option_map] in Hs; [|discriminate Hs].
  set (body' := firstn (List.length body) (skipn (List.length pre) (ly_lines y'))).
  assert (Hex : exists ps', Forall2 move_to (map snd (filter (fun ll => xy_move (fst ll)) (combine body body'))) ps').
  { assert (Hall : forall j l', nth_error (map snd (filter (fun ll => xy_move (fst ll)) (combine body body'))) j = Some l' -> exists p', move_to l' p').
    { intros j l' N1. apply filter_combine_nth in N1 as (b & m & r & Eb & Em & El & Ej).
      unfold body' in El. apply nth_firstn in El. rewrite nth_skipn in El.
      assert (Hex : exists a ms, body = a :: ms) by (destruct Hloop as (a & ms & E & _); eauto). destruct Hex as (a & ms & ->).
      assert (Hmj : nth_error (filter xy_move (a :: ms)) j = Some m).
      { rewrite Eb, filter_app. rewrite nth_error_app2 by lia. rewrite Ej, Nat.sub_diag. cbn [filter]. rewrite Em. reflexivity. }
      assert (Hp : exists p, nth_error ps j = Some p /\ move_to m p).
      { clear - Hps Hmj. revert j Hmj. induction Hps as [|x y xs ys Hx H IH]; intros [|j] Hj; cbn in *; try discriminate Hj.
        - inversion Hj; subst. eauto.
        - apply IH. exact Hj. }
      destruct Hp as (p & Hp & Hm').
      destruct (one_point _ _ _ _ _ _ _ _ _ _ _ _ _ _ _ _ _ _ _ _ _ _ _ _ Hd Hw Hc Hf H Hset Hy Hly Hloop Hmost Hps Eb Hm' Ey' El) as (u & v & U & V & W).
      eexists. exact W. }
    revert Hall. generalize (map snd (filter (fun ll => xy_move (fst ll)) (combine body body'))). clear.
    intros ls. induction ls as [|l ls IH]; intros Hall; [exists []; constructor|].
    destruct (Hall 0%nat l eq_refl) as [p' Hp]. destruct IH as [ps' Hps]; [intros j l' Hj; apply (Hall (S j) l' Hj)|].
    exists (p' :: ps'). constructor; assumption. }
  destruct Hex as [ps' Hps']. exists ps'. exists g, g', pr, ys, n, y, y', pre, body, z, post, k. cbv zeta.
  repeat (split; [first [eassumption|reflexivity]|]). exact Hps'.
Qed.

(** * P_Heights: the set of printed heights, and layers of one height *)
From Coq Require Import List Ascii String ZArith NArith Bool Lia Reals Lra Permutation.
From Verif Require Import PyBase Arith Gcoder SpecText SpecMachine SpecMeasure SpecHeights.
From Verif Require Import P_Measure P_Layers P_Machine P_Load P_Visit.
Import ListNotations.
Local Open Scope list_scope.

Section Heights.
Context {A : arith}.
Notation line := (line A).
Variable v : num A -> R.
Variable ok ok' : num A -> Prop.
Hypothesis ok_weak : forall x, ok x -> ok' x.
Hypothesis eq_v : forall x y, ok' x -> ok' y -> (n_eqb x y = true <-> v x = v y).
Hypothesis round_v : forall x, ok x -> ok' (py_round 2 x) /\ (Rabs (v (py_round 2 x) - v x) <= / 190)%R.
Hypothesis far_v : forall x y, ok x -> ok' y -> (/ 80 <= Rabs (v x - v y))%R -> n_ltb (n_abs (n_sub x y)) (lit 1 2) = false.

Notation ov := (option_map v).
Definition oko (z : option (num A)) : Prop := forall x, z = Some x -> ok x.
Definition oko' (z : option (num A)) : Prop := forall x, z = Some x -> ok' x.

Lemma oko_weak : forall z, oko z -> oko' z.
Proof. intros z H x E. apply ok_weak, H, E. Qed.

Lemma opt_eqb_v : forall x y, oko' x -> oko' y -> (opt_eqb x y = true <-> ov x = ov y).
Proof.
  intros [x|] [y|] Hx Hy; cbn; try (split; [discriminate|congruence]); [|tauto].
  rewrite (eq_v x y (Hx x eq_refl) (Hy y eq_refl)). split; [congruence|]. intros H. injection H as H. exact H.
Qed.

Lemma opt_eqb_no : forall x y, oko' x -> oko' y -> (opt_eqb x y = false <-> ov x <> ov y).
Proof. intros x y Hx Hy. rewrite <- (opt_eqb_v x y Hx Hy). destruct (opt_eqb x y); intuition congruence. Qed.

Lemma in_zs_v : forall z zs, oko' z -> Forall oko' zs -> (in_zs z zs = true <-> In (ov z) (map ov zs)).
Proof.
  intros z zs Hz H. unfold in_zs. induction H as [|a zs Ha H IH]; cbn; [intuition discriminate|].
  rewrite orb_true_iff, IH, (opt_eqb_v z a Hz Ha). intuition congruence.
Qed.

Lemma prints_snoc : forall (pre : list line) l h, prints_at v (pre ++ [l]) h <->
  prints_at v pre h \/ (t_extruding (lnotes l) = Some true /\ h = ov (z_after (pre ++ [l]))).
Proof.
  intros pre l h. split.
  - intros (i & x & Hi & He & Hz). destruct (Nat.lt_ge_cases i (List.length pre)) as [Hl|Hl].
    + left. exists i, x. rewrite nth_error_app1 in Hi by exact Hl. rewrite firstn_app in Hz.
      replace (S i - List.length pre) with 0 in Hz by lia. cbn [firstn] in Hz. rewrite app_nil_r in Hz. auto.
    + right. rewrite nth_error_app2 in Hi by exact Hl.
      destruct (i - List.length pre) as [|j] eqn:Ej; [|destruct j; discriminate Hi]. injection Hi as <-.
      assert (i = List.length pre) by lia. subst i. split; [exact He|].
      rewrite firstn_all2 in Hz by (rewrite app_length; cbn; lia). exact Hz.
  - intros [(i & x & Hi & He & Hz)|[He Hz]].
    + assert (Hl : i < List.length pre) by (apply nth_error_Some; congruence).
      exists i, x. rewrite nth_error_app1 by exact Hl. rewrite firstn_app.
      replace (S i - List.length pre) with 0 by lia. cbn [firstn]. rewrite app_nil_r. auto.
    + exists (List.length pre), l. rewrite nth_error_app2, Nat.sub_diag by lia.
      rewrite firstn_all2 by (rewrite app_length; cbn; lia). auto.
Qed.

Record tall (pre : list line) (ls : lstate A) : Prop := Tall {
  tl_cur : ls_cur_z ls = z_after pre;
  tl_prev : ls_prev_z ls = z_after pre;
  tl_est : ls_est ls = None;
  tl_ok : Forall oko' (ls_zs ls);
  tl_dup : NoDup (map ov (ls_zs ls));
  tl_in : level v pre -> forall h, In h (map ov (ls_zs ls)) -> prints_at v pre h;
  tl_has : level v pre -> ls_has_ext ls = true -> prints_at v pre (ov (z_after pre));
  tl_all : level v pre -> forall h, prints_at v pre h -> In h (map ov (ls_zs ls)) \/ (ls_has_ext ls = true /\ h = ov (z_after pre));
  tl_base : match ls_prev_base ls with
            | None => ls_last_z ls = None /\ z_after pre = None
            | Some b => ls_last_z ls = b /\ exists z, z_after pre = Some z /\
                        forall x, b = Some x -> ok' x /\ (/ 70 <= Rabs (v z - v x))%R
            end;
  tl_idx : ls_lidx ls = map (fun i => changes (firstn (S i) pre)) (seq 0 (List.length pre));
  tl_id : ls_layer_id ls = changes pre }.

Lemma tall_init : tall [] init_lstate.
Proof.
  constructor; try reflexivity; cbn.
  - constructor.
  - constructor.
  - intros _ h [].
  - discriminate.
  - intros _ h (i & l & H & _). destruct i; discriminate H.
  - auto.
Qed.

Lemma firstn_snoc : forall T (pre : list T) l i, i <= List.length pre -> firstn i (pre ++ [l]) = firstn i pre.
Proof. intros T pre l i H. rewrite firstn_app. replace (i - List.length pre) with 0 by lia. cbn [firstn]. apply app_nil_r. Qed.

Lemma changes_snoc : forall (pre : list line) l, changes (pre ++ [l]) =
  changes pre + (if opt_eqb (z_after (pre ++ [l])) (z_after pre) then 0 else 1).
Proof.
  intros pre l. unfold changes. rewrite app_length. cbn [List.length]. rewrite Nat.add_1_r, seq_S, filter_app, app_length. f_equal.
  - f_equal. apply filter_ext_in. intros i Hi. apply in_seq in Hi. rewrite !firstn_snoc by lia. reflexivity.
  - cbn [filter Nat.add]. rewrite (firstn_snoc _ pre l (List.length pre)) by lia. rewrite firstn_all.
    rewrite firstn_all2 by (rewrite app_length; cbn; lia). destruct (opt_eqb _ _); reflexivity.
Qed.

Lemma idx_snoc : forall (pre : list line) l, map (fun i => changes (firstn (S i) (pre ++ [l]))) (seq 0 (List.length (pre ++ [l]))) =
  map (fun i => changes (firstn (S i) pre)) (seq 0 (List.length pre)) ++ [changes (pre ++ [l])].
Proof.
  intros pre l. rewrite app_length. cbn [List.length]. rewrite Nat.add_1_r, seq_S, map_app. f_equal.
  - apply map_ext_in. intros i Hi. apply in_seq in Hi. rewrite firstn_snoc by lia. reflexivity.
  - cbn [map Nat.add]. rewrite firstn_all2 by (rewrite app_length; cbn; lia). reflexivity.
Qed.

Lemma level_snoc : forall (pre : list line) l, level v (pre ++ [l]) ->
  level v pre /\ (t_extruding (lnotes l) = Some true -> ov (z_after (pre ++ [l])) = ov (z_after pre)).
Proof.
  intros pre l H. split.
  - intros i x Hn He. assert (Hl : i < List.length pre) by (apply nth_error_Some; congruence).
    pose proof (H i x) as K. rewrite !firstn_snoc in K by lia. apply K; [|exact He]. rewrite nth_error_app1 by exact Hl. exact Hn.
  - intros He. pose proof (H (List.length pre) l) as K. rewrite (firstn_snoc _ pre l (List.length pre)) in K by lia. rewrite firstn_all in K.
    rewrite firstn_all2 in K by (rewrite app_length; cbn; lia). apply K; [|exact He].
    rewrite nth_error_app2, Nat.sub_diag by lia. reflexivity.
Qed.

(** the line neither closes a layer nor changes the height *)
Lemma tall_same : forall pre (ls ls1 : lstate A) l, tall pre ls ->
  oko (z_after pre) -> oko (z_after (pre ++ [l])) ->
  opt_eqb (z_after (pre ++ [l])) (z_after pre) = true ->
  ls_cur_z ls1 = z_after (pre ++ [l]) -> ls_est ls1 = ls_est ls -> ls_zs ls1 = ls_zs ls ->
  ls_has_ext ls1 = ls_has_ext ls || match t_extruding (lnotes l) with Some b => b | None => false end ->
  ls_prev_base ls1 = ls_prev_base ls -> ls_last_z ls1 = ls_last_z ls ->
  ls_lidx ls1 = ls_lidx ls -> ls_layer_id ls1 = ls_layer_id ls ->
  tall (pre ++ [l]) (push_line l ls1).
Proof.
  intros pre ls ls1 l [T1 T2 T3 T4 T5 T6 T7 T8 T9 T10 T11] O1 O2 Hz H1 H2 H3 H4 H5 H6 H7 H8.
  pose proof Hz as Hv. apply (opt_eqb_v _ _ (oko_weak _ O2) (oko_weak _ O1)) in Hv.
  constructor; cbn [push_line ls_cur_z ls_prev_z ls_est ls_zs ls_has_ext ls_prev_base ls_last_z ls_lidx ls_layer_id].
  - exact H1.
  - exact H1.
  - congruence.
  - now rewrite H3.
  - now rewrite H3.
  - rewrite H3. intros Hlv h Hh. apply prints_snoc. left. apply level_snoc in Hlv as [Hlv _]. apply T6; assumption.
  - rewrite H4, orb_true_iff. intros Hlv [H|H]; apply prints_snoc.
    + left. rewrite Hv. apply level_snoc in Hlv as [Hlv _]. apply T7; assumption.
    + right. split; [|reflexivity]. destruct (t_extruding (lnotes l)) as [[]|]; [reflexivity|discriminate H|discriminate H].
  - rewrite H3, H4. intros Hlv h Hh. apply level_snoc in Hlv as [Hlv _]. apply prints_snoc in Hh as [Hh|[He ->]].
    + destruct (T8 Hlv h Hh) as [H|[H ->]]; [now left|]. right. rewrite H. split; [reflexivity|now rewrite Hv].
    + right. rewrite He, orb_true_r. auto.
  - rewrite H5, H6. destruct (ls_prev_base ls) as [b|].
    + destruct T9 as (L1 & z & Hz0 & Hb). split; [exact L1|]. rewrite Hz0 in Hv.
      destruct (z_after (pre ++ [l])) as [z'|] eqn:E'; [|discriminate Hv]. exists z'. split; [reflexivity|].
      cbn in Hv. injection Hv as Hv. rewrite Hv. exact Hb.
    + destruct T9 as [L1 L2]. split; [exact L1|]. rewrite L2 in Hv. destruct (z_after (pre ++ [l])); [discriminate Hv|reflexivity].
  - rewrite idx_snoc, H7, H8, T10, T11. f_equal. rewrite changes_snoc, Hz, Nat.add_0_r. reflexivity.
  - rewrite H8, T11, changes_snoc, Hz, Nat.add_0_r. reflexivity.
Qed.

Lemma add_z_v : forall has z zs, oko' z -> Forall oko' zs -> NoDup (map ov zs) ->
  Forall oko' (add_z has z zs) /\ NoDup (map ov (add_z has z zs)) /\
  (forall h, In h (map ov (add_z has z zs)) <-> In h (map ov zs) \/ (has = true /\ h = ov z)).
Proof.
  intros has z zs Hz Hzs Hd. unfold add_z. pose proof (in_zs_v z zs Hz Hzs) as Hi.
  destruct has; cbn [andb]; [|split; [exact Hzs|]; split; [exact Hd|]; intros h; intuition discriminate].
  destruct (in_zs z zs); cbn [negb].
  - split; [exact Hzs|]. split; [exact Hd|]. intros h. split; [now left|]. intros [H|[_ ->]]; [exact H|]. apply Hi. reflexivity.
  - split; [apply Forall_app; split; [exact Hzs|constructor; [exact Hz|constructor]]|]. rewrite map_app. split.
    + apply (Permutation_NoDup (l := ov z :: map ov zs)); [apply Permutation_cons_append|]. constructor; [|exact Hd].
      intros H. apply Hi in H. discriminate H.
    + intros h. rewrite in_app_iff. cbn. intuition congruence.
Qed.

(** the line closes a layer and changes the height *)
Lemma tall_cut : forall pre (ls ls1 : lstate A) l base, tall pre ls ->
  oko (z_after pre) -> oko (z_after (pre ++ [l])) ->
  opt_eqb (z_after (pre ++ [l])) (z_after pre) = false ->
  (exists z, z_after (pre ++ [l]) = Some z /\ forall x, base = Some x -> ok' x /\ (/ 70 <= Rabs (v z - v x))%R) ->
  ls_cur_z ls1 = z_after (pre ++ [l]) -> ls_est ls1 = None ->
  ls_zs ls1 = add_z (ls_has_ext ls || match t_extruding (lnotes l) with Some b => b | None => false end) (z_after pre) (ls_zs ls) ->
  ls_has_ext ls1 = false -> ls_prev_base ls1 = Some base -> ls_last_z ls1 = base ->
  ls_lidx ls1 = ls_lidx ls -> ls_layer_id ls1 = S (ls_layer_id ls) ->
  tall (pre ++ [l]) (push_line l ls1).
Proof.
  intros pre ls ls1 l base [T1 T2 T3 T4 T5 T6 T7 T8 T9 T10 T11] O1 O2 Hz Hbase H1 H2 H3 H4 H5 H6 H7 H8.
  pose proof Hz as Hv. apply (opt_eqb_no _ _ (oko_weak _ O2) (oko_weak _ O1)) in Hv.
  assert (Hne : level v (pre ++ [l]) -> level v pre /\ match t_extruding (lnotes l) with Some b => b | None => false end = false).
  { intros Hlv. apply level_snoc in Hlv as [Hlv Hl]. split; [exact Hlv|].
    destruct (t_extruding (lnotes l)) as [[]|] eqn:E; [|reflexivity|reflexivity]. exfalso. apply Hv, Hl. reflexivity. }
  destruct (add_z_v (ls_has_ext ls || match t_extruding (lnotes l) with Some b => b | None => false end) _ _ (oko_weak _ O1) T4 T5) as (A1 & A2 & A3).
  rewrite <- H3 in A1, A2, A3.
  constructor; cbn [push_line ls_cur_z ls_prev_z ls_est ls_zs ls_has_ext ls_prev_base ls_last_z ls_lidx ls_layer_id]; try assumption.
  - intros Hlv h Hh. destruct (Hne Hlv) as [Hlp Hx]. apply prints_snoc. left. apply A3 in Hh as [Hh|[Hh ->]]; [apply T6; assumption|].
    rewrite Hx, orb_false_r in Hh. apply T7; assumption.
  - rewrite H4. discriminate.
  - intros Hlv h Hh. destruct (Hne Hlv) as [Hlp Hx]. left. apply A3. apply prints_snoc in Hh as [Hh|[He ->]].
    + rewrite Hx, orb_false_r. exact (T8 Hlp h Hh).
    + rewrite He in Hx. discriminate Hx.
  - rewrite H5. split; [exact H6|exact Hbase].
  - rewrite idx_snoc, H7, H8, T10, T11. f_equal. rewrite changes_snoc, Hz, Nat.add_1_r. reflexivity.
  - rewrite H8, T11, changes_snoc, Hz, Nat.add_1_r. reflexivity.
Qed.

Lemma tall_step : forall (m m' : mstate A) s l pre (ls ls1 : lstate A),
  motion_step m (new_line s) = Ok (m', l) -> layer_step l (m_max m') ls = Ok ls1 ->
  oko (z_after pre) -> oko (z_after (pre ++ [l])) ->
  (forall z z', z_after pre = Some z -> z_after (pre ++ [l]) = Some z' -> v z' = v z \/ (/ 50 <= Rabs (v z' - v z))%R) ->
  tall pre ls -> tall (pre ++ [l]) (push_line l ls1).
Proof.
  intros m m' s l pre ls ls1 Hs Hb O1 O2 Hsp T.
  assert (Hza : z_after (pre ++ [l]) = update_cur_z l (z_after pre)) by apply z_after_snoc.
  unfold layer_step in Hb. destruct (command l) as [c|] eqn:Ec.
  2:{ injection Hb as <-. unfold update_cur_z in Hza. rewrite (no_command_z _ _ _ _ Hs Ec) in Hza.
      apply (tall_same pre ls ls l T O1 O2); try reflexivity.
      - rewrite Hza. apply opt_eqb_v; [apply oko_weak, O1|apply oko_weak, O1|reflexivity].
      - rewrite Hza. apply T.
      - destruct (t_extruding (lnotes l)) as [[]|] eqn:E; [|now rewrite orb_false_r|now rewrite orb_false_r]. exfalso.
        destruct (command_name s) as [c|] eqn:Hn.
        + destruct (motion_some _ _ _ _ _ Hn Hs) as (s1 & l1 & ext & _ & (_ & Hcmd & _) & _ & ->). cbn in Ec. congruence.
        + destruct (motion_none _ _ _ _ Hn Hs) as (_ & _ & _ & Hx). rewrite Hx in E. discriminate E. }
  unfold layer_body in Hb. destruct (update_bbox l (m_max m') ls) as [bb bbe].
  destruct (update_duration l (ls_d ls)) as [d|e]; cbn [bind] in Hb; [|discriminate Hb].
  apply ok_inj in Hb. subst ls1. unfold update_layers. cbn [ls_cur_z ls_prev_z].
  pose proof T as T0. destruct T0 as [T1 T2 T3 T4 T5 T6 T7 T8 T9 T10 T11].
  rewrite T1, T2, <- Hza. destruct (opt_eqb (z_after (pre ++ [l])) (z_after pre)) eqn:Ez.
  { apply (tall_same pre ls _ l T O1 O2 Ez); reflexivity. }
  pose proof Ez as Hv. apply (opt_eqb_no _ _ (oko_weak _ O2) (oko_weak _ O1)) in Hv.
  unfold compute_base_z. cbn [ls_prev_z ls_last_z ls_est ls_prev_base ls_layers ls_has_ext ls_zs ls_d ls_begin ls_cur].
  rewrite ?T2.
  assert (Hz' : exists z', z_after (pre ++ [l]) = Some z').
  { destruct (z_after (pre ++ [l])) as [z'|] eqn:E; [eauto|]. exfalso.
    destruct (z_after pre) as [z|]; [|apply Hv; reflexivity]. symmetry in Hza. revert Hza. apply update_cur_z_some. }
  destruct Hz' as [z' Ez'].
  destruct (ls_prev_base ls) as [b|] eqn:Eb.
  - destruct T9 as (L1 & z & Ezp & Hbx). rewrite L1, Ezp.
    assert (Oz : ok z) by (apply O1, Ezp). assert (Oz' : ok z') by (apply O2, Ez').
    assert (Hd : (/ 50 <= Rabs (v z' - v z))%R).
    { destruct (Hsp z z' Ezp Ez') as [H|H]; [|exact H]. exfalso. apply Hv. rewrite Ezp, Ez'. cbn. now rewrite H. }
    destruct b as [x|].
    + destruct (Hbx x eq_refl) as [Ox Hx]. rewrite T3.
      rewrite (far_v z x Oz Ox) by lra.
      destruct (round_v z Oz) as [Or Hr].
      assert (Hns : opt_eqb (Some (py_round 2 z)) (Some x) = false).
      { cbn. destruct (n_eqb (py_round 2 z) x) eqn:E; [|reflexivity]. exfalso. apply (eq_v _ _ Or Ox) in E.
        rewrite E in Hr. rewrite Rabs_minus_sym in Hr. lra. }
      rewrite Hns.
      apply (tall_cut pre ls _ l (Some (py_round 2 z)) T O1 O2 Ez); try reflexivity; [|now rewrite Ezp].
      exists z'. split; [exact Ez'|]. intros y Hy. injection Hy as <-. split; [exact Or|].
      revert Hd Hr. unfold Rabs. repeat destruct (Rcase_abs _); lra.
    + rewrite T3. cbn [opt_eqb].
      apply (tall_cut pre ls _ l (Some z) T O1 O2 Ez); try reflexivity; [|now rewrite Ezp].
      exists z'. split; [exact Ez'|]. intros y Hy. injection Hy as <-. split; [apply ok_weak, Oz|lra].
  - destruct T9 as [L1 L2]. rewrite L1, L2, T3.
    apply (tall_cut pre ls _ l None T O1 O2 Ez); try reflexivity; [|now rewrite L2].
    exists z'. split; [exact Ez'|]. intros y Hy. discriminate Hy.
Qed.

Lemma tall_trace : forall ts pl (m m' : mstate A) ls ls', btrace false m ls ts pl m' ls' ->
  forall pre, (forall i, oko (z_after (firstn i (pre ++ pl)))) -> spaced v (pre ++ pl) ->
  tall pre ls -> tall (pre ++ pl) ls'.
Proof.
  intros ts pl m m' ls ls' H.
  induction H as [m ls|m ls s l m1 ls1 ts pl m' ls' Hs Hb Ht IH]; intros pre Ho Hsp C; [now rewrite app_nil_r|].
  assert (E : pre ++ l :: pl = (pre ++ [l]) ++ pl) by (rewrite <- app_assoc; reflexivity).
  assert (F0 : firstn (List.length pre) (pre ++ l :: pl) = pre).
  { rewrite firstn_app, Nat.sub_diag, firstn_all. cbn. apply app_nil_r. }
  assert (F1 : firstn (S (List.length pre)) (pre ++ l :: pl) = pre ++ [l]).
  { assert (Hn : List.length (pre ++ [l]) = S (List.length pre)) by (rewrite app_length; cbn; lia).
    rewrite E, <- Hn, firstn_app, Nat.sub_diag, firstn_all. cbn [firstn]. apply app_nil_r. }
  rewrite E. apply IH; [intros i; rewrite <- E; apply Ho|now rewrite <- E|].
  pose proof (Ho (List.length pre)) as O0. pose proof (Ho (S (List.length pre))) as O1.
  pose proof (Hsp (List.length pre)) as Hsp0.
  rewrite F0 in O0. rewrite F1 in O1. rewrite F0, F1 in Hsp0.
  exact (tall_step _ _ _ _ _ _ _ Hs Hb O0 O1 Hsp0 C).
Qed.

Lemma load_tall : forall home data (g : gcode A), load_gen false home data = Ok g ->
  (forall i, oko (z_after (firstn i (g_lines g)))) -> spaced v (g_lines g) ->
  NoDup (map ov (g_zs g)) /\ (level v (g_lines g) -> forall h, In h (map ov (g_zs g)) <-> prints_at v (g_lines g) h) /\
  forall i, i < List.length (g_lines g) -> nth_error (g_lidx g) i = Some (changes (firstn (S i) (g_lines g))).
Proof.
  intros home data g H Ho Hsp. destruct (load_btrace _ _ _ _ H) as (pl & ls & Hb & Hg).
  rewrite map_store_false in Hg.
  assert (HL : g_lines g = pl) by (rewrite Hg; apply finalize_lines). rewrite HL in *.
  pose proof (tall_trace _ _ _ _ _ _ Hb [] Ho Hsp tall_init) as T. cbn [app] in T.
  pose proof (btrace_cut _ _ _ _ _ _ Hb [] cut_init) as C. cbn [app] in C.
  destruct T as [T1 T2 T3 T4 T5 T6 T7 T8 T9 T10 T11].
  assert (Hi : forall i, i < List.length pl -> nth_error (ls_lidx ls) i = Some (changes (firstn (S i) pl))).
  { intros i Hi. rewrite T10, nth_error_map.
    rewrite (nth_error_nth' (seq 0 (List.length pl)) 0) by (rewrite seq_length; exact Hi). rewrite seq_nth by exact Hi. reflexivity. }
  rewrite Hg. unfold finalize. destruct (ls_cur ls) as [|c cs] eqn:Ec; cbn [g_zs g_lidx].
  - assert (Hp : pl = []).
    { destruct (ls_layers ls) as [|y ys] eqn:EL.
      - rewrite <- (cut_concat _ _ C). unfold blocks_of. rewrite EL, Ec. reflexivity.
      - exfalso. apply (cut_cur _ _ C); [rewrite EL; discriminate|exact Ec]. }
    split; [exact T5|]. split; [|exact Hi]. intros Hlv h. split; [apply T6, Hlv|]. rewrite Hp.
    intros (i & l & Hn & _). destruct i; discriminate Hn.
  - destruct (add_z_v (ls_has_ext ls) (ls_prev_z ls) (ls_zs ls)) as (A1 & A2 & A3); [|exact T4|exact T5|].
    { rewrite T2. apply oko_weak. pose proof (Ho (List.length pl)) as O. rewrite firstn_all in O. exact O. }
    split; [exact A2|]. split; [|exact Hi]. intros Hlv h. rewrite A3, T2. split.
    + intros [Hh|[Hh ->]]; [apply T6; assumption|apply T7; assumption].
    + apply T8, Hlv.
Qed.
End Heights.

(** * P_Layers: how a program is cut into layers, Z bounds, durations *)
From Coq Require Import List Ascii String ZArith NArith Bool Lia Reals Lra.
From Verif Require Import PyBase Arith ArithR Gcoder SpecText SpecLoad SpecMachine SpecMeasure.
From Verif Require Import P_Load P_Append P_Text P_Report P_Wf P_Machine P_Measure.
Import ListNotations.
Local Open Scope list_scope.

Section Segments.
Context {T : Type}.
Variable P : list T -> T -> Prop.

(** every block but the first starts with an element satisfying [P] *)
Definition seg_ok (pre : list T) (bs : list (list T)) : Prop :=
  forall k b, nth_error bs (S k) = Some b ->
    exists p l q, pre = p ++ l :: q /\ p = List.concat (firstn (S k) bs) /\ hd_error b = Some l /\ P p l.

Lemma seg_extend : forall pre bs c l, seg_ok pre (bs ++ [c]) -> (bs <> [] -> c <> []) ->
  seg_ok (pre ++ [l]) (bs ++ [c ++ [l]]).
Proof.
  intros pre bs c l H Hc k b Hk.
  destruct (Nat.lt_ge_cases (S k) (List.length bs)) as [Hlt|Hge].
  - rewrite nth_error_app1 in Hk by exact Hlt.
    destruct (H k b) as (p & x & q & H1 & H2 & H3 & H4); [rewrite nth_error_app1 by exact Hlt; exact Hk|].
    exists p, x, (q ++ [l]). rewrite H1, <- app_assoc. split; [reflexivity|].
    rewrite firstn_app in *. replace (S k - List.length bs) with 0 in * by lia.
    split; [exact H2|]. auto.
  - assert (Hn : S k = List.length bs).
    { assert (nth_error (bs ++ [c ++ [l]]) (S k) <> None) as Hs by congruence.
      apply nth_error_Some in Hs. rewrite app_length in Hs. cbn in Hs. lia. }
    assert (Hne : bs <> []) by (intros ->; discriminate Hn).
    specialize (Hc Hne). destruct c as [|h t]; [contradiction|].
    rewrite nth_error_app2 in Hk by lia. rewrite Hn, Nat.sub_diag in Hk. injection Hk as <-.
    destruct (H k (h :: t)) as (p & x & q & H1 & H2 & H3 & H4).
    { rewrite nth_error_app2 by lia. rewrite Hn, Nat.sub_diag. reflexivity. }
    exists p, x, (q ++ [l]). rewrite H1, <- app_assoc. split; [reflexivity|].
    rewrite firstn_app in *. replace (S k - List.length bs) with 0 in * by lia.
    split; [exact H2|]. split; [exact H3|exact H4].
Qed.

Lemma seg_new : forall pre bs l, seg_ok pre bs -> bs <> [] -> List.concat bs = pre -> P pre l ->
  seg_ok (pre ++ [l]) (bs ++ [[l]]).
Proof.
  intros pre bs l H Hne Hc Hp k b Hk.
  destruct (Nat.lt_ge_cases (S k) (List.length bs)) as [Hlt|Hge].
  - rewrite nth_error_app1 in Hk by exact Hlt.
    destruct (H k b Hk) as (p & x & q & H1 & H2 & H3 & H4).
    exists p, x, (q ++ [l]). rewrite H1, <- app_assoc. split; [reflexivity|].
    rewrite firstn_app. replace (S k - List.length bs) with 0 by lia. cbn [firstn]. rewrite app_nil_r. auto.
  - assert (Hn : S k = List.length bs).
    { assert (nth_error (bs ++ [[l]]) (S k) <> None) as Hs by congruence.
      apply nth_error_Some in Hs. rewrite app_length in Hs. cbn in Hs. lia. }
    rewrite nth_error_app2 in Hk by lia. rewrite Hn, Nat.sub_diag in Hk. injection Hk as <-.
    exists pre, l, []. split; [reflexivity|]. rewrite Hn, firstn_app, firstn_all, Nat.sub_diag.
    cbn [firstn]. rewrite app_nil_r. auto.
Qed.
End Segments.

Section Layers.
Context {A : arith}.
Notation line := (line A).

Definition blocks_of (ls : lstate A) : list (list line) := map ly_lines (ls_layers ls) ++ [ls_cur ls].

Definition z_changes (p : list line) (l : line) : Prop := opt_eqb (z_after (p ++ [l])) (z_after p) = false.

Record cut (pre : list line) (ls : lstate A) : Prop := Cut {
  cut_concat : List.concat (blocks_of ls) = pre;
  cut_z : ls_cur_z ls = z_after pre;
  cut_prev : ls_prev_z ls = z_after pre;
  cut_cur : ls_layers ls <> [] -> ls_cur ls <> [];
  cut_closed : forall k y, nth_error (ls_layers ls) (S k) = Some y -> ly_lines y <> [];
  cut_seg : seg_ok z_changes pre (blocks_of ls);
  cut_zs : forall z, In z (ls_zs ls) -> exists i, z = z_after (firstn i pre) }.

Lemma cut_init : cut [] init_lstate.
Proof.
  constructor; cbn; try reflexivity.
  - intros H. contradiction.
  - intros k y H. destruct k; discriminate H.
  - intros k b H. destruct k; discriminate H.
  - intros z [].
Qed.

Lemma no_command_z : forall (m m' : mstate A) s (l : line), motion_step m (new_line s) = Ok (m', l) ->
  command l = None -> l_z l = None.
Proof.
  intros m m' s l H Hc. destruct (command_name s) as [c|] eqn:Hn.
  - destruct (motion_some _ _ _ _ _ Hn H) as (s1 & l1 & ext & _ & (_ & Hcmd & _) & _ & ->).
    cbn in Hc. congruence.
  - destruct (motion_none _ _ _ _ Hn H) as (_ & Ha & _). unfold l_z. rewrite Ha. reflexivity.
Qed.

Lemma map_nil_iff : forall T U (f : T -> U) l, map f l <> [] -> l <> [].
Proof. intros T U f [|a l] H; [contradiction|discriminate]. Qed.

(** a line pushed without closing a layer *)
Lemma cut_push : forall pre (ls ls1 : lstate A) l, cut pre ls ->
  ls_layers ls1 = ls_layers ls -> ls_cur ls1 = ls_cur ls -> ls_zs ls1 = ls_zs ls ->
  ls_cur_z ls1 = z_after (pre ++ [l]) -> cut (pre ++ [l]) (push_line l ls1).
Proof.
  intros pre ls ls1 l [C1 C2 C3 C4 C5 C6 C7] H1 H2 H3 H4.
  assert (Hb : blocks_of (push_line l ls1) = map ly_lines (ls_layers ls) ++ [ls_cur ls ++ [l]]).
  { unfold blocks_of. cbn. rewrite H1, H2. reflexivity. }
  constructor; try (cbn; assumption).
  - rewrite Hb. rewrite concat_app. cbn. rewrite app_nil_r, app_assoc. f_equal. rewrite <- C1.
    unfold blocks_of. rewrite concat_app. cbn. rewrite app_nil_r. reflexivity.
  - cbn. intros _. rewrite H2. destruct (ls_cur ls); discriminate.
  - change (ls_layers (push_line l ls1)) with (ls_layers ls1). rewrite H1. exact C5.
  - rewrite Hb. apply seg_extend; [exact C6|]. intros Hn. apply map_nil_iff in Hn. apply C4, Hn.
  - cbn. rewrite H3. intros z Hz. destruct (C7 z Hz) as (i & ->).
    exists (Nat.min i (List.length pre)). rewrite firstn_app.
    replace (Nat.min i (List.length pre) - List.length pre) with 0 by lia. cbn [firstn]. rewrite app_nil_r.
    f_equal. destruct (Nat.le_ge_cases i (List.length pre)) as [Hi|Hi].
    + rewrite Nat.min_l by exact Hi. reflexivity.
    + rewrite Nat.min_r by exact Hi. rewrite firstn_all, firstn_all2 by exact Hi. reflexivity.
Qed.

(** a line that opens a new layer *)
Lemma cut_close : forall pre (ls ls1 : lstate A) l y, cut pre ls ->
  ls_layers ls1 = ls_layers ls ++ [y] -> ly_lines y = ls_cur ls -> ls_cur ls1 = [] ->
  (ls_zs ls1 = ls_zs ls \/ ls_zs ls1 = ls_zs ls ++ [z_after pre]) ->
  ls_cur_z ls1 = z_after (pre ++ [l]) -> z_changes pre l -> cut (pre ++ [l]) (push_line l ls1).
Proof.
  intros pre ls ls1 l y [C1 C2 C3 C4 C5 C6 C7] H1 H2 H3 H4 H5 H6.
  assert (Hb : blocks_of (push_line l ls1) = blocks_of ls ++ [[l]]).
  { unfold blocks_of. cbn. rewrite H1, H3, map_app. cbn. rewrite H2. reflexivity. }
  constructor; try (cbn; assumption).
  - rewrite Hb, concat_app, C1. cbn. reflexivity.
  - cbn. intros _. rewrite H3. discriminate.
  - change (ls_layers (push_line l ls1)) with (ls_layers ls1). rewrite H1. intros k y0 Hk.
    destruct (Nat.lt_ge_cases (S k) (List.length (ls_layers ls))) as [Hlt|Hge].
    + rewrite nth_error_app1 in Hk by exact Hlt. eapply C5, Hk.
    + rewrite nth_error_app2 in Hk by exact Hge.
      destruct (S k - List.length (ls_layers ls)) as [|j] eqn:Ej; [|destruct j; discriminate Hk].
      injection Hk as <-. rewrite H2. apply C4. intros E. rewrite E in Hge, Ej. cbn in Ej. discriminate Ej.
  - rewrite Hb. apply seg_new; [exact C6| |exact C1|exact H6].
    unfold blocks_of. destruct (map ly_lines (ls_layers ls)); discriminate.
  - assert (Hw : forall i, exists j, z_after (firstn i pre) = z_after (firstn j (pre ++ [l]))).
    { intros i. exists (Nat.min i (List.length pre)). rewrite firstn_app.
      replace (Nat.min i (List.length pre) - List.length pre) with 0 by lia. cbn [firstn]. rewrite app_nil_r.
      f_equal. destruct (Nat.le_ge_cases i (List.length pre)) as [Hi|Hi].
      + rewrite Nat.min_l by exact Hi. reflexivity.
      + rewrite Nat.min_r by exact Hi. rewrite firstn_all, firstn_all2 by exact Hi. reflexivity. }
    cbn. intros z Hz.
    assert (Hz' : In z (ls_zs ls) \/ z = z_after pre).
    { destruct H4 as [H4|H4]; rewrite H4 in Hz; [now left|]. apply in_app_or in Hz as [Hz|[<-|[]]]; auto. }
    destruct Hz' as [Hz'|Hz'].
    + destruct (C7 z Hz') as (i & ->). apply Hw.
    + destruct (Hw (List.length pre)) as (j & Hj). rewrite firstn_all in Hj. exists j. congruence.
Qed.

Lemma cut_step : forall (m m' : mstate A) s l pre (ls ls1 : lstate A),
  motion_step m (new_line s) = Ok (m', l) -> layer_step l (m_max m') ls = Ok ls1 ->
  cut pre ls -> cut (pre ++ [l]) (push_line l ls1).
Proof.
  intros m m' s l pre ls ls1 Hs Hb C. unfold layer_step in Hb.
  destruct (command l) as [c|] eqn:Ec.
  2:{ injection Hb as <-. apply (cut_push pre ls ls l C); try reflexivity.
      rewrite z_after_snoc. unfold update_cur_z. rewrite (no_command_z _ _ _ _ Hs Ec). apply cut_z, C. }
  unfold layer_body in Hb. destruct (update_bbox l (m_max m') ls) as [bb bbe].
  destruct (update_duration l (ls_d ls)) as [d|e]; cbn [bind] in Hb; [|discriminate Hb].
  apply ok_inj in Hb. subst ls1.
  set (has := ls_has_ext ls || _).
  set (ls0 := LState bb bbe d (ls_begin ls) (ls_layers ls) (ls_zs ls) (ls_lidx ls) (ls_kidx ls)
    (ls_layer_id ls) (ls_layer_line ls) (ls_last_z ls) (ls_prev_z ls) (ls_prev_base ls)
    (update_cur_z l (ls_cur_z ls)) (ls_cur ls) has (ls_est ls)).
  assert (Hz : ls_cur_z ls0 = z_after (pre ++ [l])).
  { cbn. rewrite z_after_snoc, (cut_z _ _ C). reflexivity. }
  unfold update_layers. destruct (opt_eqb (ls_cur_z ls0) (ls_prev_z ls0)) eqn:Eq.
  { apply (cut_push pre ls ls0 l C); try reflexivity. exact Hz. }
  destruct (compute_base_z ls0) as [base est].
  destruct (match ls_prev_base ls0 with Some b => opt_eqb base b | None => false end).
  { eapply (cut_push pre ls _ l C); try reflexivity. exact Hz. }
  eapply (cut_close pre ls _ l _ C); try reflexivity.
  - cbn [ls_zs]. unfold add_z. cbn [ls_has_ext ls_prev_z ls_zs ls0].
    destruct (has && negb (in_zs (ls_prev_z ls) (ls_zs ls))); [right|now left].
    rewrite (cut_prev _ _ C). reflexivity.
  - exact Hz.
  - unfold z_changes. rewrite <- Hz, <- (cut_prev _ _ C). exact Eq.
Qed.

Lemma btrace_cut : forall ts pl m m' ls ls', btrace false m ls ts pl m' ls' ->
  forall pre, cut pre ls -> cut (pre ++ pl) ls'.
Proof.
  intros ts pl m m' ls ls' H.
  induction H as [m ls|m ls s l m1 ls1 ts pl m' ls' Hs Hb Ht IH]; intros pre C; [now rewrite app_nil_r|].
  replace (pre ++ l :: pl) with ((pre ++ [l]) ++ pl) by (rewrite <- app_assoc; reflexivity).
  apply IH. eapply cut_step; eassumption.
Qed.

Lemma load_cut : forall home data (g : gcode A), load_gen false home data = Ok g ->
  exists ls, cut (g_lines g) ls /\ g = finalize false (g_m g) ls (g_lines g).
Proof.
  intros home data g H. destruct (load_btrace _ _ _ _ H) as (pl & ls & Hb & Hg).
  rewrite map_store_false in Hg.
  assert (Hl : g_lines g = pl) by (rewrite Hg; apply finalize_lines).
  exists ls. rewrite Hl. split; [|exact Hg].
  apply (btrace_cut _ _ _ _ _ _ Hb [] cut_init).
Qed.

Lemma finalize_layers : forall pre ls, cut pre ls ->
  exists Y, g_layers (finalize false (init_mstate (A:=A) home0) ls pre) = Y ++ [Layer [] None n0] /\
    (ls_layers ls = [] /\ ls_cur ls = [] /\ Y = [] \/ map ly_lines Y = blocks_of ls).
Proof.
  intros pre ls C. unfold finalize. destruct (ls_cur ls) as [|a c] eqn:E.
  - exists (ls_layers ls). split; [reflexivity|]. left.
    destruct (ls_layers ls) as [|y Y] eqn:EY; [auto|].
    exfalso. apply (cut_cur _ _ C); [rewrite EY; discriminate|exact E].
  - eexists. split; [reflexivity|]. right. unfold blocks_of. rewrite E, map_app. reflexivity.
Qed.

Lemma finalize_g_layers : forall light m (ls : lstate A) out m' out',
  g_layers (finalize light m ls out) = g_layers (finalize light m' ls out').
Proof. intros. unfold finalize. destruct (ls_cur ls); reflexivity. Qed.

Lemma load_layers : forall home data (g : gcode A), load_gen false home data = Ok g ->
  exists Y, g_layers g = Y ++ [Layer [] None n0] /\
    List.concat (map ly_lines Y) = g_lines g /\
    (forall k y, nth_error Y (S k) = Some y -> ly_lines y <> []) /\
    (forall k y, nth_error Y (S k) = Some y -> exists p l q,
       g_lines g = p ++ l :: q /\ p = List.concat (map ly_lines (firstn (S k) Y)) /\
       hd_error (ly_lines y) = Some l /\
       opt_eqb (z_after (p ++ [l])) (z_after p) = false).
Proof.
  intros home data g H. destruct (load_cut _ _ _ H) as (ls & C & Hg).
  destruct (finalize_layers _ _ C) as (Y & HY & HB). exists Y.
  split.
  { rewrite Hg. rewrite (finalize_g_layers _ _ _ _ (init_mstate home0) (g_lines g)). exact HY. }
  destruct HB as [(E1 & E2 & ->)|HB].
  - split; [|split; intros k y Hk; destruct k; discriminate Hk].
    rewrite <- (cut_concat _ _ C). unfold blocks_of. rewrite E1, E2. reflexivity.
  - split; [rewrite HB; apply (cut_concat _ _ C)|].
    assert (Hseg : forall k y, nth_error Y (S k) = Some y -> exists p l q,
       g_lines g = p ++ l :: q /\ p = List.concat (map ly_lines (firstn (S k) Y)) /\
       hd_error (ly_lines y) = Some l /\ opt_eqb (z_after (p ++ [l])) (z_after p) = false).
    { intros k y Hk. rewrite <- firstn_map, HB. apply (cut_seg _ _ C).
      rewrite <- HB. rewrite nth_error_map, Hk. reflexivity. }
    split; [|exact Hseg].
    intros k y Hk E. destruct (Hseg k y Hk) as (p & l & q & _ & _ & Hh & _). rewrite E in Hh. discriminate Hh.
Qed.

Lemma load_zs : forall home data (g : gcode A), load_gen false home data = Ok g ->
  (forall z, In z (g_zs g) -> exists i, z = z_after (firstn i (g_lines g))) /\
  g_zmin g = fold_left n_min (somes (g_zs g)) n0 /\ g_zmax g = fold_left n_max (somes (g_zs g)) n0.
Proof.
  intros home data g H. destruct (load_cut _ _ _ H) as (ls & C & Hg).
  split.
  - intros z Hz. rewrite Hg in Hz. unfold finalize in Hz. destruct (ls_cur ls) as [|a c].
    + cbn in Hz. apply (cut_zs _ _ C _ Hz).
    + cbn in Hz. unfold add_z in Hz. destruct (_ && _); [|apply (cut_zs _ _ C _ Hz)].
      apply in_app_or in Hz as [Hz|[<-|[]]]; [apply (cut_zs _ _ C _ Hz)|].
      exists (List.length (g_lines g)). rewrite firstn_all. apply (cut_prev _ _ C).
  - rewrite Hg. unfold finalize. destruct (ls_cur ls); split; reflexivity.
Qed.

Section ExactLayers.
Variable E : exact A.
Notation val := (val E).
Local Open Scope R_scope.

Lemma opt_eqb_refl : forall z : option (num A), opt_eqb z z = true.
Proof. intros [z|]; [|reflexivity]. apply (val_eqb A E). reflexivity. Qed.

Lemma z_changes_sets : forall p (l : line), z_changes p l -> sets_z l.
Proof.
  intros p l H. unfold z_changes in H. rewrite z_after_snoc in H. unfold update_cur_z in H. unfold sets_z.
  destruct (l_z l) as [v|]; [|rewrite opt_eqb_refl in H; discriminate H].
  split; [discriminate|]. destruct (command l) as [c|]; cbn [cmd_is] in H.
  - destruct (String.eqb c "G92") eqn:Ec; [apply String.eqb_eq in Ec; subst c; now right|].
    destruct (is_move l); [now left|]. rewrite opt_eqb_refl in H. discriminate H.
  - destruct (is_move l); [now left|]. rewrite opt_eqb_refl in H. discriminate H.
Qed.

Lemma load_layers_exact : forall home data (g : gcode A), load_gen false home data = Ok g ->
  exists Y, g_layers g = Y ++ [Layer [] None n0] /\
    List.concat (map ly_lines Y) = g_lines g /\
    (forall k y, nth_error Y (S k) = Some y -> exists p l q,
       g_lines g = p ++ l :: q /\ p = List.concat (map ly_lines (firstn (S k) Y)) /\
       hd_error (ly_lines y) = Some l /\ sets_z l /\
       opt_eqb (z_after (p ++ [l])) (z_after p) = false).
Proof.
  intros home data g H. destruct (load_layers _ _ _ H) as (Y & H1 & H2 & _ & H4).
  exists Y. split; [exact H1|]. split; [exact H2|]. intros k y Hk.
  destruct (H4 k y Hk) as (p & l & q & G1 & G2 & G3 & G4). exists p, l, q.
  split; [exact G1|]. split; [exact G2|]. split; [exact G3|]. split; [|exact G4].
  apply (z_changes_sets p l G4).
Qed.

(** *** Z bounds *)

Lemma fold_min_spec : forall zs a, let w := fold_left n_min zs a in
  val w <= val a /\ (forall z, In z zs -> val w <= val z) /\ (w = a \/ In w zs).
Proof.
  induction zs as [|z zs IH]; intros a; cbn [fold_left].
  - split; [lra|]. split; [intros z []|now left].
  - destruct (IH (n_min a z)) as (H1 & H2 & H3). cbv zeta in *.
    assert (Hm : val (n_min a z) <= val a /\ val (n_min a z) <= val z /\ (n_min a z = a \/ n_min a z = z)).
    { destruct (n_min_cases E a z) as [[-> Hle]|[-> Hle]]; repeat split; try lra; auto. }
    destruct Hm as (M1 & M2 & M3). split; [lra|]. split.
    + intros x [<-|Hx]; [lra|apply H2, Hx].
    + destruct H3 as [H3|H3]; [|now right; right]. rewrite H3. destruct M3 as [M3|M3]; rewrite M3; auto.
      right. now left.
Qed.

Lemma fold_max_spec : forall zs a, let w := fold_left n_max zs a in
  val a <= val w /\ (forall z, In z zs -> val z <= val w) /\ (w = a \/ In w zs).
Proof.
  induction zs as [|z zs IH]; intros a; cbn [fold_left].
  - split; [lra|]. split; [intros z []|now left].
  - destruct (IH (n_max a z)) as (H1 & H2 & H3). cbv zeta in *.
    assert (Hm : val a <= val (n_max a z) /\ val z <= val (n_max a z) /\ (n_max a z = a \/ n_max a z = z)).
    { destruct (n_max_cases E a z) as [[-> Hle]|[-> Hle]]; repeat split; try lra; auto. }
    destruct Hm as (M1 & M2 & M3). split; [lra|]. split.
    + intros x [<-|Hx]; [lra|apply H2, Hx].
    + destruct H3 as [H3|H3]; [|now right; right]. rewrite H3. destruct M3 as [M3|M3]; rewrite M3; auto.
      right. now left.
Qed.

Lemma in_somes : forall zs (z : num A), In z (somes zs) <-> In (Some z) zs.
Proof.
  induction zs as [|[x|] zs IH]; intros z; cbn; [tauto| |].
  - rewrite IH. split; intros [H|H]; auto; left; congruence.
  - rewrite IH. split; [auto|intros [H|H]; [discriminate H|exact H]].
Qed.

Lemma load_z_bounds : forall home data (g : gcode A), load_gen false home data = Ok g ->
  val (g_zmin g) <= 0 <= val (g_zmax g) /\
  (forall z, In (Some z) (g_zs g) -> val (g_zmin g) <= val z <= val (g_zmax g)) /\
  (val (g_zmax g) = 0 \/ In (Some (g_zmax g)) (g_zs g)) /\
  (val (g_zmin g) = 0 \/ In (Some (g_zmin g)) (g_zs g)) /\
  (forall z, In z (g_zs g) -> exists i, z = z_after (firstn i (g_lines g))).
Proof.
  intros home data g H. destruct (load_zs _ _ _ H) as (H1 & H2 & H3).
  destruct (fold_min_spec (somes (g_zs g)) n0) as (A1 & A2 & A3).
  destruct (fold_max_spec (somes (g_zs g)) n0) as (B1 & B2 & B3). cbv zeta in *.
  rewrite <- H2 in A1, A2, A3. rewrite <- H3 in B1, B2, B3. rewrite val_n0 in A1, B1.
  split; [lra|]. split; [|split; [|split; [|exact H1]]].
  - intros z Hz. apply in_somes in Hz. split; [apply A2|apply B2]; exact Hz.
  - destruct B3 as [-> |B3]; [left; apply val_n0|right; apply in_somes, B3].
  - destruct A3 as [-> |A3]; [left; apply val_n0|right; apply in_somes, A3].
Qed.

(** *** Durations *)

Lemma move_duration_mono : forall (l : line) d d', feed_nonneg E (l_f l) -> 0 <= val (d_f d) ->
  move_duration l d = Ok d' -> val (d_total d) <= val (d_total d').
Proof.
  intros l d d' Hl Hd. unfold move_duration.
  set (f := match l_f l with Some f => n_div f (lit 60 0) | None => d_f d end).
  set (dx := n_sub _ (d_x d)). set (dy := n_sub _ (d_y d)).
  set (lastf := if n_leb _ n0 then n0 else d_f d).
  assert (Hf : 0 <= val f).
  { unfold f. destruct (l_f l) as [g|]; [|exact Hd].
    assert (H60 : val (lit 60 0) = 60) by (rewrite val_lit; cbn; lra).
    rewrite (val_div A E) by lra. rewrite H60. cbn in Hl. lra. }
  assert (Hlf : 0 <= val lastf).
  { unfold lastf. destruct (n_leb _ n0); [rewrite val_n0; lra|exact Hd]. }
  set (travel := if n_eqb (n_hypot dx dy) n0 then _ else _).
  assert (Htr : 0 <= val travel).
  { unfold travel. destruct (n_eqb (n_hypot dx dy) n0); [|apply (val_hypot_nonneg A E)].
    destruct (l_z l).
    - destruct (t_relative (lnotes l)) as [[|]|]; rewrite (val_abs A E); apply Rabs_pos.
    - destruct (l_e l); [|apply (val_hypot_nonneg A E)].
      destruct (t_relative_e (lnotes l)) as [[|]|]; rewrite (val_abs A E); apply Rabs_pos. }
  clearbody travel lastf f dx dy.
  assert (Hq : forall a b, 0 <= val a -> 0 < val b -> 0 <= val (n_div a b)).
  { intros a b Ha Hb. rewrite (val_div A E) by lra. unfold Rdiv. apply Rmult_le_pos; [exact Ha|].
    apply Rlt_le, Rinv_0_lt_compat, Hb. }
  intros H.
  match type of H with bind ?r _ = _ => assert (Ht : forall t, r = Ok t -> 0 <= val t) end.
  { destruct (n_eqb f lastf) eqn:E1.
    - destruct (n_eqb f n0) eqn:E2; intros t Ht; injection Ht as <-; [rewrite val_n0; lra|].
      apply (eqb_false E) in E2. rewrite val_n0 in E2. apply Hq; lra.
    - apply (eqb_false E) in E1.
      match goal with |- context [if ?b then _ else _] => destruct b eqn:Eb end.
      + apply andb_prop in Eb as [Eb E3]. apply andb_prop in Eb as [Eb1 Eb2].
        apply (val_leb A E) in Eb1. apply negb_true_iff in Eb2, E3.
        apply (eqb_false E) in Eb2, E3. rewrite val_n0 in Eb2, E3. rewrite (val_add A E) in Eb2.
        intros t Ht. injection Ht as <-. rewrite (val_add A E).
        apply Rplus_le_le_0_compat; apply Hq.
        * rewrite !(val_mul A E), (val_abs A E), val_n2.
          apply Rmult_le_pos; [lra|]. apply Rmult_le_pos; [lra|apply Rabs_pos].
        * rewrite (val_add A E). lra.
        * rewrite (val_sub A E). lra.
        * lra.
      + unfold py_div. destruct (n_eqb (n_add lastf f) n0) eqn:E2; [discriminate|].
        intros t Ht. injection Ht as <-. apply (eqb_false E) in E2. rewrite (val_add A E), val_n0 in E2.
        apply Hq; [rewrite (val_mul A E), val_n2; lra|rewrite (val_add A E); lra]. }
  match type of H with bind ?r _ = _ => destruct r as [t|e] end; cbn [bind] in H; [|discriminate H].
  injection H as <-. cbn. rewrite (val_add A E). specialize (Ht t eq_refl). lra.
Qed.

Lemma update_duration_mono : forall (m m' : mstate A) s l d d', feed_ok s = true -> dwell_nonneg s ->
  motion_step m (new_line s) = Ok (m', l) -> 0 <= val (d_f d) ->
  update_duration l d = Ok d' -> 0 <= val (d_f d') /\ val (d_total d) <= val (d_total d').
Proof.
  intros m m' s l d d' Hf Hw Hs Hd H. pose proof (motion_feed E _ _ _ _ Hf Hs) as Hl.
  unfold update_duration in H. destruct (cmd_in (command l) linear_move_gcodes).
  { split; [|eapply move_duration_mono; eassumption].
    destruct (move_duration_ok E l d Hl Hd) as (d2 & H2 & H3). rewrite H2 in H. injection H as <-. exact H3. }
  destruct (cmd_is (command l) "G4"); [|injection H as <-; split; [exact Hd|lra]].
  assert (Hr : raw l = s) by (apply (motion_step_raw _ _ _ _ Hs)).
  unfold find_specific_code in H. rewrite Hr in H. unfold dwell_nonneg in Hw.
  destruct (find_code "P" s) as [p|] eqn:Ep; cbn [bind] in H.
  2:{ injection H as <-. split; [exact Hd|lra]. }
  destruct (py_float p) as [x|] eqn:Ex; cbn [bind] in H; [|discriminate H].
  destruct (truthy x); [|injection H as <-; split; [exact Hd|lra]].
  injection H as <-. cbn. split; [exact Hd|].
  assert (Hx : 0 <= val x).
  { destruct (find_code_shape _ _ _ Ep) as (r & ->). eapply (py_float_nonneg E); eassumption. }
  assert (H1000 : val (lit 1000 0) = 1000) by (rewrite val_lit; cbn; lra).
  rewrite (val_add A E), (val_div A E), H1000 by lra. lra.
Qed.

Record timed (ls : lstate A) : Prop := Timed {
  tm_f : 0 <= val (d_f (ls_d ls));
  tm_begin : val (ls_begin ls) <= val (d_total (ls_d ls));
  tm_pos : Forall (fun y => 0 <= val (ly_dur y)) (ls_layers ls);
  tm_sum : sum_durations E (ls_layers ls) = val (ls_begin ls) }.

Lemma sum_durations_app : forall a b, sum_durations E (a ++ b) = sum_durations E a + sum_durations E b.
Proof.
  induction a as [|y a IH]; intros b; [unfold sum_durations at 2; cbn [app fold_right]; lra|].
  unfold sum_durations in *. cbn [app fold_right]. rewrite IH. lra.
Qed.

Lemma timed_init : timed init_lstate.
Proof. constructor; cbn; rewrite ?val_n0; try lra. constructor. Qed.

Lemma timed_step : forall (m m' : mstate A) s l (ls ls1 : lstate A), feed_ok s = true -> dwell_nonneg s ->
  motion_step m (new_line s) = Ok (m', l) -> layer_step l (m_max m') ls = Ok ls1 ->
  timed ls -> forall l', timed (push_line l' ls1).
Proof.
  intros m m' s l ls ls1 Hf Hw Hs Hb [T1 T2 T3 T4] l'. unfold layer_step in Hb.
  assert (Hmain : timed ls1).
  { destruct (command l) as [c|]; [|apply ok_inj in Hb; subst ls1; constructor; assumption].
    unfold layer_body in Hb. destruct (update_bbox l (m_max m') ls) as [bb bbe].
    destruct (update_duration l (ls_d ls)) as [d|e] eqn:Ed; cbn [bind] in Hb; [|discriminate Hb].
    destruct (update_duration_mono _ _ _ _ _ _ Hf Hw Hs T1 Ed) as [D1 D2].
    apply ok_inj in Hb. subst ls1. unfold update_layers. cbn [ls_cur_z ls_prev_z].
    destruct (opt_eqb _ _); [constructor; cbn; try assumption; lra|].
    destruct (compute_base_z _) as [base est].
    destruct (match _ with Some b => opt_eqb base b | None => false end).
    { constructor; cbn; try assumption; lra. }
    constructor; cbn [ls_d ls_begin ls_layers]; try assumption; try lra.
    - apply Forall_app. split; [exact T3|]. constructor; [|constructor]. cbn. rewrite (val_sub A E). lra.
    - rewrite sum_durations_app, T4. cbn. rewrite (val_sub A E). lra. }
  destruct Hmain as [M1 M2 M3 M4]. constructor; assumption.
Qed.

Lemma btrace_timed : forall light ts pl m m' ls ls', btrace light m ls ts pl m' ls' ->
  Forall (fun s => feed_ok s = true /\ dwell_nonneg s) ts -> timed ls -> timed ls'.
Proof.
  intros light ts pl m m' ls ls' H.
  induction H as [m ls|m ls s l m1 ls1 ts pl m' ls' Hs Hb Ht IH]; intros Hok T; [exact T|].
  inversion Hok as [|? ? [H1 H2] H3]; subst. apply IH; [exact H3|]. eapply timed_step; eassumption.
Qed.

Lemma load_durations : forall light home data (g : gcode A),
  Forall (fun s => feed_ok s = true /\ dwell_nonneg s) (program_text data) ->
  load_gen light home data = Ok g ->
  Forall (fun y => 0 <= val (ly_dur y)) (g_layers g) /\ 0 <= val (g_total g) /\
  val (g_total g) = sum_durations E (g_layers g).
Proof.
  intros light home data g Hok H. destruct (load_btrace _ _ _ _ H) as (pl & ls & Hb & Hg).
  destruct (btrace_timed _ _ _ _ _ _ _ Hb Hok timed_init) as [T1 T2 T3 T4].
  assert (Hpos : 0 <= val (ls_begin ls)).
  { rewrite <- T4. clear - T3. induction T3 as [|y ys Hy H IH]; cbn; [lra|]. unfold sum_durations in IH. lra. }
  assert (Hcur : ls_cur ls = [] -> val (ls_begin ls) = val (d_total (ls_d ls)) ).
  { intros Hc. destruct (btrace_light light false _ _ _ _ _ _ Hb init_lstate eq_refl) as (ls2 & Hb2 & He).
    pose proof (btrace_cut _ _ _ _ _ _ Hb2 [] cut_init) as C. cbn [app] in C.
    assert (Hc2 : ls_cur ls2 = []).
    { apply (f_equal ls_cur) in He. cbn in He. rewrite Hc in He. destruct (ls_cur ls2); [reflexivity|discriminate He]. }
    assert (Hl2 : ls_layers ls2 = []).
    { destruct (ls_layers ls2) as [|y Y] eqn:EY; [reflexivity|].
      exfalso. apply (cut_cur _ _ C); [rewrite EY; discriminate|exact Hc2]. }
    assert (Hpl : pl = []).
    { rewrite <- (cut_concat _ _ C). unfold blocks_of. rewrite Hl2, Hc2. reflexivity. }
    subst pl. inversion Hb; subst. cbn. reflexivity. }
  rewrite Hg. unfold finalize. destruct (ls_cur ls) as [|a c].
  - cbn [g_layers g_total]. specialize (Hcur eq_refl). split; [|split].
    + apply Forall_app. split; [exact T3|]. constructor; [cbn; rewrite val_n0; lra|constructor].
    + lra.
    + rewrite sum_durations_app, T4. cbn. rewrite val_n0. lra.
  - cbn [g_layers g_total]. split; [|split].
    + apply Forall_app. split; [|constructor; [cbn; rewrite val_n0; lra|constructor]].
      apply Forall_app. split; [exact T3|]. constructor; [|constructor]. cbn. rewrite (val_sub A E). lra.
    + lra.
    + rewrite !sum_durations_app, T4. cbn. rewrite (val_sub A E), val_n0. lra.
Qed.

End ExactLayers.
End Layers.

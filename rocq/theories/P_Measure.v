(** * P_Measure: bounding box, Z bounds, layers, durations *)
From Coq Require Import List Ascii String ZArith NArith Bool Lia Reals Lra.
From Verif Require Import PyBase Arith ArithR Gcoder SpecText SpecLoad SpecMachine SpecMeasure.
From Verif Require Import P_Load P_Append P_Text P_Report P_Wf P_Machine.
Import ListNotations.
Local Open Scope list_scope.

Lemma ok_inj : forall T (a b : T), Ok a = Ok b -> a = b.
Proof. intros T a b H. injection H as H. exact H. Qed.

Section Generic.
Context {A : arith}.

Definition store (light : bool) (l : line A) : line A :=
  if light then new_line (raw l) else l.

Definition layer_step (l : line A) (mx : num A) (ls : lstate A) : res (lstate A) :=
  match command l with Some _ => layer_body l mx ls | None => Ok ls end.

Inductive btrace (light : bool) :
  mstate A -> lstate A -> list string -> list (line A) -> mstate A -> lstate A -> Prop :=
| bt_nil m ls : btrace light m ls [] [] m ls
| bt_cons m ls s l m1 ls1 ts pl m' ls' :
    motion_step m (new_line s) = Ok (m1, l) ->
    layer_step l (m_max m1) ls = Ok ls1 ->
    btrace light m1 (push_line (store light l) ls1) ts pl m' ls' ->
    btrace light m ls (s :: ts) (l :: pl) m' ls'.

Lemma build_btrace : forall light ts (m m' : mstate A) ls ls' out out',
  foldM (build_step light) (map new_line ts) (m, ls, out) = Ok (m', ls', out') ->
  exists pl, btrace light m ls ts pl m' ls' /\ out' = out ++ map (store light) pl.
Proof.
  intros light. induction ts as [|t ts IH]; intros m m' ls ls' out out' H; cbn [map foldM] in H.
  - injection H as <- <- <-. exists []. split; [constructor|now rewrite app_nil_r].
  - unfold build_step at 1 in H.
    destruct (motion_step m (new_line t)) as [[m1 l]|e] eqn:E; cbn [bind] in H; [|discriminate H].
    fold (layer_step l (m_max m1) ls) in H.
    destruct (layer_step l (m_max m1) ls) as [ls1|e] eqn:E2; cbn [bind] in H; [|discriminate H].
    assert (Hst : (if light then new_line (raw (new_line (A:=A) t)) else l) = store light l).
    { unfold store. rewrite (motion_step_raw _ _ _ _ E). reflexivity. }
    rewrite Hst in H. apply IH in H as (pl & H1 & H2). exists (l :: pl). split.
    + econstructor; eassumption.
    + rewrite H2, <- app_assoc. reflexivity.
Qed.

Lemma load_btrace : forall light home data (g : gcode A), load_gen light home data = Ok g ->
  exists pl ls, btrace light (init_mstate home) init_lstate (program_text data) pl (g_m g) ls /\
    g = finalize light (g_m g) ls (map (store light) pl).
Proof.
  intros light home data g H. unfold load_gen in H. destruct data as [|s data].
  - injection H as <-. exists [], init_lstate. cbn [g_m]. split; [constructor|].
    destruct home as [[hx hy] hz]. unfold finalize. cbn.
    destruct (n_ltb n0 n0); reflexivity.
  - rewrite clean_lines_text in H.
    destruct (foldM _ _ _) as [[[m ls] out]|e] eqn:Ef; cbn [bind] in H; [|discriminate H].
    apply build_btrace in Ef as (pl & H1 & H2). cbn [app] in H2. subst out.
    injection H as <-. exists pl, ls. split.
    + unfold finalize. destruct (ls_cur ls); exact H1.
    + unfold finalize. destruct (ls_cur ls); reflexivity.
Qed.

Lemma btrace_nil_inv : forall light pl m m' ls ls', btrace light m ls [] pl m' ls' ->
  pl = [] /\ m' = m /\ ls' = ls.
Proof. intros light pl m m' ls ls' H. inversion H; subst. auto. Qed.

Lemma btrace_trace : forall light ts pl m m' ls ls', btrace light m ls ts pl m' ls' -> trace m ts pl m'.
Proof. intros light ts pl m m' ls ls' H. induction H; econstructor; eassumption. Qed.

Lemma finalize_lines : forall light m (ls : lstate A) out, g_lines (finalize light m ls out) = out.
Proof. intros. unfold finalize. destruct (ls_cur ls); reflexivity. Qed.

Lemma map_store_false : forall pl, map (store false) pl = pl.
Proof. intros pl. unfold store. apply map_id. Qed.

(** *** Light programs measure the same *)

Definition elayer (y : layer A) := Layer (map (fun l => new_line (A:=A) (raw l)) (ly_lines y)) (ly_z y) (ly_dur y).
Definition els (s : lstate A) : lstate A :=
  LState (ls_bb s) (ls_bbe s) (ls_d s) (ls_begin s) (map elayer (ls_layers s)) (ls_zs s)
    (ls_lidx s) (ls_kidx s) (ls_layer_id s) (ls_layer_line s) (ls_last_z s) (ls_prev_z s)
    (ls_prev_base s) (ls_cur_z s) (map (fun l => new_line (raw l)) (ls_cur s)) (ls_has_ext s) (ls_est s).

Lemma els_update_layers : forall s, update_layers (els s) = els (update_layers s).
Proof.
  intros s. unfold update_layers.
  assert (Hb : compute_base_z (els s) = compute_base_z s).
  { unfold compute_base_z, estimate_layer_height. cbn [els ls_prev_z ls_last_z ls_est ls_layers].
    assert (Hz : map ly_z (map elayer (ls_layers s)) = map ly_z (ls_layers s)).
    { rewrite map_map. apply map_ext. reflexivity. }
    rewrite Hz. reflexivity. }
  rewrite Hb. change (ls_cur_z (els s)) with (ls_cur_z s).
  change (ls_prev_z (els s)) with (ls_prev_z s). change (ls_prev_base (els s)) with (ls_prev_base s).
  destruct (opt_eqb (ls_cur_z s) (ls_prev_z s)); [reflexivity|].
  destruct (compute_base_z s) as [base est].
  destruct (match ls_prev_base s with Some b => opt_eqb base b | None => false end); [reflexivity|].
  unfold els. cbn. rewrite map_app. reflexivity.
Qed.

Lemma els_step : forall l mx s, layer_step l mx (els s) =
  match layer_step l mx s with Ok s' => Ok (els s') | Err e => Err e end.
Proof.
  intros l mx s. unfold layer_step. destruct (command l); [|reflexivity]. unfold layer_body.
  change (update_bbox l mx (els s)) with (update_bbox l mx s).
  destruct (update_bbox l mx s) as [bb bbe]. change (ls_d (els s)) with (ls_d s).
  destruct (update_duration l (ls_d s)) as [d|e]; cbn [bind]; [|reflexivity].
  rewrite <- els_update_layers. reflexivity.
Qed.

Lemma els_push : forall l l' s, raw l = raw l' ->
  els (push_line l s) = els (push_line l' (els s)).
Proof.
  intros l l' s H. unfold els, push_line. cbn. rewrite !map_app. cbn. rewrite H, !map_map.
  f_equal. apply map_ext. intros y. unfold elayer. cbn. rewrite map_map. reflexivity.
Qed.

Lemma els_idem : forall s, els (els s) = els s.
Proof.
  intros s. unfold els. cbn. rewrite !map_map. f_equal.
  apply map_ext. intros y. unfold elayer. cbn. rewrite map_map. reflexivity.
Qed.

Lemma btrace_light : forall l1 l2 ts pl m m' ls ls', btrace l1 m ls ts pl m' ls' ->
  forall ls2, els ls2 = els ls -> exists ls2', btrace l2 m ls2 ts pl m' ls2' /\ els ls2' = els ls'.
Proof.
  intros l1 l2 ts pl m m' ls ls' H.
  induction H as [m ls|m ls s l m1 ls1 ts pl m' ls' Hs Hb Ht IH]; intros ls2 He.
  - exists ls2. split; [constructor|exact He].
  - pose proof (els_step l (m_max m1) ls) as E1. pose proof (els_step l (m_max m1) ls2) as E2.
    rewrite He in E2. rewrite E1, Hb in E2.
    destruct (layer_step l (m_max m1) ls2) as [ls3|e] eqn:E3; [|discriminate E2].
    apply ok_inj in E2.
    destruct (IH (push_line (store l2 l) ls3)) as (ls2' & Hb' & He').
    { rewrite (els_push (store l2 l) (new_line (raw l)) ls3) by (destruct l2; reflexivity).
      rewrite (els_push (store l1 l) (new_line (raw l)) ls1) by (destruct l1; reflexivity).
      rewrite E2. reflexivity. }
    exists ls2'. split; [econstructor; eassumption|exact He'].
Qed.

Lemma els_finalize : forall l1 l2 m s s' pl, els s = els s' ->
  same_measures (finalize l1 m s (map (store l1) pl)) (finalize l2 m s' (map (store l2) pl)).
Proof.
  intros l1 l2 m s s' pl He.
  assert (Hraw : forall b, map raw (map (store b) pl) = map raw pl).
  { intros b. rewrite map_map. apply map_ext. intros l. destruct b; reflexivity. }
  pose proof (f_equal ls_layers He) as F1. pose proof (f_equal ls_cur He) as F2.
  cbn in F1, F2.
  pose proof (f_equal ls_bb He) as F3. pose proof (f_equal ls_bbe He) as F4.
  pose proof (f_equal ls_d He) as F5. pose proof (f_equal ls_begin He) as F6.
  pose proof (f_equal ls_zs He) as F7. pose proof (f_equal ls_lidx He) as F8.
  pose proof (f_equal ls_kidx He) as F9. pose proof (f_equal ls_prev_z He) as F10.
  pose proof (f_equal ls_has_ext He) as F11. pose proof (f_equal ls_est He) as F12.
  cbn in F3, F4, F5, F6, F7, F8, F9, F10, F11, F12.
  assert (G1 : map (fun y => map raw (ly_lines y)) (ls_layers s) = map (fun y => map raw (ly_lines y)) (ls_layers s')).
  { apply (f_equal (map (fun y => map raw (ly_lines y)))) in F1. rewrite !map_map in F1. cbn in F1.
    assert (K : forall y : layer A, map raw (map (fun l => new_line (A:=A) (raw l)) (ly_lines y)) = map raw (ly_lines y))
      by (intros y; rewrite map_map; reflexivity).
    rewrite (map_ext _ _ K) in F1. rewrite (map_ext _ _ K) in F1. exact F1. }
  assert (G2 : map ly_z (ls_layers s) = map ly_z (ls_layers s')).
  { apply (f_equal (map ly_z)) in F1. rewrite !map_map in F1. exact F1. }
  assert (G3 : map ly_dur (ls_layers s) = map ly_dur (ls_layers s')).
  { apply (f_equal (map ly_dur)) in F1. rewrite !map_map in F1. exact F1. }
  assert (G4 : map raw (ls_cur s) = map raw (ls_cur s')).
  { apply (f_equal (map raw)) in F2. rewrite !map_map in F2. exact F2. }
  assert (G5 : List.length (ls_layers s) = List.length (ls_layers s')).
  { rewrite <- (map_length ly_z), G2, map_length. reflexivity. }
  unfold same_measures, finalize. rewrite F3, F4, F5, F6, F7, F8, F9, F10, F11, F12.
  destruct (ls_cur s) as [|a c], (ls_cur s') as [|a' c']; try discriminate G4.
  - cbn [g_lines g_layers g_zs g_lidx g_kidx g_append_id g_m g_xmin g_xmax g_ymin g_ymax g_zmin g_zmax g_filament g_total].
    rewrite !Hraw, !map_app, G1, G2, G3, G5. repeat split.
  - cbn [g_lines g_layers g_zs g_lidx g_kidx g_append_id g_m g_xmin g_xmax g_ymin g_ymax g_zmin g_zmax g_filament g_total].
    rewrite !Hraw, !map_app, G1, G2, G3. cbn [map ly_lines ly_z ly_dur] in *. rewrite G4.
    rewrite !app_length, G5. repeat split.
Qed.

Lemma btrace_build : forall light ts pl m m' ls ls', btrace light m ls ts pl m' ls' ->
  forall out, foldM (build_step light) (map new_line ts) (m, ls, out) = Ok (m', ls', out ++ map (store light) pl).
Proof.
  intros light ts pl m m' ls ls' H.
  induction H as [m ls|m ls s l m1 ls1 ts pl m' ls' Hs Hb Ht IH]; intros out.
  - cbn. now rewrite app_nil_r.
  - cbn [map foldM]. unfold build_step at 1. rewrite Hs. cbn [bind].
    fold (layer_step l (m_max m1) ls). rewrite Hb. cbn [bind].
    assert (Hst : (if light then new_line (raw (new_line (A:=A) s)) else l) = store light l).
    { unfold store. rewrite (motion_step_raw _ _ _ _ Hs). reflexivity. }
    rewrite Hst, IH, <- app_assoc. reflexivity.
Qed.

Lemma load_light_same : forall home data,
  match load_gen (A:=A) false home data, load_gen true home data with
  | Ok g, Ok h => same_measures g h
  | Err e, Err e' => e = e'
  | _, _ => False
  end.
Proof.
  intros home data.
  assert (Hdir : forall l1 l2 g, load_gen (A:=A) l1 home data = Ok g ->
    exists h, load_gen l2 home data = Ok h /\ same_measures g h).
  { intros l1 l2 g H. destruct (load_btrace _ _ _ _ H) as (pl & ls & Hb & Hg).
    destruct (btrace_light l1 l2 _ _ _ _ _ _ Hb init_lstate eq_refl) as (ls2 & Hb2 & He).
    exists (finalize l2 (g_m g) ls2 (map (store l2) pl)). split.
    - destruct data as [|s data].
      + apply btrace_nil_inv in Hb2 as (-> & -> & ->). unfold load_gen. destruct home as [[hx hy] hz].
        unfold finalize. cbn. destruct (n_ltb n0 n0); reflexivity.
      + unfold load_gen. rewrite clean_lines_text, (btrace_build _ _ _ _ _ _ _ Hb2 []). reflexivity.
    - rewrite Hg at 1. apply els_finalize. symmetry. exact He. }
  destruct (load_gen false home data) as [g|e] eqn:E1.
  - destruct (Hdir false true g E1) as (h & -> & Hs). exact Hs.
  - destruct (load_gen true home data) as [h|e'] eqn:E2.
    + destruct (Hdir true false h E2) as (g & Hg & _). congruence.
    + destruct data as [|s data]; [discriminate E1|]. unfold load_gen in E1, E2.
      rewrite clean_lines_text in E1, E2.
      destruct (foldM (build_step false) _ _) as [[[m ls] out]|e1] eqn:F1; cbn [bind] in E1; [discriminate E1|].
      destruct (foldM (build_step true) _ _) as [[[m2 ls2] out2]|e2] eqn:F2; cbn [bind] in E2; [discriminate E2|].
      injection E1 as <-. injection E2 as <-. clear Hdir.
      assert (Hgen : forall ts (m : mstate A) s1 s2 o1 o2, els s1 = els s2 ->
        foldM (build_step false) (map new_line ts) (m, s1, o1) = Err e1 ->
        foldM (build_step true) (map new_line ts) (m, s2, o2) = Err e2 -> e1 = e2).
      { induction ts as [|t ts IH]; intros m s1 s2 o1 o2 He H1 H2; cbn [map foldM] in H1, H2; [discriminate H1|].
        unfold build_step at 1 in H1. unfold build_step at 1 in H2.
        destruct (motion_step m (new_line t)) as [[m1 l]|e] eqn:E; cbn [bind] in H1, H2; [|congruence].
        fold (layer_step l (m_max m1) s1) in H1. fold (layer_step l (m_max m1) s2) in H2.
        pose proof (els_step l (m_max m1) s1) as G1. pose proof (els_step l (m_max m1) s2) as G2.
        rewrite He in G1. rewrite G1 in G2.
        destruct (layer_step l (m_max m1) s1) as [s1'|e]; destruct (layer_step l (m_max m1) s2) as [s2'|e'];
          cbn [bind] in H1, H2; try discriminate G2; [|congruence].
        apply ok_inj in G2. eapply IH; [|exact H1|exact H2].
        rewrite (els_push l (new_line t) s1') by (apply (motion_step_raw _ _ _ _ E)).
        rewrite (els_push (new_line (raw (new_line t))) (new_line t) s2') by reflexivity.
        rewrite G2. reflexivity. }
      eapply (Hgen _ _ _ _ _ _ eq_refl F1 F2).
Qed.

(** *** Bounding box *)

Definition extrudes_b (l : line A) : bool :=
  is_move l && match t_extruding (lnotes l) with Some b => b | None => false end.

Lemma extrudes_iff : forall l, extrudes_b l = true <-> extrudes l.
Proof.
  intros l. unfold extrudes_b, extrudes. split.
  - intros H. apply andb_prop in H as [H1 H2]. split; [exact H1|].
    destruct (t_extruding (lnotes l)) as [b|]; [congruence|discriminate H2].
  - intros [-> ->]. reflexivity.
Qed.

Definition box_add (b : bbox A) (l : line A) : bbox A :=
  if extrudes_b l then
    match t_x (lnotes l), t_y (lnotes l) with Some x, Some y => bbox_add x y b | _, _ => b end
  else b.

Lemma update_layers_keeps : forall s : lstate A,
  ls_bb (update_layers s) = ls_bb s /\ ls_bbe (update_layers s) = ls_bbe s /\
  ls_d (update_layers s) = ls_d s /\ ls_cur_z (update_layers s) = ls_cur_z s /\
  ls_prev_z (update_layers s) = ls_prev_z s.
Proof.
  intros s. unfold update_layers. destruct (opt_eqb _ _); [repeat split|].
  destruct (compute_base_z s). destruct (match ls_prev_base s with Some _ => _ | None => _ end); repeat split.
Qed.

Lemma move_has_command : forall (m m' : mstate A) s l, motion_step m (new_line s) = Ok (m', l) ->
  is_move l = true -> command l <> None.
Proof.
  intros m m' s l H Hm Hc. destruct (command_name s) as [c|] eqn:Hn.
  - destruct (motion_some _ _ _ _ _ Hn H) as (s1 & l1 & ext & _ & (_ & Hcmd & _) & _ & ->).
    cbn in Hc. congruence.
  - destruct (motion_none _ _ _ _ Hn H) as (_ & _ & Hmv & _). congruence.
Qed.

Lemma layer_step_bbe : forall (m m' : mstate A) s l ls ls1, motion_step m (new_line s) = Ok (m', l) ->
  layer_step l (m_max m') ls = Ok ls1 -> ls_bbe ls1 = box_add (ls_bbe ls) l.
Proof.
  intros m m' s l ls ls1 Hs H. unfold layer_step in H. unfold box_add, extrudes_b.
  pose proof (move_has_command _ _ _ _ Hs) as Hmc.
  destruct (command l) as [c|] eqn:Ec.
  - unfold layer_body in H. unfold update_bbox in H.
    assert (Hcn : command l <> None) by congruence.
    destruct (motion_notes _ _ _ _ Hs Hcn) as (N1 & N2 & _). rewrite N1, N2 in *.
    destruct (is_move l).
    + destruct (update_duration l (ls_d ls)) as [d|e]; cbn [bind] in H; [|discriminate H].
      injection H as <-. destruct (update_layers_keeps (LState
        (if n_leb (m_max m') n0 then bbox_add (m_x m') (m_y m') (ls_bb ls) else ls_bb ls)
        (match t_extruding (lnotes l) with Some true => bbox_add (m_x m') (m_y m') (ls_bbe ls) | _ => ls_bbe ls end)
        d (ls_begin ls) (ls_layers ls) (ls_zs ls) (ls_lidx ls) (ls_kidx ls) (ls_layer_id ls) (ls_layer_line ls)
        (ls_last_z ls) (ls_prev_z ls) (ls_prev_base ls) (update_cur_z l (ls_cur_z ls)) (ls_cur ls)
        (ls_has_ext ls || match t_extruding (lnotes l) with Some b => b | None => false end) (ls_est ls)))
        as (_ & -> & _). cbn [ls_bbe andb]. destruct (t_extruding (lnotes l)) as [[|]|]; reflexivity.
    + destruct (update_duration l (ls_d ls)) as [d|e]; cbn [bind] in H; [|discriminate H].
      injection H as <-. rewrite (proj1 (proj2 (update_layers_keeps _))). reflexivity.
  - injection H as <-. destruct (is_move l); [exfalso; apply Hmc; reflexivity|reflexivity].
Qed.

Lemma btrace_bbe : forall light ts pl m m' ls ls', btrace light m ls ts pl m' ls' ->
  ls_bbe ls' = fold_left box_add pl (ls_bbe ls).
Proof.
  intros light ts pl m m' ls ls' H.
  induction H as [m ls|m ls s l m1 ls1 ts pl m' ls' Hs Hb Ht IH]; [reflexivity|].
  rewrite IH. cbn [fold_left]. f_equal. change (ls_bbe (push_line (store light l) ls1)) with (ls_bbe ls1).
  eapply layer_step_bbe; eassumption.
Qed.

Lemma trace_coords : forall ts pl m m', trace m ts pl m' ->
  Forall (fun l : line A => extrudes l -> exists x y, t_x (lnotes l) = Some x /\ t_y (lnotes l) = Some y) pl.
Proof.
  intros ts pl m m' H. induction H as [m|m s l m1 ts pl m' Hs Ht IH]; constructor; [|exact IH].
  intros [Hm _]. destruct (motion_notes _ _ _ _ Hs (move_has_command _ _ _ _ Hs Hm)) as (N1 & N2 & _).
  eauto.
Qed.

(** *** Z *)

Definition z_step (z : option (num A)) (l : line A) : option (num A) := update_cur_z l z.

Lemma z_after_snoc : forall pl (l : line A), z_after (pl ++ [l]) = update_cur_z l (z_after pl).
Proof. intros pl l. unfold z_after. rewrite fold_left_app. reflexivity. Qed.

End Generic.

Section Exact.
Context {A : arith}.
Variable E : exact A.
Notation val := (val E).
Local Open Scope R_scope.

Lemma n_min_cases : forall a b : num A, (n_min a b = a /\ val a <= val b) \/ (n_min a b = b /\ val b <= val a).
Proof.
  intros a b. unfold n_min. destruct (n_ltb b a) eqn:El.
  - right. apply (val_ltb A E) in El. split; [reflexivity|lra].
  - left. split; [reflexivity|].
    assert (Hn : ~ val b < val a) by (intros Hlt; apply (val_ltb A E) in Hlt; congruence). lra.
Qed.

Lemma n_max_cases : forall a b : num A, (n_max a b = a /\ val b <= val a) \/ (n_max a b = b /\ val a <= val b).
Proof.
  intros a b. unfold n_max. destruct (n_ltb a b) eqn:El.
  - right. apply (val_ltb A E) in El. split; [reflexivity|lra].
  - left. split; [reflexivity|].
    assert (Hn : ~ val a < val b) by (intros Hlt; apply (val_ltb A E) in Hlt; congruence). lra.
Qed.

(** a box covers some lines and is attained by them *)
Definition lower_ok (f : notes A -> option (num A)) (pl : list (line A)) (b : option (num A)) : Prop :=
  match b with
  | None => forall l, In l pl -> ~ extrudes l
  | Some w =>
      (forall l x, In l pl -> extrudes l -> f (lnotes l) = Some x -> val w <= val x) /\
      (exists l, In l pl /\ extrudes l /\ f (lnotes l) = Some w)
  end.
Definition upper_ok (f : notes A -> option (num A)) (pl : list (line A)) (b : option (num A)) : Prop :=
  match b with
  | None => forall l, In l pl -> ~ extrudes l
  | Some w =>
      (forall l x, In l pl -> extrudes l -> f (lnotes l) = Some x -> val x <= val w) /\
      (exists l, In l pl /\ extrudes l /\ f (lnotes l) = Some w)
  end.

Lemma lower_add : forall f pl b l x, lower_ok f pl b -> extrudes l -> f (lnotes l) = Some x ->
  lower_ok f (pl ++ [l]) (min_inf b x).
Proof.
  intros f pl b l x Hb Hl Hf. destruct b as [w|]; cbn in *.
  - destruct Hb as [H1 (l0 & H2 & H3 & H4)]. destruct (n_min_cases w x) as [[-> Hle]|[-> Hle]].
    + split.
      * intros l1 x1 Hin He Hx. apply in_app_or in Hin as [Hin|[<-|[]]]; [eapply H1; eassumption|].
        rewrite Hf in Hx. injection Hx as <-. exact Hle.
      * exists l0. split; [apply in_or_app; now left|auto].
    + split.
      * intros l1 x1 Hin He Hx. apply in_app_or in Hin as [Hin|[<-|[]]].
        -- specialize (H1 _ _ Hin He Hx). lra.
        -- rewrite Hf in Hx. injection Hx as <-. lra.
      * exists l. split; [apply in_or_app; right; now left|auto].
  - split.
    + intros l1 x1 Hin He Hx. apply in_app_or in Hin as [Hin|[<-|[]]]; [exfalso; eapply Hb; eassumption|].
      rewrite Hf in Hx. injection Hx as <-. lra.
    + exists l. split; [apply in_or_app; right; now left|auto].
Qed.

Lemma upper_add : forall f pl b l x, upper_ok f pl b -> extrudes l -> f (lnotes l) = Some x ->
  upper_ok f (pl ++ [l]) (max_inf b x).
Proof.
  intros f pl b l x Hb Hl Hf. destruct b as [w|]; cbn in *.
  - destruct Hb as [H1 (l0 & H2 & H3 & H4)]. destruct (n_max_cases w x) as [[-> Hle]|[-> Hle]].
    + split.
      * intros l1 x1 Hin He Hx. apply in_app_or in Hin as [Hin|[<-|[]]]; [eapply H1; eassumption|].
        rewrite Hf in Hx. injection Hx as <-. exact Hle.
      * exists l0. split; [apply in_or_app; now left|auto].
    + split.
      * intros l1 x1 Hin He Hx. apply in_app_or in Hin as [Hin|[<-|[]]].
        -- specialize (H1 _ _ Hin He Hx). lra.
        -- rewrite Hf in Hx. injection Hx as <-. lra.
      * exists l. split; [apply in_or_app; right; now left|auto].
  - split.
    + intros l1 x1 Hin He Hx. apply in_app_or in Hin as [Hin|[<-|[]]]; [exfalso; eapply Hb; eassumption|].
      rewrite Hf in Hx. injection Hx as <-. lra.
    + exists l. split; [apply in_or_app; right; now left|auto].
Qed.

Lemma lower_skip : forall f pl b l, lower_ok f pl b -> ~ extrudes l -> lower_ok f (pl ++ [l]) b.
Proof.
  intros f pl b l Hb Hl. destruct b as [w|]; cbn in *.
  - destruct Hb as [H1 (l0 & H2 & H3 & H4)]. split.
    + intros l1 x1 Hin He Hx. apply in_app_or in Hin as [Hin|[<-|[]]]; [eapply H1; eassumption|contradiction].
    + exists l0. split; [apply in_or_app; now left|auto].
  - intros l1 Hin. apply in_app_or in Hin as [Hin|[<-|[]]]; [apply Hb, Hin|exact Hl].
Qed.
Lemma upper_skip : forall f pl b l, upper_ok f pl b -> ~ extrudes l -> upper_ok f (pl ++ [l]) b.
Proof.
  intros f pl b l Hb Hl. destruct b as [w|]; cbn in *.
  - destruct Hb as [H1 (l0 & H2 & H3 & H4)]. split.
    + intros l1 x1 Hin He Hx. apply in_app_or in Hin as [Hin|[<-|[]]]; [eapply H1; eassumption|contradiction].
    + exists l0. split; [apply in_or_app; now left|auto].
  - intros l1 Hin. apply in_app_or in Hin as [Hin|[<-|[]]]; [apply Hb, Hin|exact Hl].
Qed.

Definition box_ok (pl : list (line A)) (b : bbox A) : Prop :=
  lower_ok t_x pl (b_xmin b) /\ upper_ok t_x pl (b_xmax b) /\
  lower_ok t_y pl (b_ymin b) /\ upper_ok t_y pl (b_ymax b).

Lemma box_fold : forall pl pre b, box_ok pre b ->
  Forall (fun l : line A => extrudes l -> exists x y, t_x (lnotes l) = Some x /\ t_y (lnotes l) = Some y) pl ->
  box_ok (pre ++ pl) (fold_left box_add pl b).
Proof.
  induction pl as [|l pl IH]; intros pre b Hb Hc; cbn [fold_left]; [now rewrite app_nil_r|].
  inversion Hc as [|? ? Hc1 Hc2]; subst.
  replace (pre ++ l :: pl) with ((pre ++ [l]) ++ pl) by (rewrite <- app_assoc; reflexivity).
  apply IH; [|exact Hc2]. unfold box_add. destruct Hb as (B1 & B2 & B3 & B4).
  destruct (extrudes_b l) eqn:Ee.
  - apply extrudes_iff in Ee. destruct (Hc1 Ee) as (x & y & Hx & Hy). rewrite Hx, Hy.
    refine (conj _ (conj _ (conj _ _))); [apply lower_add|apply upper_add|apply lower_add|apply upper_add]; assumption.
  - assert (Hn : ~ extrudes l) by (intros Hx; apply extrudes_iff in Hx; congruence).
    refine (conj _ (conj _ (conj _ _))); [apply lower_skip|apply upper_skip|apply lower_skip|apply upper_skip]; assumption.
Qed.

(** filament needs an extruding move *)
Lemma step_not_extruding : forall (m m' : mstate A) s l, motion_step m (new_line s) = Ok (m', l) ->
  val (m_total m) <= 0 -> val (m_max m) <= 0 -> ~ extrudes l ->
  val (m_total m') <= 0 /\ val (m_max m') <= 0.
Proof.
  intros m m' s l H Ht Hm Hx. destruct (command_name s) as [c|] eqn:Hc.
  2:{ destruct (motion_none _ _ _ _ Hc H) as (-> & _). auto. }
  destruct (motion_some _ _ _ _ _ Hc H) as (s1 & l1 & ext & H1 & _ & H3 & ->).
  pose proof (update_modes_modes _ _ _ _ Hc H1) as
    (_ & _ & _ & _ & _ & _ & _ & _ & _ & _ & _ & _ & _ & M14 & M15 & M16 & M17).
  destruct (update_position_fixed l1 s1) as (_ & _ & _ & _ & Y5 & Y6 & Y7 & Y8 & _).
  unfold extrudes in Hx. cbn [is_move set_notes lnotes position_notes t_extruding] in Hx.
  unfold update_extrusion in H3. rewrite Y5, Y6, Y7, Y8, M14, M15, M16, M17 in H3.
  destruct (l_e l1) as [e|].
  2:{ injection H3 as _ <-. rewrite Y7, Y8, M16, M17. auto. }
  destruct (is_move l1).
  - destruct (m_relative_e (update_position l1 s1)); injection H3 as Hext <-; cbn [set_ext m_total m_max].
    + assert (He : ~ 0 < val e).
      { intros He. apply Hx. split; [reflexivity|]. rewrite <- Hext. f_equal. apply (val_ltb A E).
        rewrite val_n0. exact He. }
      rewrite (n_max_val E), (val_add A E). split; [lra|]. apply Rmax_lub; lra.
    + assert (He : ~ val (m_e m) < val e + val (m_oe m)).
      { intros He. apply Hx. split; [reflexivity|]. rewrite <- Hext. f_equal. apply (val_ltb A E).
        rewrite (val_add A E). exact He. }
      rewrite (n_max_val E), (val_add A E), (val_sub A E), (val_add A E).
      split; [lra|]. apply Rmax_lub; lra.
  - destruct (cmd_is (command l1) "G92"); injection H3 as _ <-; cbn [set_ext m_total m_max];
      rewrite ?Y7, ?Y8, ?M16, ?M17; auto.
Qed.

Lemma filament_extruding : forall ts pl (m m' : mstate A), trace m ts pl m' ->
  val (m_total m) <= 0 -> val (m_max m) <= 0 -> 0 < val (m_max m') ->
  exists l, In l pl /\ extrudes l.
Proof.
  intros ts pl m m' H. induction H as [m|m s l m1 ts pl m' Hs Ht IH]; intros H1 H2 H3; [lra|].
  destruct (extrudes_b l) eqn:Ee.
  - exists l. split; [now left|apply extrudes_iff, Ee].
  - assert (Hn : ~ extrudes l) by (intros Hx; apply extrudes_iff in Hx; congruence).
    destruct (step_not_extruding _ _ _ _ Hs H1 H2 Hn) as [G1 G2].
    destruct (IH G1 G2 H3) as (l0 & Hin & He). exists l0. split; [now right|exact He].
Qed.

Lemma load_box : forall home data (g : gcode A), load_gen false home data = Ok g ->
  0 < val (g_filament g) ->
  (exists l, In l (g_lines g) /\ extrudes l) /\
  (forall l, In l (g_lines g) -> extrudes l -> exists x y,
     t_x (lnotes l) = Some x /\ t_y (lnotes l) = Some y /\
     val (g_xmin g) <= val x <= val (g_xmax g) /\ val (g_ymin g) <= val y <= val (g_ymax g)) /\
  (exists l, In l (g_lines g) /\ extrudes l /\ t_x (lnotes l) = Some (g_xmin g)) /\
  (exists l, In l (g_lines g) /\ extrudes l /\ t_x (lnotes l) = Some (g_xmax g)) /\
  (exists l, In l (g_lines g) /\ extrudes l /\ t_y (lnotes l) = Some (g_ymin g)) /\
  (exists l, In l (g_lines g) /\ extrudes l /\ t_y (lnotes l) = Some (g_ymax g)).
Proof.
  intros home data g H Hf. destruct (load_btrace _ _ _ _ H) as (pl & ls & Hb & Hg).
  assert (Hl : g_lines g = pl) by (rewrite Hg, finalize_lines; apply map_store_false).
  assert (Hfil : g_filament g = m_max (g_m g)).
  { rewrite Hg at 1. unfold finalize. destruct (ls_cur ls); reflexivity. }
  pose proof (btrace_trace _ _ _ _ _ _ _ Hb) as Ht.
  destruct (filament_extruding _ _ _ _ Ht) as (l0 & Hin0 & He0).
  { destruct home as [[hx hy] hz]. cbn. rewrite val_n0. lra. }
  { destruct home as [[hx hy] hz]. cbn. rewrite val_n0. lra. }
  { rewrite <- Hfil. exact Hf. }
  pose proof (trace_coords _ _ _ _ Ht) as Hc.
  assert (Hbox : box_ok pl (ls_bbe ls)).
  { rewrite (btrace_bbe _ _ _ _ _ _ _ Hb). apply (box_fold pl [] empty_bbox); [|exact Hc].
    refine (conj _ (conj _ (conj _ _))); intros l []. }
  assert (Hlt : n_ltb n0 (m_max (g_m g)) = true).
  { apply (val_ltb A E). rewrite val_n0, <- Hfil. exact Hf. }
  assert (Hxs : g_xmin g = opt_default n0 (b_xmin (ls_bbe ls)) /\ g_xmax g = opt_default n0 (b_xmax (ls_bbe ls)) /\
    g_ymin g = opt_default n0 (b_ymin (ls_bbe ls)) /\ g_ymax g = opt_default n0 (b_ymax (ls_bbe ls))).
  { rewrite Hg. unfold finalize. destruct (ls_cur ls); cbn; rewrite Hlt; repeat split. }
  destruct Hxs as (-> & -> & -> & ->). rewrite Hl. destruct Hbox as (B1 & B2 & B3 & B4).
  destruct (b_xmin (ls_bbe ls)) as [x1|]; [|exfalso; eapply B1; eassumption].
  destruct (b_xmax (ls_bbe ls)) as [x2|]; [|exfalso; eapply B2; eassumption].
  destruct (b_ymin (ls_bbe ls)) as [y1|]; [|exfalso; eapply B3; eassumption].
  destruct (b_ymax (ls_bbe ls)) as [y2|]; [|exfalso; eapply B4; eassumption].
  cbn [opt_default]. destruct B1 as [B1 B1'], B2 as [B2 B2'], B3 as [B3 B3'], B4 as [B4 B4'].
  split; [eauto|]. split; [|auto].
  intros l Hin He. rewrite Forall_forall in Hc. destruct (Hc l Hin He) as (x & y & Hx & Hy).
  exists x, y. repeat split; try assumption; eauto.
Qed.

End Exact.

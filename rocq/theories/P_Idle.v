(** * P_Idle: lines that neither move nor feed, among the others (C115) *)
From Coq Require Import List Ascii String ZArith NArith Bool Lia.
From Verif Require Import PyBase Arith Gcoder SpecText SpecLoad SpecFree SpecArc SpecIdle P_Load P_Text P_Report P_Wf P_Free.
Import ListNotations.
Local Open Scope list_scope.

Section Idle.
Context {A : arith}.

Lemma no_words_quiet : forall (m m' : mstate A) s l, motion_step m (new_line s) = Ok (m', l) -> largs l = no_args ->
  t_extruding (lnotes l) = None.
Proof.
  intros m m' s l H Ha. rewrite motion_step_rest, split_new in H.
  destruct (read_words s (words s)) as [l0 toks] eqn:Er.
  assert (Hn : lnotes l0 = no_notes).
  { unfold read_words in Er. destruct (words s) as [|[c v] w]; injection Er as <- _; reflexivity. }
  unfold motion_rest in H. destruct (command l0) as [c|]; [|injection H as _ <-; rewrite Hn; reflexivity].
  destruct (update_modes c (is_move l0) m) as [s1|]; [cbn [bind] in H|discriminate H].
  destruct (parse_coordinates (m_imperial s1) toks l0) as [l1|]; [cbn [bind] in H|discriminate H].
  destruct (update_extrusion l1 (update_position l1 s1)) as [ext s3] eqn:Ee.
  injection H as _ <-. cbn [largs set_notes] in Ha. cbn [lnotes set_notes t_extruding].
  unfold update_extrusion, l_e in Ee. rewrite Ha in Ee. cbn in Ee. injection Ee as <- _. reflexivity.
Qed.

(** ** One idle line *)

Lemma idle_step : forall (m : mstate A) s, idle s = true ->
  exists l : line A, motion_step m (new_line s) = Ok (m, l) /\ raw l = s /\ largs l = no_args /\ is_move l = false /\
    cmd_in (command l) linear_move_gcodes = false /\ cmd_is (command l) "G4" = false /\
    t_extruding (lnotes l) = None.
Proof.
  intros m s H. unfold idle in H. apply orb_prop in H as [H|H].
  { destruct (plain_step m s H) as (l & E & Ha & Hm & Hl & H4). exists l.
    split; [exact E|]. split; [apply (motion_step_raw _ _ _ _ E)|]. repeat split; try assumption.
    apply (no_words_quiet _ _ _ _ E Ha). }
  destruct (words s) as [|[c v] w] eqn:Ew; [discriminate H|].
  apply orb_prop in H as [H|H].
  2:{ apply andb_prop in H as [H1 H2]. apply String.eqb_eq in H1, H2. subst c v.
    rewrite motion_step_rest, split_new, Ew. cbn [read_words]. eexists. split; [reflexivity|]. repeat split. }
  apply andb_prop in H as [H H3]. apply andb_prop in H as [H1 H2]. apply String.eqb_eq in H1. subst c.
  rewrite motion_step_rest, split_new, Ew. cbn [read_words].
  change (String.eqb "m" "") with false. cbn [andb]. change (upper "m") with "M"%string. cbn [String.append].
  change (cmd_in (Some (String "M" v)) move_gcodes) with false. unfold motion_rest. cbn [command set_command is_move].
  assert (Hu : update_modes (String "M" v) false m = Ok m).
  { unfold update_modes. cbn [String.eqb]. 
    change (Ascii.eqb "M" "G") with false. change (Ascii.eqb "M" "M") with true. cbn iota.
    apply negb_true_iff in H2, H3. cbn [String.eqb] in *.
    rewrite H2, H3. reflexivity. }
  rewrite Hu. cbn [bind]. unfold parse_coordinates. cbn [command set_command].
  change (first_is "G" (String "M" v)) with false. cbn iota. cbn [bind]. 
  eexists. split; [reflexivity|]. repeat split.
Qed.

(** ** Programs with and without idle lines *)

Definition lay (y y' : layer A) : Prop :=
  ly_z y' = ly_z y /\ ly_dur y' = ly_dur y /\ more (fun l => idle (raw l) = true) (ly_lines y) (ly_lines y').

(** the two scans have seen the same, except for idle lines *)
Record near (s s' : lstate A) : Prop := Near {
  nr_bb : ls_bb s' = ls_bb s; nr_bbe : ls_bbe s' = ls_bbe s; nr_d : ls_d s' = ls_d s;
  nr_begin : ls_begin s' = ls_begin s; nr_zs : ls_zs s' = ls_zs s;
  nr_last : ls_last_z s' = ls_last_z s; nr_prev : ls_prev_z s' = ls_prev_z s;
  nr_base : ls_prev_base s' = ls_prev_base s; nr_cur : ls_cur_z s' = ls_cur_z s;
  nr_ext : ls_has_ext s' = ls_has_ext s; nr_est : ls_est s' = ls_est s;
  nr_layers : Forall2 lay (ls_layers s) (ls_layers s');
  nr_lines : more (fun l => idle (raw l) = true) (ls_cur s) (ls_cur s') }.

Lemma more_snoc : forall (P : line A -> Prop) xs ys l, more P xs ys -> more P (xs ++ [l]) (ys ++ [l]).
Proof. intros P xs ys l H. induction H; cbn [app]; repeat (constructor; auto). Qed.
Lemma more_extra : forall (P : line A -> Prop) xs ys l, P l -> more P xs ys -> more P xs (ys ++ [l]).
Proof. intros P xs ys l Hl H. induction H; cbn [app]; repeat (constructor; auto). Qed.

Lemma near_base : forall s s', near s s' -> compute_base_z s' = compute_base_z s.
Proof.
  intros s s' H. unfold compute_base_z, estimate_layer_height.
  rewrite (nr_prev _ _ H), (nr_last _ _ H), (nr_est _ _ H).
  assert (E : map ly_z (ls_layers s') = map ly_z (ls_layers s)).
  { pose proof (nr_layers _ _ H) as L. induction L as [|y y' ys ys' Hy _ IH]; [reflexivity|].
    cbn. f_equal; [apply Hy|apply IH]. }
  rewrite E. reflexivity.
Qed.

Lemma near_update : forall s s', near s s' -> near (update_layers s) (update_layers s').
Proof.
  intros s s' H. unfold update_layers. rewrite (nr_cur _ _ H), (nr_prev _ _ H).
  destruct (opt_eqb (ls_cur_z s) (ls_prev_z s)); [exact H|].
  rewrite (near_base _ _ H), (nr_base _ _ H). destruct (compute_base_z s) as [base est].
  destruct H. destruct (match ls_prev_base s with Some b => opt_eqb base b | None => false end);
    constructor; cbn; try congruence.
  - apply Forall2_app; [assumption|]. constructor; [|constructor]. repeat split; cbn; [congruence|assumption].
  - constructor.
Qed.

Lemma near_push : forall s s' l, near s s' -> near (push_line l s) (push_line l s').
Proof. intros s s' l []. constructor; cbn; try assumption. apply more_snoc; assumption. Qed.

Lemma near_extra : forall s s' l, near s s' -> ls_prev_z s = ls_cur_z s -> idle (raw l) = true -> near s (push_line l s').
Proof. intros s s' l [] Hp Hl. constructor; cbn; try assumption; [congruence|]. apply more_extra; assumption. Qed.

Lemma near_body : forall (l : line A) mx s s', near s s' ->
  match layer_body l mx s, layer_body l mx s' with
  | Ok r, Ok r' => near r r'
  | Err e, Err e' => e = e'
  | _, _ => False
  end.
Proof.
  intros l mx s s' H. unfold layer_body, update_bbox. rewrite (nr_bb _ _ H), (nr_bbe _ _ H), (nr_d _ _ H).
  destruct (if is_move l then _ else (ls_bb s, ls_bbe s)) as [bb bbe].
  destruct (update_duration l (ls_d s)) as [d|e]; cbn [bind]; [|reflexivity].
  apply near_update. rewrite (nr_cur _ _ H), (nr_ext _ _ H). destruct H. constructor; cbn; congruence || assumption.
Qed.

Lemma idle_body : forall (l : line A) mx s, is_move l = false -> largs l = no_args ->
  cmd_in (command l) linear_move_gcodes = false -> cmd_is (command l) "G4" = false -> t_extruding (lnotes l) = None ->
  ls_prev_z s = ls_cur_z s -> opt_eqb (ls_cur_z s) (ls_cur_z s) = true -> layer_body l mx s = Ok s.
Proof.
  intros l mx s Hm Ha Hl H4 Ht Hp Hz. unfold layer_body, update_bbox, update_duration, update_cur_z, l_z.
  rewrite Hm, Hl, H4, Ht, Ha, orb_false_r. cbn [bind no_args a_z].
  unfold update_layers. cbn [ls_cur_z ls_prev_z]. rewrite Hp, Hz. destruct s; cbn in *. subst. reflexivity.
Qed.

Lemma body_cur : forall (l : line A) mx s r, layer_body l mx s = Ok r -> ls_cur_z r = update_cur_z l (ls_cur_z s).
Proof.
  intros l mx s r H. unfold layer_body in H. destruct (update_bbox l mx s) as [bb bbe].
  destruct (update_duration l (ls_d s)) as [d|]; [|discriminate H]. cbn [bind] in H. injection H as <-.
  unfold update_layers. cbn [ls_cur_z ls_prev_z ls_prev_base]. destruct (opt_eqb _ _); [reflexivity|].
  destruct (compute_base_z _). destruct (match ls_prev_base s with Some _ => _ | None => _ end); reflexivity.
Qed.

(** the heights are kept in a set of heights equal to themselves *)
Section Calm.
Variable J : option (num A) -> Prop.
Variable Q : string -> Prop.
Hypothesis J_eq : forall z, J z -> opt_eqb z z = true.
Hypothesis J_step : forall m s m' l z, Q s -> motion_step m (new_line s) = Ok (m', l) -> J z -> J (update_cur_z l z).

Definition near_end (r r' : res (mstate A * lstate A * list (line A))) : Prop :=
  match r, r' with
  | Ok (m, s, _), Ok (m', s', _) => m' = m /\ near s s'
  | Err e, Err e' => e = e'
  | _, _ => False
  end.

Lemma build_near : forall light ts ts', more (fun s => idle s = true) ts ts' -> Forall Q ts ->
  forall (m : mstate A) s s' o o', near s s' -> ls_prev_z s = ls_cur_z s -> J (ls_cur_z s) ->
  near_end (foldM (build_step light) (map new_line ts) (m, s, o)) (foldM (build_step light) (map new_line ts') (m, s', o')).
Proof.
  intros light ts ts' Hm. induction Hm as [|t ts ts' Hm IH|t ts ts' Ht Hm IH]; intros HQ m s s' o o' Hn Hp Hj.
  - cbn. auto.
  - inversion HQ as [|? ? Hq HQ']; subst. cbn [map foldM]. unfold build_step at 1 3.
    destruct (motion_step m (new_line t)) as [[m' l]|e] eqn:Em; cbn [bind]; [|reflexivity].
    assert (Hc : forall r r', near r r' -> J (ls_cur_z r) -> near_end
      (foldM (build_step light) (map new_line ts) (m', push_line (if light then new_line (raw (new_line (A:=A) t)) else l) r, o ++ [if light then new_line (raw (new_line (A:=A) t)) else l]))
      (foldM (build_step light) (map new_line ts') (m', push_line (if light then new_line (raw (new_line (A:=A) t)) else l) r', o' ++ [if light then new_line (raw (new_line (A:=A) t)) else l]))).
    { intros r r' Hr Hjr. apply IH; [exact HQ'|apply near_push, Hr|reflexivity|exact Hjr]. }
    destruct (command l) as [c|] eqn:Ec; cbn [bind].
    + pose proof (near_body l (m_max m') s s' Hn) as Hb.
      destruct (layer_body l (m_max m') s) as [r|e] eqn:Eb, (layer_body l (m_max m') s') as [r'|e'];
        try contradiction; cbn [bind]; [|exact Hb].
      apply Hc; [exact Hb|]. rewrite (body_cur _ _ _ _ Eb). eapply J_step; eassumption.
    + apply Hc; assumption.
  - cbn [map foldM]. unfold build_step at 2.
    destruct (idle_step m t Ht) as (l & Em & Hr & Ha & Hmv & Hl & H4 & Hx). rewrite Em. cbn [bind].
    assert (Hb : match command l with Some _ => layer_body l (m_max m) s' | None => Ok s' end = Ok s').
    { destruct (command l) eqn:Ec; [|reflexivity]. rewrite <- Ec in Hl, H4. apply idle_body; try assumption.
      - rewrite (nr_prev _ _ Hn), (nr_cur _ _ Hn). exact Hp.
      - rewrite (nr_cur _ _ Hn). apply J_eq, Hj. }
    rewrite Hb. cbn [bind]. apply IH; try assumption. apply near_extra; try assumption.
    destruct light; cbn [raw new_line]; [exact Ht|rewrite Hr; exact Ht].
Qed.

Lemma build_cur : forall light ts (m m' : mstate A) s s' o o',
  foldM (build_step light) (map new_line ts) (m, s, o) = Ok (m', s', o') -> ts <> [] \/ ls_cur s <> [] -> ls_cur s' <> [].
Proof.
  intros light ts. induction ts as [|t ts IH]; intros m m' s s' o o' H Hc; cbn [map foldM] in H.
  - injection H as _ <- _. destruct Hc as [Hc|Hc]; [contradiction|exact Hc].
  - unfold build_step at 1 in H. destruct (motion_step m (new_line t)) as [[m1 l]|]; [cbn [bind] in H|discriminate H].
    destruct (match command l with Some _ => _ | None => _ end) as [s1|]; [cbn [bind] in H|discriminate H].
    eapply IH; [exact H|]. right. cbn. intros E. apply app_eq_nil in E as [_ E]. discriminate E.
Qed.

Lemma load_scan : forall light home d, load_gen (A:=A) light home d =
  bind (foldM (build_step light) (map new_line (program_text d)) (init_mstate home, init_lstate, []))
       (fun '(m, ls, out) => Ok (finalize light m ls out)).
Proof.
  intros light home [|s d]; [|unfold load_gen; rewrite clean_lines_text; reflexivity].
  cbn. unfold finalize. cbn. destruct home as [[hx hy] hz]. cbn. destruct (n_ltb n0 n0); reflexivity.
Qed.

Lemma near_init : near init_lstate init_lstate.
Proof. constructor; try reflexivity; constructor. Qed.

Lemma finalize_near : forall light (m : mstate A) s s' o o', near s s' ->
  same_run (finalize light m s o) (finalize light m s' o') /\
  (ls_cur s <> [] -> same_levels (finalize light m s o) (finalize light m s' o')).
Proof.
  intros light m s s' o o' H. split.
  - apply finalize_same. unfold core. rewrite (nr_bb _ _ H), (nr_bbe _ _ H), (nr_d _ _ H). reflexivity.
  - intros Hc. assert (Hc' : ls_cur s' <> []).
    { intros E. pose proof (nr_lines _ _ H) as L. rewrite E in L. inversion L; congruence. }
    unfold finalize. destruct (ls_cur s) as [|l1 c1] eqn:E1; [contradiction|].
    destruct (ls_cur s') as [|l2 c2] eqn:E2; [contradiction|].
    destruct H. rewrite E1, E2 in *. unfold same_levels. cbn [g_layers g_zs g_zmin g_zmax g_est].
    split; [|rewrite nr_ext0, nr_prev0, nr_zs0, nr_est0; repeat split].
    apply Forall2_app; [apply Forall2_app; [assumption|]|].
    + constructor; [|constructor]. repeat split; cbn; [assumption|congruence|assumption].
    + constructor; [|constructor]. repeat split. constructor.
Qed.

Lemma load_idle : J None -> forall light home d d',
  more (fun s => idle s = true) (program_text d) (program_text d') -> Forall Q (program_text d) ->
  match load_gen (A:=A) light home d, load_gen light home d' with
  | Ok g, Ok h => same_run g h /\ (program_text d <> [] -> same_levels g h)
  | Err e, Err e' => e = e'
  | _, _ => False
  end.
Proof.
  intros J0 light home d d' Hm HQ. rewrite !load_scan.
  pose proof (build_near light _ _ Hm HQ (init_mstate home) init_lstate init_lstate [] [] near_init eq_refl J0) as Hb.
  destruct (foldM (build_step light) (map new_line (program_text d)) _) as [[[m s] o]|e] eqn:E1,
           (foldM (build_step light) (map new_line (program_text d')) _) as [[[m' s'] o']|e']; cbn in Hb |- *;
    try contradiction; [|exact Hb].
  destruct Hb as [-> Hn]. destruct (finalize_near light m s s' o o' Hn) as [Hr Hl]. split; [exact Hr|].
  intros Ht. apply Hl. eapply build_cur; [exact E1|]. left. exact Ht.
Qed.
End Calm.

End Idle.

(** * P_LayersKept: the layers of a filtered program *)
From Coq Require Import List Ascii String ZArith NArith Bool Lia.
From Verif Require Import PyBase Arith Gcoder Filters SpecText SpecLoad SpecMachine SpecEqual SpecFilter SpecLayersKept.
From Verif Require Import P_Text P_Format P_Load P_Machine P_Measure P_Layers P_Filter P_FilterMotion P_Compose.
Import ListNotations.
Local Open Scope list_scope.

Section Every.
Context {A : arith}.
Notation line := (line A).

(** ** Layers depend on commands and heights alone *)

Definition same_height (l l' : line) : Prop :=
  (command l = None <-> command l' = None) /\ forall c, update_cur_z l' c = update_cur_z l c.

Definition ext_of (l : line) : bool := match t_extruding (lnotes l) with Some b => b | None => false end.

Section Similar.
Variable P : Prop.

Record similar (a b : lstate A) : Prop := Similar {
  sm_lidx : ls_lidx b = ls_lidx a; sm_kidx : ls_kidx b = ls_kidx a;
  sm_id : ls_layer_id b = ls_layer_id a; sm_line : ls_layer_line b = ls_layer_line a;
  sm_last : ls_last_z b = ls_last_z a; sm_prev : ls_prev_z b = ls_prev_z a;
  sm_base : ls_prev_base b = ls_prev_base a; sm_cur : ls_cur_z b = ls_cur_z a; sm_est : ls_est b = ls_est a;
  sm_lines : List.length (ls_cur b) = List.length (ls_cur a);
  sm_layers : map ly_z (ls_layers b) = map ly_z (ls_layers a);
  sm_sizes : map (fun y => List.length (ly_lines y)) (ls_layers b) = map (fun y => List.length (ly_lines y)) (ls_layers a);
  sm_ext : P -> ls_has_ext b = ls_has_ext a;
  sm_zs : P -> ls_zs b = ls_zs a }.

Lemma sim_init : similar init_lstate init_lstate.
Proof. constructor; reflexivity. Qed.

Lemma sim_push : forall a b l l', similar a b -> similar (push_line l a) (push_line l' b).
Proof.
  intros a b l l' [H1 H2 H3 H4 H5 H6 H7 H8 H9 H10 H11 H12 H13 H14].
  constructor; cbn [push_line ls_lidx ls_kidx ls_layer_id ls_layer_line ls_last_z ls_prev_z ls_prev_base ls_cur_z ls_est ls_cur ls_layers ls_has_ext ls_zs];
    try assumption; try congruence.
  rewrite !app_length, H10. reflexivity.
Qed.

Lemma sim_base : forall a b, similar a b -> compute_base_z b = compute_base_z a.
Proof.
  intros a b H. unfold compute_base_z. rewrite (sm_prev _ _ H), (sm_last _ _ H), (sm_est _ _ H).
  assert (He : estimate_layer_height (ls_layers b) = estimate_layer_height (ls_layers a)).
  { unfold estimate_layer_height. now rewrite (sm_layers _ _ H). }
  now rewrite He.
Qed.

Lemma sim_layers : forall a b, similar a b -> similar (update_layers a) (update_layers b).
Proof.
  intros a b H. unfold update_layers. rewrite (sim_base _ _ H), (sm_cur _ _ H), (sm_prev _ _ H), (sm_base _ _ H).
  destruct (opt_eqb (ls_cur_z a) (ls_prev_z a)); [exact H|]. destruct (compute_base_z a) as [base est].
  destruct H as [H1 H2 H3 H4 H5 H6 H7 H8 H9 H10 H11 H12 H13 H14].
  destruct (match ls_prev_base a with Some b0 => opt_eqb base b0 | None => false end);
    (constructor; cbn [ls_lidx ls_kidx ls_layer_id ls_layer_line ls_last_z ls_prev_z ls_prev_base ls_cur_z ls_est ls_cur ls_layers ls_has_ext ls_zs];
     rewrite ?map_app; cbn [map ly_z ly_lines]; try assumption; try congruence; try reflexivity).
  intros p. rewrite (H13 p), (H14 p). reflexivity.
Qed.

Lemma sim_step : forall a b a1 b1 l l' mx mx', similar a b -> same_height l l' -> (P -> ext_of l' = ext_of l) ->
  layer_step l mx a = Ok a1 -> layer_step l' mx' b = Ok b1 -> similar (push_line l a1) (push_line l' b1).
Proof.
  intros a b a1 b1 l l' mx mx' H [Hc Hz] He Ha Hb. apply sim_push. unfold layer_step in *.
  destruct (command l) as [c|] eqn:Ec, (command l') as [c'|] eqn:Ec'.
  - unfold layer_body in *. destruct (update_bbox l mx a) as [p q]. destruct (update_bbox l' mx' b) as [p' q'].
    destruct (update_duration l (ls_d a)) as [d|e]; cbn [bind] in Ha; [|discriminate Ha].
    destruct (update_duration l' (ls_d b)) as [d'|e]; cbn [bind] in Hb; [|discriminate Hb].
    apply ok_inj in Ha, Hb. subst a1 b1. apply sim_layers.
    destruct H as [H1 H2 H3 H4 H5 H6 H7 H8 H9 H10 H11 H12 H13 H14].
    constructor; cbn [ls_lidx ls_kidx ls_layer_id ls_layer_line ls_last_z ls_prev_z ls_prev_base ls_cur_z ls_est ls_cur ls_layers ls_has_ext ls_zs];
      try assumption; try congruence.
    intros p0. rewrite (H13 p0). f_equal. apply He, p0.
  - exfalso. destruct Hc as [_ Hc]. discriminate (Hc eq_refl).
  - exfalso. destruct Hc as [Hc _]. discriminate (Hc eq_refl).
  - injection Ha as <-. injection Hb as <-. exact H.
Qed.

(** ** Texts that mean the same for the layers *)

Definition rewritten (l : line) : Prop := is_motion l = true \/ is_command "G92" l = true.

(** [s'] is the text of [l], or M83 for M82, or [l] written anew with the same
    Z word *)
Definition kin (l : line) (s' : string) : Prop :=
  s' = raw l \/ (is_command "M82" l = true /\ s' = "M83"%string) \/
  exists c a, command l = Some c /\ rewritten l /\ s' = unsplit_text c a /\ finite_args a /\ a_z a = l_z l /\
    (forall z, l_z l = Some z -> py_round 3 z = z).

Definition rel_after (c : string) (r : bool) : bool :=
  if String.eqb c "G90" then false else if String.eqb c "G91" then true else r.

Lemma modes_kept : forall c mv (m m1 : mstate A), update_modes c mv m = Ok m1 -> mv = str_mem c move_gcodes ->
  m_relative m1 = rel_after c (m_relative m) /\ (c <> "G20"%string -> m_imperial m = false -> m_imperial m1 = false).
Proof.
  intros c mv m m1 H Hmv. unfold update_modes in H. unfold rel_after. destruct mv.
  { injection H as <-. symmetry in Hmv. apply str_mem_in in Hmv. cbn [move_gcodes In] in Hmv.
    split; [|auto]. repeat (destruct Hmv as [<-|Hmv]; [reflexivity|]). destruct Hmv. }
  destruct (String.eqb c "G20") eqn:E20.
  { apply String.eqb_eq in E20. subst c. injection H as <-. split; [reflexivity|congruence]. }
  destruct (String.eqb c "G21") eqn:E21.
  { apply String.eqb_eq in E21. subst c. injection H as <-. split; reflexivity. }
  destruct (String.eqb c "G90") eqn:E90; [injection H as <-; split; [reflexivity|auto]|].
  destruct (String.eqb c "G91") eqn:E91; [injection H as <-; split; [reflexivity|auto]|].
  destruct (String.eqb c "M82") eqn:E82; [injection H as <-; split; [reflexivity|auto]|].
  destruct (String.eqb c "M83") eqn:E83; [injection H as <-; split; [reflexivity|auto]|].
  repeat match type of H with context [match ?x with _ => _ end] => destruct x; try discriminate H end;
    injection H as <-; split; first [reflexivity|auto].
Qed.

Lemma step_modes : forall (m m1 : mstate A) s l c, command_name s = Some c -> motion_step m (new_line s) = Ok (m1, l) ->
  m_relative m1 = rel_after c (m_relative m) /\ (c <> "G20"%string -> m_imperial m = false -> m_imperial m1 = false) /\
  command l = Some c /\ is_move l = str_mem c move_gcodes /\
  (is_move l = true -> t_relative (lnotes l) = Some (m_relative m)).
Proof.
  intros m m1 s l c Hc H. destruct (motion_some _ _ _ _ _ Hc H) as (s1 & l1 & ext & H1 & (P1 & P2 & P3 & P4 & P5) & H3 & ->).
  destruct (modes_kept _ _ _ _ H1 eq_refl) as [M1 M2].
  destruct (update_extrusion_fixed _ _ _ _ H3) as (I1 & I2 & _). destruct (update_position_fixed l1 s1) as (J1 & J2 & _).
  rewrite I1, I2, J1, J2. split; [exact M1|]. split; [exact M2|]. split; [exact P2|]. split; [exact P3|].
  cbn [is_move set_notes lnotes t_relative position_notes]. intros Hm. rewrite Hm. f_equal.
  rewrite P3 in Hm. rewrite Hm in H1. injection H1 as <-. reflexivity.
Qed.

Lemma heights_of : forall l l' : line, command l' = command l -> is_move l' = is_move l -> l_z l' = l_z l ->
  (is_move l = true -> t_relative (lnotes l') = t_relative (lnotes l)) -> same_height l l'.
Proof.
  intros l l' H1 H2 H3 H4. split; [rewrite H1; tauto|]. intros c. unfold update_cur_z. rewrite H1, H2, H3.
  destruct (l_z l); [|reflexivity]. destruct (cmd_is (command l) "G92"); [reflexivity|].
  destruct (is_move l); [|reflexivity]. rewrite (H4 eq_refl). reflexivity.
Qed.

Lemma unnamed : forall (m m1 : mstate A) s (l : line), command_name s = None -> motion_step m (new_line s) = Ok (m1, l) ->
  command l = match words s with [] => Some s | _ => None end.
Proof.
  intros m m1 s l Ec H. destruct (command_name_none s Ec) as [Hw|[t Hw]]; rewrite Hw.
  - assert (Hr : recognised s = false) by (unfold recognised; rewrite Hw; reflexivity).
    destruct (unrecognised_step m s Hr) as (x & E & _ & _ & Ex). rewrite E in H. apply ok_inj in H. injection H as <- <-. exact Ex.
  - rewrite (no_command_step m s t Hw) in H. apply ok_inj in H. injection H as <- <-. reflexivity.
Qed.

Lemma named_command : forall (m m1 : mstate A) s (l : line) c, motion_step m (new_line s) = Ok (m1, l) -> command l = Some c ->
  words c <> [] -> command_name s = Some c.
Proof.
  intros m m1 s l c H Hc Hw. destruct (command_name s) as [d|] eqn:Ec.
  - destruct (step_modes _ _ _ _ _ Ec H) as (_ & _ & M3 & _). congruence.
  - exfalso. rewrite (unnamed _ _ _ _ Ec H) in Hc. destruct (words s) eqn:E; [|discriminate Hc]. injection Hc as ->. contradiction.
Qed.

Lemma pair_step : forall (m m1 k k1 : mstate A) s s' (l l' : line),
  motion_step m (new_line s) = Ok (m1, l) -> motion_step k (new_line s') = Ok (k1, l') -> kin l s' ->
  m_relative k = m_relative m -> m_imperial m = false -> m_imperial k = false ->
  command_name s <> Some "G20"%string ->
  same_height l l' /\ m_relative k1 = m_relative m1 /\ m_imperial m1 = false /\ m_imperial k1 = false.
Proof.
  intros m m1 k k1 s s' l l' H H' Hk Hr Hi Hi' Hn.
  pose proof (motion_step_raw _ _ _ _ H) as Hraw. cbn [raw new_line] in Hraw.
  destruct Hk as [->|[[H82 ->]|(c & a & Hc & Hg & -> & Hf & Haz & Hz)]].
  - rewrite Hraw in H'. destruct (command_name s) as [c|] eqn:Ec.
    + destruct (step_modes _ _ _ _ _ Ec H) as (M1 & M2 & M3 & M4 & M5).
      destruct (step_modes _ _ _ _ _ Ec H') as (N1 & N2 & N3 & N4 & N5).
      assert (Hc20 : c <> "G20"%string) by congruence.
      split; [|split; [congruence|split; [apply M2; assumption|apply N2; assumption]]].
      apply heights_of; try congruence.
      * destruct (motion_some _ _ _ _ _ Ec H) as (s1 & l1 & ext & U & (P1 & P2 & P3 & P4 & P5) & _ & ->).
        destruct (motion_some _ _ _ _ _ Ec H') as (s1' & l1' & ext' & U' & (Q1 & Q2 & Q3 & Q4 & Q5) & _ & ->).
        unfold l_z. cbn [largs set_notes]. destruct (first_is "G" c); [|congruence].
        destruct (modes_kept _ _ _ _ U eq_refl) as [_ V]. destruct (modes_kept _ _ _ _ U' eq_refl) as [_ V'].
        rewrite (V Hc20 Hi) in P5. rewrite (V' Hc20 Hi') in Q5. congruence.
      * intros Hm. rewrite (M5 Hm), (N5 ltac:(congruence)), Hr. reflexivity.
    + destruct (motion_none _ _ _ _ Ec H) as (-> & A1 & A2 & _). destruct (motion_none _ _ _ _ Ec H') as (-> & B1 & B2 & _).
      split; [|auto]. apply heights_of; unfold l_z; try congruence.
      rewrite (unnamed _ _ _ _ Ec H), (unnamed _ _ _ _ Ec H'). reflexivity.
  - assert (Ec : command_name s = Some "M82"%string).
    { unfold is_command in H82. destruct (command l) as [c|] eqn:E; [|discriminate H82]. apply String.eqb_eq in H82. subst c.
      apply (named_command _ _ _ _ _ H E). discriminate. }
    assert (Ec' : command_name "M83" = Some "M83"%string) by reflexivity.
    destruct (step_modes _ _ _ _ _ Ec H) as (M1 & M2 & M3 & M4 & M5).
    destruct (step_modes _ _ _ _ _ Ec' H') as (N1 & N2 & N3 & N4 & N5).
    split; [|split; [rewrite N1, M1; exact Hr|split; [apply M2; [discriminate|assumption]|apply N2; [discriminate|assumption]]]].
    destruct (motion_some _ _ _ _ _ Ec H) as (s1 & l1 & ext & U & (P1 & P2 & P3 & P4 & P5) & _ & ->).
    destruct (motion_some _ _ _ _ _ Ec' H') as (s1' & l1' & ext' & U' & (Q1 & Q2 & Q3 & Q4 & Q5) & _ & ->).
    cbn [first_is Ascii.eqb] in P5, Q5. change (Ascii.eqb "M" "G") with false in *. cbv iota in P5, Q5.
    split; [rewrite M3, N3; split; discriminate|]. intros c. unfold update_cur_z, l_z. cbn [largs set_notes]. rewrite P5, Q5. reflexivity.
  - assert (Hgc : first_is "G" c = true /\ c <> "G20"%string /\ words c <> []).
    { destruct Hg as [Hg|Hg].
      - unfold is_motion in Hg. rewrite Hc in Hg. apply str_mem_in in Hg. cbn [In] in Hg.
        repeat (destruct Hg as [<-|Hg]; [split; [reflexivity|split; discriminate]|]). destruct Hg.
      - unfold is_command in Hg. rewrite Hc in Hg. apply String.eqb_eq in Hg. subst c. split; [reflexivity|split; discriminate]. }
    destruct Hgc as (Hg1 & Hg2 & Hg3).
    assert (Ec : command_name s = Some c) by (apply (named_command _ _ _ _ _ H Hc Hg3)).
    destruct (step_modes _ _ _ _ _ Ec H) as (M1 & M2 & M3 & M4 & M5).
    destruct (unsplit_reads s c a k Ec Hg1 Hg2 Hi' Hf) as (k2 & l2 & H2 & U1 & U2 & U3). rewrite H' in H2. apply ok_inj in H2. injection H2 as <- <-.
    assert (Ec' : command_name (unsplit_text c a) = Some c).
    { destruct (read_g_command s c Ec Hg1) as (v & sg & ip & pt & fp & -> & Hv). unfold command_name.
      rewrite (words_unsplit _ _ _ _ _ _ Hv Hf). reflexivity. }
    destruct (step_modes _ _ _ _ _ Ec' H') as (N1 & N2 & N3 & N4 & N5).
    split; [|split; [congruence|split; [apply M2; assumption|apply N2; assumption]]].
    apply heights_of; try congruence.
    + unfold l_z at 1. rewrite U3. change (a_z (rounded_args a)) with (option_map (py_round 3) (a_z a)). rewrite Haz.
      destruct (l_z l) as [z|]; [|reflexivity]. cbn. now rewrite (Hz z eq_refl).
    + intros Hm. rewrite (M5 Hm), (N5 ltac:(congruence)), Hr. reflexivity.
Qed.

Lemma pair_trace : forall ts pl (m m' : mstate A) a a', btrace false m a ts pl m' a' ->
  forall ts' pl' k k' b b', btrace false k b ts' pl' k' b' -> Forall2 kin pl ts' ->
  m_relative k = m_relative m -> m_imperial m = false -> m_imperial k = false ->
  Forall (fun s => command_name s <> Some "G20"%string) ts ->
  (P -> Forall2 (fun l l' => ext_of l' = ext_of l) pl pl') -> similar a b -> similar a' b'.
Proof.
  intros ts pl m m' a a' H. induction H as [m a|m a s l m1 a1 ts pl m' a' Hs Hb Ht IH];
    intros ts' pl' k k' b b' H' Hk Hr Hi Hi' Hn He Hsim; inversion Hk as [|? sx ? tx Hk1 Hk2]; subst.
  - inversion H'; subst. exact Hsim.
  - inversion H' as [|? ? s1 l1 k1 b1 ts2 pl2 ? ? Hs' Hb' Ht']; subst. inversion Hn; subst.
    destruct (pair_step _ _ _ _ _ _ _ _ Hs Hs' Hk1 Hr Hi Hi') as (S1 & S2 & S3 & S4); try assumption.
    apply (IH _ _ _ _ _ _ Ht'); try assumption.
    + intros p. specialize (He p). inversion He; subst. assumption.
    + cbn [store]. refine (sim_step _ _ _ _ _ _ _ _ Hsim S1 _ Hb Hb').
      intros p. specialize (He p). inversion He; subst. assumption.
Qed.

End Similar.

Lemma layers_follow : forall home home' data data' (g h : gcode A), load_gen false home data = Ok g -> load_gen false home' data' = Ok h ->
  Forall2 kin (g_lines g) (program_text data') ->
  Forall (fun s => command_name s <> Some "G20"%string) (program_text data) -> same_layers g h /\
  (Forall2 (fun l l' => ext_of l' = ext_of l) (g_lines g) (g_lines h) -> same_heights g h).
Proof.
  intros home home' data data' g h Hg Hh Hk Hn.
  destruct (load_btrace _ _ _ _ Hg) as (pl & ls & B & G). destruct (load_btrace _ _ _ _ Hh) as (pl' & ls' & B' & G').
  rewrite map_store_false in G, G'.
  assert (L : g_lines g = pl) by (rewrite G; apply finalize_lines). assert (L' : g_lines h = pl') by (rewrite G'; apply finalize_lines).
  rewrite L in *. rewrite L' in *.
  assert (I : forall x : num A * num A * num A, m_imperial (init_mstate x) = false /\ m_relative (init_mstate x) = false).
  { intros [[? ?] ?]. split; reflexivity. }
  assert (K : forall Q : Prop, (Q -> Forall2 (fun l l' => ext_of l' = ext_of l) pl pl') -> similar Q ls ls').
  { intros Q HQ. refine (pair_trace Q _ _ _ _ _ _ B _ _ _ _ _ _ B' Hk _ _ _ Hn HQ (sim_init Q)).
    - rewrite (proj2 (I home)), (proj2 (I home')). reflexivity.
    - apply I.
    - apply I. }
  assert (Hnil : (ls_cur ls = [] <-> ls_cur ls' = [])).
  { pose proof (sm_lines _ _ _ (K False (False_ind _))) as Hl. destruct (ls_cur ls), (ls_cur ls'); try discriminate Hl; split; congruence. }
  split.
  - pose proof (K False (False_ind _)) as S. rewrite G, G'. unfold finalize.
    destruct (ls_cur ls) as [|c cs] eqn:E, (ls_cur ls') as [|c' cs'] eqn:E'.
    + unfold same_layers. cbn [g_lidx g_kidx g_layers]. rewrite !map_app. cbn [map ly_z ly_lines].
      rewrite (sm_lidx _ _ _ S), (sm_kidx _ _ _ S), (sm_layers _ _ _ S), (sm_sizes _ _ _ S). auto.
    + exfalso. destruct Hnil as [Hq _]. discriminate (Hq eq_refl).
    + exfalso. destruct Hnil as [_ Hq]. discriminate (Hq eq_refl).
    + unfold same_layers. cbn [g_lidx g_kidx g_layers]. rewrite !map_app. cbn [map ly_z ly_lines].
      pose proof (sm_lines _ _ _ S) as Hl. rewrite E, E' in Hl.
      rewrite (sm_lidx _ _ _ S), (sm_kidx _ _ _ S), (sm_layers _ _ _ S), (sm_sizes _ _ _ S), (sm_prev _ _ _ S), Hl. auto.
  - intros He. pose proof (K True (fun _ => He)) as S. rewrite G, G'. unfold finalize.
    pose proof (sm_zs _ _ _ S Logic.I) as HZ.
    pose proof (sm_ext _ _ _ S Logic.I) as HE.
    destruct (ls_cur ls) as [|c cs] eqn:E, (ls_cur ls') as [|c' cs'] eqn:E'.
    + unfold same_heights. cbn [g_zs g_zmin g_zmax]. rewrite HZ. auto.
    + exfalso. destruct Hnil as [Hq _]. discriminate (Hq eq_refl).
    + exfalso. destruct Hnil as [_ Hq]. discriminate (Hq eq_refl).
    + unfold same_heights. cbn [g_zs g_zmin g_zmax]. rewrite HZ, HE, (sm_prev _ _ _ S). auto.
Qed.

(** ** Both filters write such texts *)

(** what a filter may do to a line *)
Definition sound (l l' : line) : Prop :=
  rewritten l -> finite_args (largs l') /\ forall z, l_z l = Some z -> py_round 3 z = z.

Lemma tr_kin : forall st (l : line), sound l (answer tr_opcode st l) -> kin l (raw (answer tr_opcode st l)).
Proof.
  intros st l. unfold sound, rewritten, answer, tr_opcode. rewrite !cmd_is_command, cmd_in_motion.
  destruct (is_motion l) eqn:Hm.
  - destruct (tr_absolute st) as [[|]|]; cbn [snd]; try (intros _; now left).
    destruct (shift_two (tr_x st) (tr_y st) l) as (S1 & _ & _ & _ & _ & S6 & [S|S]); cbv zeta in *; intros Hf; [rewrite S; now left|].
    destruct (Hf (or_introl eq_refl)) as [Hf1 Hf2].
    right. right. pose proof Hm as Hm2. unfold is_motion in Hm2. destruct (command l) as [c|] eqn:Ec; [|discriminate Hm2].
    eexists c, _. split; [reflexivity|]. split; [left; exact Hm|]. split; [exact S|]. split; [exact Hf1|].
    split; [apply (S6 LZ); discriminate|exact Hf2].
  - destruct (is_command "G90" l); [intros _; now left|]. destruct (is_command "G91" l); [intros _; now left|].
    destruct (is_command "G92" l) eqn:H92; [|intros _; now left].
    pose proof H92 as H93. unfold is_command in H93. destruct (command l) as [c|] eqn:Ec; [|discriminate H93].
    destruct (no_xyz l); [|destruct (l_x l), (l_y l)];
      cbn [snd unsplit raw set_raw command set_arg set_args largs]; intros Hf; destruct (Hf (or_intror eq_refl)) as [Hf1 Hf2];
      right; right; exists c; eexists;
      (split; [exact Ec|]; split; [right; exact H92|]; split; [rewrite Ec; reflexivity|]; split; [exact Hf1|]; split; [reflexivity|exact Hf2]).
Qed.

Lemma rel_kin : forall st (l : line), sound l (answer rel_opcode st l) -> kin l (raw (answer rel_opcode st l)).
Proof.
  intros st l. unfold sound, answer, rel_opcode. rewrite !cmd_is_command, cmd_in_motion.
  destruct (is_command "M83" l); [intros _; now left|].
  destruct (is_command "M82" l) eqn:H82; [intros _; right; left; split; [exact H82|reflexivity]|].
  destruct (is_command "G92" l); [destruct (l_e l); intros _; now left|].
  destruct (is_motion l) eqn:Hm; cbn [andb]; [|intros _; now left]. destruct (r_relative st); cbn [negb]; [intros _; now left|].
  destruct (l_e l); [|intros _; now left]. cbn [snd unsplit raw set_raw command set_arg set_args mark_relative_e set_notes largs].
  intros Hf. destruct (Hf (or_introl Hm)) as [Hf1 Hf2].
  pose proof Hm as Hm2. unfold is_motion in Hm2. destruct (command l) as [c|] eqn:Ec; [|discriminate Hm2].
  right. right. exists c. eexists. split; [first [exact Ec|reflexivity]|]. split; [left; exact Hm|].
  split; [rewrite ?Ec; reflexivity|]. split; [exact Hf1|]. split; [reflexivity|exact Hf2].
Qed.

Lemma answers_pair : forall St (f : St -> line -> St * fresult (A:=A)) (Q : line -> line -> Prop) (K : line -> string -> Prop),
  (forall st l, Q l (answer f st l) -> K l (raw (answer f st l))) ->
  forall ls st, Forall2 Q ls (answers f st ls) -> Forall2 K ls (map raw (answers f st ls)).
Proof.
  intros St f Q K Hf. induction ls as [|l ls IH]; intros st H; [constructor|].
  cbn [answers map] in *. inversion H; subst. constructor; [now apply Hf|now apply IH].
Qed.

Lemma translated_text : forall home data x y (g g1 : gcode A), load_gen false home data = Ok g -> translate x y g = Ok g1 ->
  all_lines g1 = answers tr_opcode (tr_init x y) (g_lines g) /\ program_text (write g1) = map raw (all_lines g1).
Proof.
  intros home data x y g g1 Hg H1. destruct (translate_pure _ _ _ _ H1) as (Ha & _). rewrite (load_all_lines _ _ _ _ Hg) in Ha.
  split; [exact Ha|]. rewrite (tight_text (write g1)) by (apply (translate_text _ _ _ _ H1), (load_tight _ _ _ _ Hg)). apply write_all.
Qed.

Lemma converted_text : forall home data (g g1 : gcode A), load_gen false home data = Ok g -> to_relative_extrusion g = Ok g1 ->
  all_lines g1 = answers rel_opcode rel_init (g_lines g) /\ program_text (write g1) = map raw (all_lines g1).
Proof.
  intros home data g g1 Hg H1. destruct (relative_pure _ _ H1) as (Ha & _). rewrite (load_all_lines _ _ _ _ Hg) in Ha.
  split; [exact Ha|]. rewrite (tight_text (write g1)) by (apply (relative_text _ _ H1), (load_tight _ _ _ _ Hg)). apply write_all.
Qed.

Lemma translate_layers : forall home home' data x y (g g1 h : gcode A), load_gen false home data = Ok g ->
  translate x y g = Ok g1 -> load_gen false home' (write g1) = Ok h ->
  Forall (fun s => command_name s <> Some "G20"%string) (program_text data) ->
  Forall2 sound (g_lines g) (all_lines g1) ->
  same_layers g h /\ (same_printing g h -> same_heights g h).
Proof.
  intros home home' data x y g g1 h Hg H1 Hh Hn Hf. destruct (translated_text _ _ _ _ _ _ Hg H1) as [Ha Ht].
  refine (layers_follow home home' data (write g1) g h Hg Hh _ Hn).
  rewrite Ht, Ha in *. apply (answers_pair _ _ _ _ tr_kin), Hf.
Qed.

Lemma relative_layers : forall home home' data (g g1 h : gcode A), load_gen false home data = Ok g ->
  to_relative_extrusion g = Ok g1 -> load_gen false home' (write g1) = Ok h ->
  Forall (fun s => command_name s <> Some "G20"%string) (program_text data) ->
  Forall2 sound (g_lines g) (all_lines g1) ->
  same_layers g h /\ (same_printing g h -> same_heights g h).
Proof.
  intros home home' data g g1 h Hg H1 Hh Hn Hf. destruct (converted_text _ _ _ _ Hg H1) as [Ha Ht].
  refine (layers_follow home home' data (write g1) g h Hg Hh _ Hn).
  rewrite Ht, Ha in *. apply (answers_pair _ _ _ _ rel_kin), Hf.
Qed.

(** ** A translated program extrudes alike *)

(** what the extruder knows *)
Definition extruder_of (m : mstate A) := (m_relative_e m, m_e m, m_oe m, m_total m, m_max m).

(** [s'] is the text of [l], or [l] written anew with the same E word *)
Definition twin (l : line) (s' : string) : Prop :=
  s' = raw l \/
  exists c a, command l = Some c /\ rewritten l /\ s' = unsplit_text c a /\ finite_args a /\ a_e a = l_e l /\
    (forall e, l_e l = Some e -> py_round 5 e = e).

Lemma modes_extruder : forall c mv (m m1 k k1 : mstate A), update_modes c mv m = Ok m1 -> update_modes c mv k = Ok k1 ->
  extruder_of k = extruder_of m -> extruder_of k1 = extruder_of m1.
Proof.
  intros c mv m m1 k k1 H K E. unfold update_modes in *. destruct mv; [apply ok_inj in H, K; now subst|].
  repeat match type of H with context [if ?b then _ else _] => destruct b end;
    try (apply ok_inj in H, K; subst; unfold extruder_of in *; injection E as E1 E2 E3 E4 E5; cbn; congruence).
  repeat match type of H with context [match ?x with _ => _ end] => destruct x; try discriminate H end;
    apply ok_inj in H, K; subst; exact E.
Qed.

Lemma extruder_step : forall c s s' (m m1 k k1 : mstate A) (l l' : line), command_name s = Some c -> command_name s' = Some c ->
  motion_step m (new_line s) = Ok (m1, l) -> motion_step k (new_line s') = Ok (k1, l') -> extruder_of k = extruder_of m ->
  l_e l' = l_e l -> t_extruding (lnotes l') = t_extruding (lnotes l) /\ extruder_of k1 = extruder_of m1.
Proof.
  intros c s s' m m1 k k1 l l' Hc Hc' H H' E He.
  destruct (motion_some _ _ _ _ _ Hc H) as (s1 & l1 & ext & U & (_ & P2 & P3 & _) & X & ->).
  destruct (motion_some _ _ _ _ _ Hc' H') as (s1' & l1' & ext' & U' & (_ & Q2 & Q3 & _) & X' & ->).
  pose proof (modes_extruder _ _ _ _ _ _ U U' E) as E1. cbn [lnotes set_notes t_extruding position_notes].
  change (l_e (set_notes (position_notes l1' s1' k1 ext') l1')) with (l_e l1') in He.
  change (l_e (set_notes (position_notes l1 s1 m1 ext) l1)) with (l_e l1) in He.
  assert (E2 : extruder_of (update_position l1' s1') = extruder_of (update_position l1 s1)).
  { unfold extruder_of in *. destruct (update_position_fixed l1' s1') as (_ & _ & -> & _ & -> & -> & -> & -> & _).
    destruct (update_position_fixed l1 s1) as (_ & _ & -> & _ & -> & -> & -> & -> & _). exact E1. }
  revert X X' E2. generalize (update_position l1 s1) (update_position l1' s1'). intros p p' X X' E2.
  unfold update_extrusion in *. rewrite He, P2, Q2, P3, Q3 in *. unfold extruder_of in E2. injection E2 as F1 F2 F3 F4 F5.
  rewrite F1, F2, F3, F4, F5 in X'.
  destruct (l_e l1) as [e|]; [|injection X as <- <-; injection X' as <- <-; unfold extruder_of; split; [reflexivity|congruence]].
  destruct (str_mem c move_gcodes); [destruct (m_relative_e p) eqn:Er|destruct (cmd_is (Some c) "G92")];
    injection X as <- <-; injection X' as <- <-; unfold extruder_of; cbn; split; try reflexivity; congruence.
Qed.

Lemma twin_step : forall (m m1 k k1 : mstate A) s s' (l l' : line),
  motion_step m (new_line s) = Ok (m1, l) -> motion_step k (new_line s') = Ok (k1, l') -> twin l s' ->
  extruder_of k = extruder_of m -> m_imperial m = false -> m_imperial k = false -> command_name s <> Some "G20"%string ->
  ext_of l' = ext_of l /\ extruder_of k1 = extruder_of m1 /\ m_imperial m1 = false /\ m_imperial k1 = false.
Proof.
  intros m m1 k k1 s s' l l' H H' Hk E Hi Hi' Hn. unfold ext_of.
  pose proof (motion_step_raw _ _ _ _ H) as Hraw. cbn [raw new_line] in Hraw.
  destruct Hk as [->|(c & a & Hc & Hg & -> & Hf & Hae & He)].
  - rewrite Hraw in H'. destruct (command_name s) as [c|] eqn:Ec.
    + destruct (step_modes _ _ _ _ _ Ec H) as (_ & M2 & _). destruct (step_modes _ _ _ _ _ Ec H') as (_ & N2 & _).
      assert (Hc20 : c <> "G20"%string) by congruence.
      assert (Hle : l_e l' = l_e l).
      { destruct (motion_some _ _ _ _ _ Ec H) as (s1 & l1 & ext & U & (P1 & P2 & P3 & P4 & P5) & _ & ->).
        destruct (motion_some _ _ _ _ _ Ec H') as (s1' & l1' & ext' & U' & (Q1 & Q2 & Q3 & Q4 & Q5) & _ & ->).
        unfold l_e. cbn [largs set_notes]. destruct (first_is "G" c); [|congruence].
        destruct (modes_kept _ _ _ _ U eq_refl) as [_ V]. destruct (modes_kept _ _ _ _ U' eq_refl) as [_ V'].
        rewrite (V Hc20 Hi) in P5. rewrite (V' Hc20 Hi') in Q5. congruence. }
      destruct (extruder_step _ _ _ _ _ _ _ _ _ Ec Ec H H' E Hle) as [-> X].
      split; [reflexivity|]. split; [exact X|]. split; [apply M2; assumption|apply N2; assumption].
    + destruct (motion_none _ _ _ _ Ec H) as (-> & _ & _ & A3). destruct (motion_none _ _ _ _ Ec H') as (-> & _ & _ & B3).
      split; [|auto]. now rewrite A3, B3.
  - assert (Hgc : first_is "G" c = true /\ c <> "G20"%string /\ words c <> []).
    { destruct Hg as [Hg|Hg].
      - unfold is_motion in Hg. rewrite Hc in Hg. apply str_mem_in in Hg. cbn [In] in Hg.
        repeat (destruct Hg as [<-|Hg]; [split; [reflexivity|split; discriminate]|]). destruct Hg.
      - unfold is_command in Hg. rewrite Hc in Hg. apply String.eqb_eq in Hg. subst c. split; [reflexivity|split; discriminate]. }
    destruct Hgc as (Hg1 & Hg2 & Hg3).
    assert (Ec : command_name s = Some c) by (apply (named_command _ _ _ _ _ H Hc Hg3)).
    destruct (step_modes _ _ _ _ _ Ec H) as (_ & M2 & _).
    destruct (unsplit_reads s c a k Ec Hg1 Hg2 Hi' Hf) as (k2 & l2 & H2 & U1 & U2 & U3). rewrite H' in H2. apply ok_inj in H2. injection H2 as <- <-.
    assert (Ec' : command_name (unsplit_text c a) = Some c).
    { destruct (read_g_command s c Ec Hg1) as (v & sg & ip & pt & fp & -> & Hv). unfold command_name.
      rewrite (words_unsplit _ _ _ _ _ _ Hv Hf). reflexivity. }
    destruct (step_modes _ _ _ _ _ Ec' H') as (_ & N2 & _).
    assert (Hle : l_e l' = l_e l).
    { unfold l_e at 1. rewrite U3. change (a_e (rounded_args a)) with (option_map (py_round 5) (a_e a)). rewrite Hae.
      destruct (l_e l) as [z|]; [|reflexivity]. cbn. now rewrite (He z eq_refl). }
    destruct (extruder_step _ _ _ _ _ _ _ _ _ Ec Ec' H H' E Hle) as [-> X].
    split; [reflexivity|]. split; [exact X|]. split; [apply M2; assumption|apply N2; assumption].
Qed.

Lemma twin_trace : forall ts pl (m m' : mstate A), trace m ts pl m' -> forall ts' pl' k k', trace k ts' pl' k' -> Forall2 twin pl ts' ->
  extruder_of k = extruder_of m -> m_imperial m = false -> m_imperial k = false ->
  Forall (fun s => command_name s <> Some "G20"%string) ts ->
  Forall2 (fun l l' => ext_of l' = ext_of l) pl pl' /\ extruder_of k' = extruder_of m'.
Proof.
  intros ts pl m m' H. induction H as [m|m s l m1 ts pl m' Hs Ht IH];
    intros ts' pl' k k' H' Hk E Hi Hi' Hn; inversion Hk as [|? sx ? tx Hk1 Hk2]; subst.
  - inversion H'; subst. split; [constructor|exact E].
  - inversion H' as [|? s1 l1 k1 ts2 pl2 ? Hs' Ht']; subst. inversion Hn; subst.
    destruct (twin_step _ _ _ _ _ _ _ _ Hs Hs' Hk1 E Hi Hi') as (S1 & S2 & S3 & S4); try assumption.
    destruct (IH _ _ _ _ Ht' Hk2 S2 S3 S4) as [I1 I2]; [assumption|]. split; [constructor; assumption|exact I2].
Qed.

Lemma load_twin : forall home home' data data' (g h : gcode A), load_gen false home data = Ok g -> load_gen false home' data' = Ok h ->
  Forall2 twin (g_lines g) (program_text data') ->
  Forall (fun s => command_name s <> Some "G20"%string) (program_text data) ->
  same_printing g h /\ g_filament h = g_filament g.
Proof.
  intros home home' data data' g h Hg Hh Ht Hn.
  assert (I : forall x : num A * num A * num A, m_imperial (init_mstate x) = false /\ extruder_of (init_mstate x) = (false, n0, n0, n0, n0)).
  { intros [[? ?] ?]. split; reflexivity. }
  assert (F : forall hm d (q : gcode A), load_gen false hm d = Ok q -> g_filament q = m_max (g_m q)).
  { intros hm d q Hq. destruct (load_btrace _ _ _ _ Hq) as (pl & ls & _ & G). rewrite G at 1. unfold finalize. destruct (ls_cur ls); reflexivity. }
  pose proof (F _ _ _ Hg) as F1. pose proof (F _ _ _ Hh) as F2.
  apply load_trace in Hg as (ls & T & L). apply load_trace in Hh as (ls' & T' & L'). rewrite (L eq_refl) in *. 
  destruct (twin_trace _ _ _ _ T _ _ _ _ T' Ht) as [E1 E2]; try apply I; [|exact Hn|].
  - rewrite (proj2 (I home)), (proj2 (I home')). reflexivity.
  - split; [unfold same_printing; rewrite (L eq_refl), (L' eq_refl); exact E1|]. rewrite F1, F2. unfold extruder_of in E2. congruence.
Qed.

(** what a filter that keeps E may do to a line *)
Definition exactly (l l' : line) : Prop := rewritten l -> finite_args (largs l') /\ forall e, l_e l = Some e -> py_round 5 e = e.

Lemma tr_twin : forall st (l : line), exactly l (answer tr_opcode st l) -> twin l (raw (answer tr_opcode st l)).
Proof.
  intros st l. unfold exactly, rewritten, answer, tr_opcode. rewrite !cmd_is_command, cmd_in_motion.
  destruct (is_motion l) eqn:Hm.
  - destruct (tr_absolute st) as [[|]|]; cbn [snd]; try (intros _; now left).
    destruct (shift_two (tr_x st) (tr_y st) l) as (S1 & _ & _ & _ & _ & S6 & [S|S]); cbv zeta in *; intros Hf; [rewrite S; now left|].
    destruct (Hf (or_introl eq_refl)) as [Hf1 Hf2].
    right. pose proof Hm as Hm2. unfold is_motion in Hm2. destruct (command l) as [c|] eqn:Ec; [|discriminate Hm2].
    eexists c, _. split; [reflexivity|]. split; [left; exact Hm|]. split; [exact S|]. split; [exact Hf1|].
    split; [apply (S6 LE); discriminate|exact Hf2].
  - destruct (is_command "G90" l); [intros _; now left|]. destruct (is_command "G91" l); [intros _; now left|].
    destruct (is_command "G92" l) eqn:H92; [|intros _; now left].
    pose proof H92 as H93. unfold is_command in H93. destruct (command l) as [c|] eqn:Ec; [|discriminate H93].
    destruct (no_xyz l); [|destruct (l_x l), (l_y l)];
      cbn [snd unsplit raw set_raw command set_arg set_args largs]; intros Hf; destruct (Hf (or_intror eq_refl)) as [Hf1 Hf2];
      right; exists c; eexists;
      (split; [exact Ec|]; split; [right; exact H92|]; split; [rewrite Ec; reflexivity|]; split; [exact Hf1|]; split; [reflexivity|exact Hf2]).
Qed.

Lemma translate_twin : forall home home' data x y (g g1 h : gcode A), load_gen false home data = Ok g ->
  translate x y g = Ok g1 -> load_gen false home' (write g1) = Ok h ->
  Forall (fun s => command_name s <> Some "G20"%string) (program_text data) ->
  Forall2 exactly (g_lines g) (all_lines g1) ->
  same_printing g h /\ g_filament h = g_filament g.
Proof.
  intros home home' data x y g g1 h Hg H1 Hh Hn Hf. destruct (translated_text _ _ _ _ _ _ Hg H1) as [Ha Ht].
  refine (load_twin home home' data (write g1) g h Hg Hh _ Hn).
  rewrite Ht, Ha in *. apply (answers_pair _ _ _ _ tr_twin), Hf.
Qed.

End Every.

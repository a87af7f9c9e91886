(** * P_ArcLayers: arcs leave the layers alone (C121) *)
From Coq Require Import List Ascii String ZArith NArith Bool Reals Lra Lia.
From Verif Require Import PyBase Arith ArithR ArithB64 Gcoder Filters Arc SpecText SpecLoad SpecMachine SpecFilter SpecArc SpecArcKept Samples.
From Verif Require Import P_Load P_Text P_Wf P_Machine P_Measure P_Layers P_Filter P_FilterMotion P_Compose P_LayersKept P_Arc P_ArcFit P_ArcPath P_ArcReload.
From Verif Require Import P_MachineRefuted P_FilterRefuted P_ArcErr P_ArcRefuted.
Import ListNotations.
Local Open Scope list_scope.
Notation lineR := (line RA).

(** ** Groups *)

Lemma swapped_app : forall a b, swapped a b -> forall c d, swapped c d -> swapped (a ++ c) (b ++ d).
Proof.
  intros a b H. induction H as [|s xs ys H IH|old new xs ys H1 H2 H3 H IH]; intros c d Hc.
  - exact Hc.
  - cbn. constructor. now apply IH.
  - rewrite <- !app_assoc. constructor; try assumption. now apply IH.
Qed.

Lemma swapped_nil : forall a b, swapped a b -> (a = [] <-> b = []).
Proof.
  intros a b H. destruct H as [|s xs ys H|old new xs ys H1 H2 H3 H]; [tauto|split; discriminate|].
  split; intros Hn; apply app_eq_nil in Hn as [Hn _]; subst; cbn in *; lia.
Qed.

(** ** Two loads side by side *)

Definition like (y y' : layer RA) : Prop :=
  ly_z y' = ly_z y /\ swapped (map raw (ly_lines y)) (map raw (ly_lines y')).

Record alike (a b : lstate RA) : Prop := Alike {
  al_last : ls_last_z b = ls_last_z a; al_prev : ls_prev_z b = ls_prev_z a;
  al_base : ls_prev_base b = ls_prev_base a; al_cur : ls_cur_z b = ls_cur_z a; al_est : ls_est b = ls_est a;
  al_lines : swapped (map raw (ls_cur a)) (map raw (ls_cur b));
  al_layers : Forall2 like (ls_layers a) (ls_layers b) }.

Lemma like_heights : forall ys ys', Forall2 like ys ys' -> map ly_z ys' = map ly_z ys.
Proof. intros ys ys' H. induction H as [|y y' ys ys' [H1 _] _ IH]; [reflexivity|]. cbn [map]. f_equal; assumption. Qed.

Lemma alike_base : forall a b, alike a b -> compute_base_z b = compute_base_z a.
Proof.
  intros a b H. unfold compute_base_z. rewrite (al_prev _ _ H), (al_last _ _ H), (al_est _ _ H).
  assert (He : estimate_layer_height (ls_layers b) = estimate_layer_height (ls_layers a)).
  { unfold estimate_layer_height. now rewrite (like_heights _ _ (al_layers _ _ H)). }
  now rewrite He.
Qed.

Lemma alike_update : forall a b, alike a b -> alike (update_layers a) (update_layers b).
Proof.
  intros a b H. unfold update_layers. rewrite (alike_base _ _ H), (al_cur _ _ H), (al_prev _ _ H), (al_base _ _ H).
  destruct (opt_eqb (ls_cur_z a) (ls_prev_z a)); [exact H|]. destruct (compute_base_z a) as [base est].
  destruct H as [H1 H2 H3 H4 H5 H6 H7].
  destruct (match ls_prev_base a with Some b0 => opt_eqb base b0 | None => false end);
    (constructor; cbn [ls_last_z ls_prev_z ls_prev_base ls_cur_z ls_est ls_cur ls_layers]; try assumption; try reflexivity).
  - constructor.
  - apply Forall2_app; [exact H7|]. constructor; [split; [reflexivity|exact H6]|constructor].
Qed.

Lemma alike_push : forall a b l l', alike a b -> raw l' = raw l -> alike (push_line l a) (push_line l' b).
Proof.
  intros a b l l' [H1 H2 H3 H4 H5 H6 H7] Hr.
  constructor; cbn [push_line ls_last_z ls_prev_z ls_prev_base ls_cur_z ls_est ls_cur ls_layers]; try assumption.
  rewrite !map_app. cbn [map]. rewrite Hr. apply swapped_app; [exact H6|]. constructor. constructor.
Qed.

Lemma alike_step : forall a b a1 b1 l l' mx mx', alike a b -> P_LayersKept.same_height l l' -> raw l' = raw l ->
  layer_step l mx a = Ok a1 -> layer_step l' mx' b = Ok b1 -> alike (push_line l a1) (push_line l' b1).
Proof.
  intros a b a1 b1 l l' mx mx' H [Hc Hz] Hr Ha Hb. apply alike_push; [|exact Hr]. unfold layer_step in *.
  destruct (command l) as [c|] eqn:Ec, (command l') as [c'|] eqn:Ec'.
  - unfold layer_body in *. destruct (update_bbox l mx a) as [p q]. destruct (update_bbox l' mx' b) as [p' q'].
    destruct (update_duration l (ls_d a)) as [d|e]; cbn [bind] in Ha; [|discriminate Ha].
    destruct (update_duration l' (ls_d b)) as [d'|e]; cbn [bind] in Hb; [|discriminate Hb].
    apply ok_inj in Ha, Hb. subst a1 b1. apply alike_update. destruct H as [H1 H2 H3 H4 H5 H6 H7].
    constructor; cbn [ls_last_z ls_prev_z ls_prev_base ls_cur_z ls_est ls_cur ls_layers]; try assumption.
    rewrite Hz, H4. reflexivity.
  - exfalso. destruct Hc as [_ Hc]. discriminate (Hc eq_refl).
  - exfalso. destruct Hc as [Hc _]. discriminate (Hc eq_refl).
  - injection Ha as <-. injection Hb as <-. exact H.
Qed.

(** ** Lines without a height *)

Definition still (a a1 : lstate RA) : Prop :=
  ls_last_z a1 = ls_last_z a /\ ls_prev_z a1 = ls_prev_z a /\ ls_prev_base a1 = ls_prev_base a /\
  ls_cur_z a1 = ls_cur_z a /\ ls_est a1 = ls_est a /\ ls_layers a1 = ls_layers a.

Lemma still_step : forall a a1 l mx, layer_step l mx a = Ok a1 -> l_z l = None -> ls_prev_z a = ls_cur_z a ->
  still a a1 /\ ls_cur a1 = ls_cur a.
Proof.
  intros a a1 l mx H Hz Hp. unfold layer_step in H. destruct (command l); [|injection H as <-; repeat split].
  unfold layer_body in H. destruct (update_bbox l mx a) as [p q].
  destruct (update_duration l (ls_d a)) as [d|e]; cbn [bind] in H; [|discriminate H]. apply ok_inj in H. subst a1.
  unfold update_cur_z. rewrite Hz. unfold update_layers. cbn [ls_cur_z ls_prev_z]. rewrite Hp.
  rewrite (opt_eqb_refl exactR). repeat split. symmetry; exact Hp.
Qed.

(** a line that leaves height and modes alone *)
Definition flat (s : string) : Prop :=
  match op_of s with
  | Move w _ _ => w Z = None
  | SetPosition w _ => w Z = None
  | _ => False
  end.

Lemma flat_z : forall (m m1 : mstate RA) s l, motion_step m (new_line s) = Ok (m1, l) -> flat s ->
  l_z l = None /\ m_relative m1 = m_relative m /\ m_imperial m1 = m_imperial m.
Proof.
  intros m m1 s l H Hf. destruct (motion_modes _ _ _ _ H) as (M1 & _ & M3 & _).
  assert (Hm : m_relative m1 = m_relative m /\ m_imperial m1 = m_imperial m).
  { rewrite M1, M3. unfold mode_rel, mode_inch, flat in *. destruct (op_of s); try contradiction; auto. }
  split; [|exact Hm]. clear M1 M3 Hm. unfold flat in Hf.
  destruct (command_name s) as [c|] eqn:Ec.
  2:{ unfold op_of in Hf. rewrite Ec in Hf. destruct Hf. }
  assert (Hz : number_of "z" (words s) = None /\ first_is "G" c = true).
  { unfold op_of in Hf. rewrite Ec in Hf.
    destruct (str_mem c ["G0"; "G1"; "G2"; "G3"]%string) eqn:Em.
    - apply str_mem_in in Em. cbn [In] in Em. split; [exact Hf|].
      repeat (destruct Em as [<-|Em]; [reflexivity|]). destruct Em.
    - destruct (String.eqb c "G28"); [destruct Hf|]. destruct (String.eqb c "G92") eqn:E92.
      + apply String.eqb_eq in E92. subst c. split; [exact Hf|reflexivity].
      + exfalso. repeat match type of Hf with context [if ?b then _ else _] => destruct b; [exact Hf|] end.
        destruct c as [|d t]; [exact Hf|]. revert Hf. all_chars d; intros Hf; exact Hf. }
  destruct Hz as [Hz Hg].
  destruct (motion_some _ _ _ _ _ Ec H) as (s1 & l1 & ext & _ & P1 & _ & ->).
  pose proof (parsed_arg exactR _ _ _ _ LZ P1 Hg) as Ha. cbn [letter_code] in Ha. rewrite Hz in Ha.
  unfold l_z. cbn [largs set_notes]. cbn [get_arg] in Ha. destruct (a_z (largs l1)); [discriminate Ha|reflexivity].
Qed.

Lemma flat_run : forall ts pl (m m' : mstate RA) a a', btrace false m a ts pl m' a' -> Forall flat ts ->
  ls_prev_z a = ls_cur_z a ->
  still a a' /\ map raw (ls_cur a') = map raw (ls_cur a) ++ ts /\ ls_prev_z a' = ls_cur_z a' /\
  m_relative m' = m_relative m /\ m_imperial m' = m_imperial m.
Proof.
  intros ts pl m m' a a' H. induction H as [m a|m a s l m1 a1 ts pl m' a' Hs Hb Ht IH]; intros Hf Hp.
  - rewrite app_nil_r. repeat split. exact Hp.
  - inversion Hf as [|? ? F1 F2]; subst. destruct (flat_z _ _ _ _ Hs F1) as (Z1 & Z2 & Z3).
    destruct (still_step _ _ _ _ Hb Z1 Hp) as [(S1 & S2 & S3 & S4 & S5 & S6) S7].
    destruct (IH F2 eq_refl) as ((T1 & T2 & T3 & T4 & T5 & T6) & T7 & T8 & T9 & T10).
    cbn [push_line ls_last_z ls_prev_z ls_prev_base ls_cur_z ls_est ls_cur ls_layers store] in *.
    split; [unfold still; repeat split; congruence|]. split; [|split; [exact T8|split; congruence]].
    rewrite T7, S7, map_app, <- app_assoc. cbn [map app].
    pose proof (motion_step_raw _ _ _ _ Hs) as Hr. cbn [raw new_line] in Hr. rewrite Hr. reflexivity.
Qed.

Lemma btrace_cut_at : forall pl1 pl2 ts (m m' : mstate RA) a a', btrace false m a ts (pl1 ++ pl2) m' a' ->
  exists ts1 ts2 m1 a1, ts = ts1 ++ ts2 /\ List.length ts1 = List.length pl1 /\
    btrace false m a ts1 pl1 m1 a1 /\ btrace false m1 a1 ts2 pl2 m' a'.
Proof.
  induction pl1 as [|l pl1 IH]; intros pl2 ts m m' a a' H; cbn [app] in H.
  - exists [], ts, m, a. repeat split; [constructor|exact H].
  - inversion H as [|? ? s ? m1 a1 ts2 ? ? ? Hs Hb Ht]; subst.
    destruct (IH _ _ _ _ _ _ Ht) as (t1 & t2 & m2 & a2 & -> & Hl & B1 & B2).
    exists (s :: t1), t2, m2, a2. split; [reflexivity|]. split; [cbn; congruence|]. split; [|exact B2].
    econstructor; eassumption.
Qed.

Lemma btrace_text_at : forall ts1 ts2 pl (m m' : mstate RA) a a', btrace false m a (ts1 ++ ts2) pl m' a' ->
  exists pl1 pl2 m1 a1, btrace false m a ts1 pl1 m1 a1 /\ btrace false m1 a1 ts2 pl2 m' a'.
Proof.
  induction ts1 as [|s ts1 IH]; intros ts2 pl m m' a a' H; cbn [app] in H.
  - exists [], pl, m, a. split; [constructor|exact H].
  - inversion H as [|? ? ? l m1 a1 ? pl2 ? ? Hs Hb Ht]; subst.
    destruct (IH _ _ _ _ _ _ Ht) as (p1 & p2 & m2 & a2 & B1 & B2).
    exists (l :: p1), p2, m2, a2. split; [|exact B2]. econstructor; eassumption.
Qed.

(** the same line read in the same modes *)
Lemma same_text_step : forall (m m1 k k1 : mstate RA) s l l', motion_step m (new_line s) = Ok (m1, l) ->
  motion_step k (new_line s) = Ok (k1, l') -> m_relative k = m_relative m -> m_imperial k = m_imperial m ->
  P_LayersKept.same_height l l' /\ raw l' = raw l /\ m_relative k1 = m_relative m1 /\ m_imperial k1 = m_imperial m1.
Proof.
  intros m m1 k k1 s l l' H H' Hr Hi.
  destruct (motion_modes _ _ _ _ H) as (M1 & _ & M3 & M4 & M5 & _).
  destruct (motion_modes _ _ _ _ H') as (N1 & _ & N3 & N4 & N5 & _).
  split; [|split; [rewrite (motion_step_raw _ _ _ _ H), (motion_step_raw _ _ _ _ H'); reflexivity|split; congruence]].
  destruct (command_name s) as [c|] eqn:Ec.
  - apply heights_of; try congruence.
    + destruct (step_modes _ _ _ _ _ Ec H) as (_ & _ & C1 & _). destruct (step_modes _ _ _ _ _ Ec H') as (_ & _ & C2 & _). congruence.
    + destruct (motion_some _ _ _ _ _ Ec H) as (s1 & l1 & ext & U & (P1 & P2 & P3 & P4 & P5) & _ & ->).
      destruct (motion_some _ _ _ _ _ Ec H') as (s1' & l1' & ext' & U' & (Q1 & Q2 & Q3 & Q4 & Q5) & _ & ->).
      unfold l_z. cbn [largs set_notes]. destruct (first_is "G" c); [|congruence].
      destruct (update_modes_modes _ _ _ _ Ec U) as (_ & _ & V & _).
      destruct (update_modes_modes _ _ _ _ Ec U') as (_ & _ & V' & _). rewrite V in P5. rewrite V', Hi in Q5. congruence.
    + intros Hm. rewrite M5, N5, Hr. rewrite N4, <- M4. reflexivity.
  - destruct (motion_none _ _ _ _ Ec H) as (_ & A1 & A2 & _). destruct (motion_none _ _ _ _ Ec H') as (_ & B1 & B2 & _).
    apply heights_of; unfold l_z; try congruence.
    rewrite (unnamed _ _ _ _ Ec H), (unnamed _ _ _ _ Ec H'). reflexivity.
Qed.

(** ** The runs *)

Lemma run_flat : forall pl ts (m m' : mstate RA) a a', btrace false m a ts pl m' a' -> Forall level_extrusion ts ->
  Forall (fun l : lineR => is_motion l = true /\ l_e l <> None) pl -> Forall flat ts.
Proof.
  intros pl ts m m' a a' H. induction H as [m a|m a s l m1 a1 ts pl m' a' Hs Hb Ht IH]; intros Hv Hm; [constructor|].
  inversion Hv as [|? ? V1 V2]; subst. inversion Hm as [|? ? [M1 M2] Hm']; subst.
  constructor; [|now apply IH].
  assert (Hc : exists c, command l = Some c /\ str_mem c ["G0"; "G1"; "G2"; "G3"]%string = true).
  { unfold is_motion in M1. destruct (command l) as [c|]; [eauto|discriminate M1]. }
  destruct Hc as (c & Hc & Hcm).
  assert (Hcn : command_name s = Some c).
  { apply (named_command _ _ _ _ _ Hs Hc). apply str_mem_in in Hcm. cbn [In] in Hcm.
    repeat (destruct Hcm as [<-|Hcm]; [discriminate|]). destruct Hcm. }
  assert (Hg : first_is "G" c = true).
  { pose proof Hcm as Hcm2. apply str_mem_in in Hcm2. cbn [In] in Hcm2. repeat (destruct Hcm2 as [<-|Hcm2]; [reflexivity|]). destruct Hcm2. }
  unfold flat, level_extrusion, op_of in *. rewrite Hcn, Hcm in *. destruct V1 as [V1|V1]; [exact V1|].
  exfalso. apply M2. destruct (motion_some _ _ _ _ _ Hcn Hs) as (s1 & l1 & ext & _ & P1 & _ & ->).
  pose proof (parsed_arg exactR _ _ _ _ LE P1 Hg) as Ha. cbn [letter_code] in Ha. rewrite V1 in Ha.
  unfold l_e. cbn [largs set_notes]. cbn [get_arg] in Ha. destruct (a_e (largs l1)); [discriminate Ha|reflexivity].
Qed.

Lemma gen_flat : forall first run' gen, produced first run' gen -> t_e (lnotes (last run' first)) <> None ->
  Forall flat (map raw gen).
Proof.
  intros first run' gen (_ & c & e & rel & f & n & fix_ & -> & Hfix) He. cbn [map]. constructor.
  - unfold flat. destruct (arc_text_op c e rel f n) as (w & e' & f' & Ho & _ & _ & W3). rewrite Ho. exact W3.
  - destruct Hfix as [-> |(r & ->)]; [constructor|]. cbn [map]. constructor; [|constructor].
    destruct (t_e (lnotes (last run' first))) as [x|]; [|congruence].
    destruct (fix_text_op x r) as (w2 & e2 & Ho2 & Hw). unfold flat. rewrite Ho2. apply Hw.
Qed.

Lemma layers_kept : forall n ins outs, replaced produced n ins outs ->
  Forall (fun l => command l <> None -> t_e (lnotes l) <> None) ins ->
  forall ts (m m' k k' : mstate RA) a a' b b' pl', btrace false m a ts ins m' a' ->
  btrace false k b (map raw outs) pl' k' b' -> Forall level_extrusion ts ->
  m_relative k = m_relative m -> m_imperial k = m_imperial m -> alike a b -> ls_prev_z a = ls_cur_z a -> alike a' b'.
Proof.
  intros n ins outs H.
  induction H as [|n l l' ins outs Hs H IH|n l l' mv mv' gen next outs Hs Hrun HR Hn H IH];
    intros He ts m m' k k' a a' b b' pl' B B' Hv Hr Hi Ha Hp.
  - inversion B; subst. inversion B'; subst. exact Ha.
  - inversion B as [|? ? s ? m1 a1 ts2 ? ? ? Ms Lb Bt]; subst.
    cbn [map] in B'. inversion B' as [|? ? ? l2 k1 b1 ? pl2 ? ? Ms' Lb' Bt']; subst.
    inversion Hv as [|? ? V1 V2]; subst. inversion He as [|? ? E1 E2]; subst.
    assert (Hraw : raw l' = s) by (rewrite (proj1 Hs); apply (motion_step_raw _ _ _ _ Ms)).
    rewrite Hraw in Ms'. destruct (same_text_step _ _ _ _ _ _ _ Ms Ms' Hr Hi) as (S1 & S2 & S3 & S4).
    refine (IH E2 _ _ _ _ _ _ _ _ _ _ Bt Bt' V2 S3 S4 _ _); [|reflexivity].
    cbn [store]. exact (alike_step _ _ _ _ _ _ _ _ Ha S1 S2 Lb Lb').
  - inversion B as [|? ? s ? m1 a1 ts2 ? ? ? Ms Lb Bt]; subst.
    cbn [map] in B'. inversion B' as [|? ? ? l2 k1 b1 ? pl2 ? ? Ms' Lb' Bt']; subst.
    inversion Hv as [|? ? V1 V2]; subst. inversion He as [|? ? E1 E2]; subst. apply Forall_app in E2 as [E2 E3].
    assert (Hraw : raw l' = s) by (rewrite (proj1 Hs); apply (motion_step_raw _ _ _ _ Ms)).
    rewrite Hraw in Ms'. destruct (same_text_step _ _ _ _ _ _ _ Ms Ms' Hr Hi) as (S1 & S2 & S3 & S4).
    pose proof (alike_step _ _ _ _ _ _ _ _ Ha S1 S2 Lb Lb') as Ha1.
    assert (Hmv : Forall (fun l : lineR => is_motion l = true /\ l_e l <> None) mv') by (destruct HR as [HR _]; apply HR).
    assert (Hlen : (8 <= List.length mv')%nat) by (destruct HR as [HR _]; apply HR).
    pose proof (same_run _ _ Hrun Hmv) as Hsame. subst mv'.
    cbn [store] in Bt, Bt'. destruct (btrace_cut_at _ _ _ _ _ _ _ Bt) as (ts1 & ts3 & m2 & a2 & -> & Hl & B1 & B2).
    rewrite map_app in Bt'. destruct (btrace_text_at _ _ _ _ _ _ _ Bt') as (q1 & q2 & k2 & b2 & C1 & C2).
    apply Forall_app in V2 as [V2 V3].
    assert (Hlast : In (last mv l') mv).
    { destruct mv as [|x mv]; [cbn in Hlen; lia|]. clear. revert x. induction mv as [|y mv IHm]; intros x; [now left|].
      right. exact (IHm y). }
    assert (Hte : t_e (lnotes (last mv l')) <> None).
    { rewrite Forall_forall in E2, Hmv. apply (E2 _ Hlast). destruct (Hmv _ Hlast) as [M1 _]. unfold is_motion in M1.
      destruct (command (last mv l')); [discriminate|discriminate M1]. }
    pose proof (run_flat _ _ _ _ _ _ B1 V2 Hmv) as F1. pose proof (gen_flat _ _ _ HR Hte) as F2.
    destruct (flat_run _ _ _ _ _ _ B1 F1 eq_refl) as ((X1 & X2 & X3 & X4 & X5 & X6) & X7 & X8 & X9 & X10).
    destruct (flat_run _ _ _ _ _ _ C1 F2 eq_refl) as ((Y1 & Y2 & Y3 & Y4 & Y5 & Y6) & Y7 & Y8 & Y9 & Y10).
    destruct (gen_text _ _ _ HR) as [G1 G2]. destruct Ha1 as [Z1 Z2 Z3 Z4 Z5 Z6 Z7].
    refine (IH E3 _ _ _ _ _ _ _ _ _ _ B2 C2 V3 _ _ _ X8); try congruence.
    constructor; try congruence.
    rewrite X7, Y7. apply swapped_app; [exact Z6|].
    rewrite <- (app_nil_r ts1), <- (app_nil_r (map raw gen)). constructor; [lia|lia|exact G2|constructor].
Qed.

Lemma finalize_alike : forall (m k : mstate RA) a b o o', alike a b ->
  layers_swapped (finalize false m a o) (finalize false k b o').
Proof.
  intros m k a b o o' [H1 H2 H3 H4 H5 H6 H7]. unfold layers_swapped, finalize.
  assert (Hn : ls_cur a = [] <-> ls_cur b = []).
  { destruct (swapped_nil _ _ H6) as [N1 N2]. split; intros Hx; rewrite Hx in *; cbn in *.
    - specialize (N1 eq_refl). destruct (ls_cur b); [reflexivity|discriminate N1].
    - specialize (N2 eq_refl). destruct (ls_cur a); [reflexivity|discriminate N2]. }
  assert (Hend : like (Layer [] None n0) (Layer [] None n0)) by (split; [reflexivity|constructor]).
  destruct (ls_cur a) as [|c cs] eqn:E, (ls_cur b) as [|c' cs'] eqn:E'.
  - cbn [g_layers]. apply Forall2_app; [exact H7|]. constructor; [exact Hend|constructor].
  - exfalso. destruct Hn as [Hq _]. discriminate (Hq eq_refl).
  - exfalso. destruct Hn as [_ Hq]. discriminate (Hq eq_refl).
  - cbn [g_layers]. apply Forall2_app; [apply Forall2_app; [exact H7|]|]; (constructor; [|constructor]); [|exact Hend].
    split; [exact H2|exact H6].
Qed.

Lemma arcs_layers : forall home home' data (g g' : gcode RA), load_gen false home data = Ok g ->
  Forall (fun s => feed_ok s = true) (program_text data) -> optimize_arcs g = Ok g' ->
  Forall level_extrusion (program_text data) ->
  exists h, load_gen (A:=RA) false home' (write g') = Ok h /\ layers_swapped g h.
Proof.
  intros home home' data g g' Hg Hf H Hv.
  destruct (arcs_reload false home home' data g g' Hg Hf H) as (Ht & h & Hh). exists h. split; [exact Hh|].
  destruct (load_btrace _ _ _ _ Hg) as (pl & ls & B & G). destruct (load_btrace _ _ _ _ Hh) as (pl' & ls' & B' & G').
  rewrite Ht in B'. rewrite map_store_false in G, G'.
  assert (L : all_lines g = pl) by (rewrite (load_all_lines _ _ _ _ Hg), G; apply finalize_lines).
  destruct (arcs_produced _ _ _ _ Hg H) as [n Hn].
  destruct (load_noted _ _ _ Hg) as [e He]. pose proof (noted_e _ _ He) as Hte. rewrite L in Hn, Hte.
  rewrite G, G'. apply finalize_alike.
  refine (layers_kept _ _ _ Hn Hte _ _ _ _ _ _ _ _ _ _ B B' Hv _ _ _ eq_refl).
  - destruct home as [[? ?] ?], home' as [[? ?] ?]. reflexivity.
  - destruct home as [[? ?] ?], home' as [[? ?] ?]. reflexivity.
  - constructor; try reflexivity; constructor.
Qed.

(** ** An extruding move with a Z word *)

Lemma arc_layers_refuted :
  exists g g' : gcode B64, load_gen false home0 arc_lifted = Ok g /\ optimize_arcs g = Ok g' /\
    List.length (g_layers g) = 3 /\
    exists h, load_gen (A:=B64) false home0 (write g') = Ok h /\ List.length (g_layers h) = 2.
Proof.
  eexists _, _. split; [apply loadF_ok; vm_compute; reflexivity|]. split; [apply arcF_ok; vm_compute; reflexivity|].
  split; [vm_compute; reflexivity|]. eexists. split; [apply loadF_ok; vm_compute; reflexivity|vm_compute; reflexivity].
Qed.

(** * P_ArcTime: arcs take no time (C128) *)
From Coq Require Import List Ascii String ZArith NArith Bool Lia.
From Verif Require Import PyBase Arith Gcoder SpecText SpecLoad SpecMachine SpecArcTime.
From Verif Require Import P_Load P_Text P_Wf P_Machine P_FilesText.
Import ListNotations.
Local Open Scope list_scope.

Section Any.
Context {A : arith}.

(** the modes of the two states are the same *)
Definition agree (m m' : mstate A) : Prop :=
  m_imperial m = m_imperial m' /\ m_relative m = m_relative m' /\ m_relative_e m = m_relative_e m'.

Lemma modes_agree : forall c mv (m m' m1 : mstate A), agree m m' -> update_modes c mv m = Ok m1 ->
  exists m1', update_modes c mv m' = Ok m1' /\ agree m1 m1'.
Proof.
  intros c mv m m' m1 (H1 & H2 & H3) H. unfold update_modes in *.
  destruct mv; [injection H as <-; exists m'; split; [reflexivity|split; [exact H1|split; [exact H2|exact H3]]]|].
  repeat match type of H with context [if String.eqb c ?x then _ else _] =>
    destruct (String.eqb c x);
    [injection H as <-; eexists; split; [reflexivity|];
     unfold agree, set_modes; cbn [m_imperial m_relative m_relative_e]; rewrite ?H1, ?H2, ?H3; split; [|split]; reflexivity|] end.
  destruct c as [|d t]; [injection H as <-; exists m'; split; [reflexivity|split; [exact H1|split; [exact H2|exact H3]]]|].
  destruct (Ascii.eqb d "T") eqn:Ed.
  - apply Ascii.eqb_eq in Ed. subst d. destruct (py_int t) as [z|]; [|discriminate H].
    injection H as <-. eexists. split; [reflexivity|]. unfold agree, set_tool. cbn [m_imperial m_relative m_relative_e].
    split; [exact H1|split; [exact H2|exact H3]].
  - exists m'. split; [clear H; all_chars d; try reflexivity; discriminate Ed|].
    assert (Hm : m1 = m) by (clear - H Ed; all_chars d; try congruence; discriminate Ed). subst m1.
    split; [exact H1|split; [exact H2|exact H3]].
Qed.

Lemma position_agree : forall (l : line A) m m', agree m m' -> agree (update_position l m) (update_position l m').
Proof.
  intros l m m' (H1 & H2 & H3). destruct (update_position_fixed l m) as (F1 & F2 & F3 & _).
  destruct (update_position_fixed l m') as (G1 & G2 & G3 & _). unfold agree. rewrite F1, F2, F3, G1, G2, G3.
  split; [exact H1|split; [exact H2|exact H3]].
Qed.

(** what the clock sees of a line *)
Definition timed (l : line A) : string * option string * args A * option bool * option bool :=
  (raw l, command l, largs l, t_relative (lnotes l), t_relative_e (lnotes l)).

Lemma duration_timed : forall (l l' : line A) d, timed l = timed l' -> update_duration l d = update_duration l' d.
Proof.
  intros l l' d H. injection H as H1 H2 H3 H4 H5. unfold update_duration, move_duration, find_specific_code.
  unfold l_x, l_y, l_z, l_e, l_f. rewrite H1, H2, H3, H4, H5. reflexivity.
Qed.

Lemma motion_agree : forall (t : line A) m m' m1 l, agree m m' -> motion_step m t = Ok (m1, l) ->
  exists m1' l', motion_step m' t = Ok (m1', l') /\ agree m1 m1' /\ timed l = timed l'.
Proof.
  intros t m m' m1 l Ha H. unfold motion_step in *. destruct (split t) as [l0 toks].
  destruct (command l0) as [c|]; [|injection H as <- <-; exists m', l0; split; [reflexivity|split; [exact Ha|reflexivity]]].
  destruct (update_modes c (is_move l0) m) as [s1|e] eqn:E1; cbn [bind] in H; [|discriminate H].
  destruct (modes_agree _ _ _ _ _ Ha E1) as (s1' & E1' & Ha1). rewrite E1'. cbn [bind].
  pose proof Ha1 as (I1 & R1 & R2). rewrite <- I1.
  destruct (parse_coordinates (m_imperial s1) toks l0) as [l1|e]; cbn [bind] in *; [|discriminate H].
  pose proof (position_agree l1 _ _ Ha1) as (P1 & P2 & P3).
  destruct (update_extrusion l1 (update_position l1 s1)) as [x s3] eqn:E3.
  destruct (update_extrusion l1 (update_position l1 s1')) as [x' s3'] eqn:E3'.
  destruct (update_extrusion_fixed _ _ _ _ E3) as (F1 & F2 & F3 & _).
  destruct (update_extrusion_fixed _ _ _ _ E3') as (G1 & G2 & G3 & _).
  injection H as <- <-. eexists _, _. split; [reflexivity|]. split.
  - unfold agree. rewrite F1, F2, F3, G1, G2, G3. split; [exact P1|split; [exact P2|exact P3]].
  - unfold timed. cbn [raw command largs set_notes lnotes t_relative t_relative_e]. rewrite R1, R2. reflexivity.
Qed.

Lemma arc_timeless : forall s (m m1 : mstate A) l d, is_arc s = true -> motion_step m (new_line s) = Ok (m1, l) ->
  agree m m1 /\ update_duration l d = Ok d.
Proof.
  intros s m m1 l d Hs H. unfold is_arc in Hs. destruct (command_name s) as [c|] eqn:Hc; [|discriminate Hs].
  destruct (motion_some _ _ _ _ _ Hc H) as (s1 & l1 & ext & H1 & H2 & H3 & ->).
  destruct (update_extrusion_fixed _ _ _ _ H3) as (F1 & F2 & F3 & _).
  destruct (update_position_fixed l1 s1) as (G1 & G2 & G3 & _). destruct H2 as (_ & Hcm & _).
  unfold agree, update_duration. cbn [command set_notes]. rewrite Hcm, F1, F2, F3, G1, G2, G3.
  apply orb_true_iff in Hs as [Hs|Hs]; apply String.eqb_eq in Hs; subst c; injection H1 as <-;
    (split; [split; [|split]; reflexivity|reflexivity]).
Qed.

Lemma body_duration : forall (l : line A) mx s s', layer_body l mx s = Ok s' -> update_duration l (ls_d s) = Ok (ls_d s').
Proof.
  intros l mx s s' H. unfold layer_body in H. destruct (update_bbox l mx s) as [bb bbe].
  destruct (update_duration l (ls_d s)) as [d|e]; cbn [bind] in H; [|discriminate H]. injection H as <-.
  rewrite update_layers_d. reflexivity.
Qed.

Lemma body_runs : forall (l : line A) mx s d, update_duration l (ls_d s) = Ok d ->
  exists s', layer_body l mx s = Ok s' /\ ls_d s' = d.
Proof.
  intros l mx s d H. unfold layer_body. destruct (update_bbox l mx s) as [bb bbe]. rewrite H. cbn [bind].
  eexists. split; [reflexivity|]. rewrite update_layers_d. reflexivity.
Qed.

Lemma build_without : forall light ts m ls out m1 ls1 out1,
  foldM (build_step light) (map new_line ts) (m, ls, out) = Ok (m1, ls1, out1) ->
  forall (m' : mstate A) ls' out', agree m m' -> ls_d ls = ls_d ls' ->
  exists m1' ls1' out1', foldM (build_step light) (map new_line (filter (fun s => negb (is_arc s)) ts)) (m', ls', out') = Ok (m1', ls1', out1') /\
    ls_d ls1 = ls_d ls1'.
Proof.
  intros light ts. induction ts as [|t ts IH]; intros m ls out m1 ls1 out1 H m' ls' out' Ha Hd.
  - cbn in *. injection H as <- <- <-. eexists _, _, _. split; [reflexivity|exact Hd].
  - cbn [map foldM filter] in *. unfold build_step at 1 in H.
    destruct (motion_step m (new_line t)) as [[s l]|e] eqn:Em; cbn [bind] in H; [|discriminate H].
    destruct (match command l with Some _ => layer_body l (m_max s) ls | None => Ok ls end) as [ls2|e] eqn:El; cbn [bind] in H; [|discriminate H].
    destruct (is_arc t) eqn:Ht; cbn [negb map foldM].
    + destruct (arc_timeless _ _ _ _ (ls_d ls) Ht Em) as [(A1 & A2 & A3) Ed].
      apply (IH _ _ _ _ _ _ H).
      * destruct Ha as (B1 & B2 & B3). split; [congruence|split; congruence].
      * cbn [push_line ls_d]. rewrite <- Hd.
        destruct (command l); [apply body_duration in El; congruence|injection El as <-; reflexivity].
    + destruct (motion_agree _ _ _ _ _ Ha Em) as (s' & l' & Em' & Ha' & Htl).
      unfold build_step at 1. rewrite Em'. cbn [bind].
      assert (Hc : command l' = command l) by (injection Htl; congruence). rewrite Hc.
      assert (Hb : exists ls2', match command l with Some _ => layer_body l' (m_max s') ls' | None => Ok ls' end = Ok ls2' /\ ls_d ls2 = ls_d ls2').
      { destruct (command l) as [c|].
        - apply body_duration in El. rewrite Hd, (duration_timed _ _ _ Htl) in El.
          destruct (body_runs l' (m_max s') ls' _ El) as (ls2' & E2 & E3). exists ls2'. split; [exact E2|congruence].
        - injection El as <-. exists ls'. split; [reflexivity|exact Hd]. }
      destruct Hb as (ls2' & E2 & E3). rewrite E2. cbn [bind].
      apply (IH _ _ _ _ _ _ H); [exact Ha'|exact E3].
Qed.

Lemma without_text : forall data, program_text (without_arcs data) = without_arcs data.
Proof.
  intros data. unfold without_arcs. pose proof (program_text_again data) as H.
  assert (Hall : Forall (fun s => blank s = false /\ strip s = s) (program_text data)).
  { unfold program_text. apply Forall_forall. intros s Hs. apply in_map_iff in Hs as (u & <- & Hu).
    apply filter_In in Hu as [_ Hu]. apply negb_true_iff in Hu. split; [|apply strip_twice].
    rewrite <- is_empty_strip, strip_twice, is_empty_strip. exact Hu. }
  clear H. induction (program_text data) as [|s ss IH]; [reflexivity|].
  inversion Hall as [|? ? [Hs1 Hs2] Hss]; subst. cbn [filter]. destruct (negb (is_arc s)); [|exact (IH Hss)].
  unfold program_text in *. cbn [filter]. rewrite Hs1. cbn [negb map]. rewrite Hs2, (IH Hss). reflexivity.
Qed.

Lemma load_total : forall light home data (g : gcode A), load_gen light home data = Ok g ->
  exists m ls out, foldM (build_step light) (map new_line (program_text data)) (init_mstate home, init_lstate, []) = Ok (m, ls, out) /\
    g_total g = d_total (ls_d ls).
Proof.
  intros light home data g H. unfold load_gen in H. destruct data as [|s data].
  - injection H as <-. eexists _, _, _. split; reflexivity.
  - rewrite clean_lines_text in H.
    destruct (foldM _ _ _) as [[[m ls] out]|e]; cbn [bind] in H; [|discriminate H]. injection H as <-.
    exists m, ls, out. split; [reflexivity|]. unfold finalize. destruct (ls_cur ls); reflexivity.
Qed.

Lemma arcs_timeless : forall light home data (g : gcode A), load_gen light home data = Ok g ->
  exists g', load_gen light home (without_arcs data) = Ok g' /\ g_total g' = g_total g.
Proof.
  intros light home data g H. destruct (load_total _ _ _ _ H) as (m & ls & out & Hf & Ht).
  destruct (build_without _ _ _ _ _ _ _ _ Hf (init_mstate home) init_lstate []) as (m' & ls' & out' & Hf' & Hd);
    [split; [|split]; reflexivity|reflexivity|].
  assert (HL : exists g', load_gen light home (without_arcs data) = Ok g').
  { destruct (without_arcs data) as [|s ss] eqn:Ew; [eexists; reflexivity|].
    unfold load_gen. rewrite clean_lines_text, <- Ew, without_text. unfold without_arcs. rewrite Hf'. cbn [bind]. eexists. reflexivity. }
  destruct HL as (g' & HL). exists g'. split; [exact HL|].
  destruct (load_total _ _ _ _ HL) as (m2 & ls2 & out2 & Hf2 & Ht2). rewrite without_text in Hf2. unfold without_arcs in Hf2.
  rewrite Hf' in Hf2. injection Hf2 as <- <- <-. congruence.
Qed.

End Any.

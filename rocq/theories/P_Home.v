(** * P_Home: what the home position changes (C130) *)
From Coq Require Import List Ascii String ZArith NArith Bool Lia.
From Verif Require Import PyBase Arith Gcoder SpecText SpecLoad SpecMachine SpecHome.
From Verif Require Import P_Load P_Text P_Wf P_Machine P_FilesText P_Idle.
Import ListNotations.
Local Open Scope list_scope.

Section Any.
Context {A : arith}.

(** ** Programs without G28 *)

Lemma modes_home : forall h c mv (m : mstate A),
  update_modes c mv (at_home h m) = match update_modes c mv m with Ok m1 => Ok (at_home h m1) | Err e => Err e end.
Proof.
  intros [[hx hy] hz] c mv m. unfold update_modes. destruct mv; [reflexivity|].
  repeat match goal with |- context [if String.eqb c ?x then _ else _] => destruct (String.eqb c x); [reflexivity|] end.
  destruct c as [|d t]; [reflexivity|]. destruct (Ascii.eqb d "T") eqn:Ed.
  - apply Ascii.eqb_eq in Ed. subst d. destruct (py_int t) as [z|]; reflexivity.
  - all_chars d; try reflexivity; discriminate Ed.
Qed.

Lemma position_home : forall h (l : line A) m, cmd_is (command l) "G28" = false ->
  update_position l (at_home h m) = at_home h (update_position l m).
Proof.
  intros [[hx hy] hz] l m Hc. unfold update_position. rewrite Hc. destruct (is_move l).
  - destruct (l_f l); reflexivity.
  - destruct (cmd_is (command l) "G92"); reflexivity.
Qed.

Lemma extrusion_home : forall h (l : line A) m,
  update_extrusion l (at_home h m) = let '(x, m1) := update_extrusion l m in (x, at_home h m1).
Proof.
  intros [[hx hy] hz] l m. unfold update_extrusion. destruct (l_e l); [|reflexivity].
  destruct (is_move l); [destruct m as [? ? [|] ? ? ? ? ? ? ? ? ? ? ? ? ? ? ?]; reflexivity|].
  destruct (cmd_is (command l) "G92"); reflexivity.
Qed.

Lemma not_home : forall s (m m1 : mstate A) l, goes_home s = false -> motion_step m (new_line s) = Ok (m1, l) ->
  cmd_is (command l) "G28" = false.
Proof.
  intros s m m1 l Hs H. unfold goes_home in Hs. destruct (command_name s) as [c|] eqn:Hc.
  - destruct (motion_some _ _ _ _ _ Hc H) as (s1 & l1 & ext & H1 & (_ & Hcm & _) & H3 & ->).
    cbn [command set_notes]. rewrite Hcm. exact Hs.
  - destruct (command_name_none s Hc) as [Hw|[t Hw]].
    + assert (Hr : recognised s = false) by (unfold recognised; rewrite Hw; reflexivity).
      destruct (unrecognised_step m s Hr) as (l' & E1 & _ & _ & E2). rewrite E1 in H. injection H as _ <-.
      rewrite E2. cbn [cmd_is]. apply String.eqb_neq. intros ->. discriminate Hw.
    + rewrite (no_command_step m s t Hw) in H. injection H as _ <-. reflexivity.
Qed.

Lemma motion_home : forall h s (m m1 : mstate A) l, goes_home s = false -> motion_step m (new_line s) = Ok (m1, l) ->
  motion_step (at_home h m) (new_line s) = Ok (at_home h m1, l).
Proof.
  intros h s m m1 l Hs H. pose proof (not_home _ _ _ _ Hs H) as Hc. unfold motion_step in *.
  destruct (split (new_line s)) as [l0 toks] eqn:Es. destruct (command l0) as [c|]; [|injection H as <- <-; reflexivity].
  rewrite modes_home. destruct (update_modes c (is_move l0) m) as [s1|e]; cbn [bind] in *; [|discriminate H].
  replace (m_imperial (at_home h s1)) with (m_imperial s1) by (destruct h as [[? ?] ?]; reflexivity).
  destruct (parse_coordinates (m_imperial s1) toks l0) as [l1|e]; cbn [bind] in *; [|discriminate H].
  assert (Hl : cmd_is (command l1) "G28" = false).
  { destruct (update_extrusion l1 (update_position l1 s1)) as [x s3]. injection H as _ <-. exact Hc. }
  rewrite (position_home h _ _ Hl), extrusion_home.
  destruct (update_extrusion l1 (update_position l1 s1)) as [x s3]. injection H as <- <-.
  destruct h as [[hx hy] hz]. reflexivity.
Qed.

Lemma build_home : forall h light ts m ls out (m1 : mstate A) ls1 out1, Forall (fun s => goes_home s = false) ts ->
  foldM (build_step light) (map new_line ts) (m, ls, out) = Ok (m1, ls1, out1) ->
  foldM (build_step light) (map new_line ts) (at_home h m, ls, out) = Ok (at_home h m1, ls1, out1).
Proof.
  intros h light ts. induction ts as [|t ts IH]; intros m ls out m1 ls1 out1 HF H; cbn [map foldM] in *.
  - injection H as <- <- <-. reflexivity.
  - inversion HF as [|? ? Ht HF']; subst. unfold build_step at 1 in H. unfold build_step at 1.
    destruct (motion_step m (new_line t)) as [[s l]|e] eqn:Em; cbn [bind] in H; [|discriminate H].
    rewrite (motion_home h _ _ _ _ Ht Em). cbn [bind].
    replace (m_max (at_home h s)) with (m_max s) by (destruct h as [[? ?] ?]; reflexivity).
    destruct (match command l with Some _ => layer_body l (m_max s) ls | None => Ok ls end) as [ls2|e]; cbn [bind] in *; [|discriminate H].
    exact (IH _ _ _ _ _ _ HF' H).
Qed.

Lemma init_home : forall h h', init_mstate (A:=A) h' = at_home h' (init_mstate h).
Proof. intros [[? ?] ?] [[? ?] ?]. reflexivity. Qed.

Lemma load_home : forall light home home' data (g : gcode A), load_gen light home data = Ok g ->
  Forall (fun s => goes_home s = false) (program_text data) -> load_gen light home' data = Ok (rehomed home' g).
Proof.
  intros light home home' data g H HF. rewrite load_scan in *.
  destruct (foldM _ _ _) as [[[m ls] out]|e] eqn:Ef; cbn [bind] in H; [|discriminate H]. injection H as <-.
  rewrite (init_home home home'), (build_home home' _ _ _ _ _ _ _ _ HF Ef). cbn [bind]. f_equal.
  unfold rehomed, finalize.
  replace (m_max (at_home home' m)) with (m_max m) by (destruct home' as [[? ?] ?]; reflexivity).
  destruct (match ls_cur ls with [] => _ | _ => _ end) as [ys zs]. reflexivity.
Qed.

(** ** All programs *)

(** the two machines agree in everything but where they are *)
Definition apart_only (m m' : mstate A) : Prop :=
  m_imperial m' = m_imperial m /\ m_relative m' = m_relative m /\ m_relative_e m' = m_relative_e m /\
  m_e m' = m_e m /\ m_oe m' = m_oe m /\ m_total m' = m_total m /\ m_max m' = m_max m.

Definition shown (l : line A) := (raw l, command l, is_move l, largs l, t_relative (lnotes l), t_relative_e (lnotes l), t_extruding (lnotes l)).

Lemma modes_apart : forall c mv (m m' m1 : mstate A), apart_only m m' -> update_modes c mv m = Ok m1 ->
  exists m1', update_modes c mv m' = Ok m1' /\ apart_only m1 m1'.
Proof.
  intros c mv m m' m1 Ha H. unfold update_modes in *.
  destruct mv; [injection H as <-; exists m'; split; [reflexivity|exact Ha]|].
  pose proof Ha as (H1 & H2 & H3 & H4 & H5 & H6 & H7).
  repeat match type of H with context [if String.eqb c ?x then _ else _] =>
    destruct (String.eqb c x);
    [injection H as <-; eexists; split; [reflexivity|];
     unfold apart_only, set_modes; cbn [m_imperial m_relative m_relative_e m_e m_oe m_total m_max]; rewrite ?H1, ?H2, ?H3;
     split; [reflexivity|]; split; [reflexivity|]; split; [reflexivity|]; split; [exact H4|]; split; [exact H5|]; split; [exact H6|exact H7]|] end.
  destruct c as [|d t]; [injection H as <-; exists m'; split; [reflexivity|exact Ha]|].
  destruct (Ascii.eqb d "T") eqn:Ed.
  - apply Ascii.eqb_eq in Ed. subst d. destruct (py_int t) as [z|]; [|discriminate H].
    injection H as <-. eexists. split; [reflexivity|]. exact Ha.
  - exists m'. split; [clear H; all_chars d; try reflexivity; discriminate Ed|].
    assert (Hm : m1 = m) by (clear - H Ed; all_chars d; try congruence; discriminate Ed). subst m1. exact Ha.
Qed.

Lemma position_apart : forall (l : line A) m m', apart_only m m' -> apart_only (update_position l m) (update_position l m').
Proof.
  assert (K : forall (l : line A) m, apart_only m (update_position l m)).
  { intros l m. unfold update_position.
    destruct (is_move l); [destruct (l_f l); unfold apart_only; auto 10|].
    destruct (cmd_is (command l) "G28").
    { destruct (axis_home _ (l_x l) _ _ _), (axis_home _ (l_y l) _ _ _), (axis_home _ (l_z l) _ _ _). unfold apart_only; auto 10. }
    destruct (cmd_is (command l) "G92"); unfold apart_only; auto 10. }
  intros l m m' H. pose proof (K l m) as K1. pose proof (K l m') as K2. unfold apart_only in *.
  destruct H as (H1 & H2 & H3 & H4 & H5 & H6 & H7), K1 as (A1 & A2 & A3 & A4 & A5 & A6 & A7), K2 as (B1 & B2 & B3 & B4 & B5 & B6 & B7).
  split; [congruence|]. split; [congruence|]. split; [congruence|]. split; [congruence|]. split; [congruence|]. split; congruence.
Qed.

Lemma extrusion_apart : forall (l : line A) m m' x m1, apart_only m m' -> update_extrusion l m = (x, m1) ->
  exists m1', update_extrusion l m' = (x, m1') /\ apart_only m1 m1'.
Proof.
  intros l m m' x m1 Ha H. pose proof Ha as (H1 & H2 & H3 & H4 & H5 & H6 & H7). unfold update_extrusion in *.
  destruct (l_e l) as [e|]; [|injection H as <- <-; exists m'; split; [reflexivity|exact Ha]].
  rewrite H3, H4, H5, H6, H7.
  destruct (is_move l); [destruct (m_relative_e m) eqn:Hre|destruct (cmd_is (command l) "G92")];
    injection H as <- <-; eexists; (split; [reflexivity|]); unfold apart_only, set_ext;
    cbn [m_imperial m_relative m_relative_e m_e m_oe m_total m_max];
    (split; [assumption|]; split; [assumption|]; split; [congruence|]; split; [first [reflexivity|assumption]|]; split; [first [reflexivity|assumption]|];
     split; first [reflexivity|assumption]).
Qed.

Lemma motion_apart : forall (t : line A) m m' m1 l, apart_only m m' -> motion_step m t = Ok (m1, l) ->
  exists m1' l', motion_step m' t = Ok (m1', l') /\ apart_only m1 m1' /\ shown l' = shown l.
Proof.
  intros t m m' m1 l Ha H. unfold motion_step in *. destruct (split t) as [l0 toks].
  destruct (command l0) as [c|]; [|injection H as <- <-; exists m', l0; split; [reflexivity|split; [exact Ha|reflexivity]]].
  destruct (update_modes c (is_move l0) m) as [s1|e] eqn:E1; cbn [bind] in H; [|discriminate H].
  destruct (modes_apart _ _ _ _ _ Ha E1) as (s1' & E1' & Ha1). rewrite E1'. cbn [bind].
  pose proof Ha1 as (I1 & R1 & R2 & _). rewrite I1.
  destruct (parse_coordinates (m_imperial s1) toks l0) as [l1|e]; cbn [bind] in *; [|discriminate H].
  destruct (update_extrusion l1 (update_position l1 s1)) as [x s3] eqn:E3.
  destruct (extrusion_apart _ _ _ _ _ (position_apart l1 _ _ Ha1) E3) as (s3' & E3' & Ha3). rewrite E3'.
  injection H as <- <-. eexists _, _. split; [reflexivity|]. split; [exact Ha3|].
  unfold shown. cbn [raw command is_move largs set_notes lnotes t_relative t_relative_e t_extruding]. rewrite R1, R2. reflexivity.
Qed.

Definition like (y y' : layer A) : Prop :=
  ly_z y' = ly_z y /\ ly_dur y' = ly_dur y /\ map raw (ly_lines y') = map raw (ly_lines y).

(** the two scans have seen the same, except for places *)
Record alike (s s' : lstate A) : Prop := Alike {
  al_d : ls_d s' = ls_d s; al_begin : ls_begin s' = ls_begin s; al_zs : ls_zs s' = ls_zs s;
  al_lidx : ls_lidx s' = ls_lidx s; al_kidx : ls_kidx s' = ls_kidx s;
  al_id : ls_layer_id s' = ls_layer_id s; al_line : ls_layer_line s' = ls_layer_line s;
  al_last : ls_last_z s' = ls_last_z s; al_prev : ls_prev_z s' = ls_prev_z s;
  al_base : ls_prev_base s' = ls_prev_base s; al_cur : ls_cur_z s' = ls_cur_z s;
  al_ext : ls_has_ext s' = ls_has_ext s; al_est : ls_est s' = ls_est s;
  al_layers : Forall2 like (ls_layers s) (ls_layers s');
  al_lines : map raw (ls_cur s') = map raw (ls_cur s) }.

Lemma alike_base : forall s s', alike s s' -> compute_base_z s' = compute_base_z s.
Proof.
  intros s s' H. unfold compute_base_z, estimate_layer_height.
  rewrite (al_prev _ _ H), (al_last _ _ H), (al_est _ _ H).
  assert (E : map ly_z (ls_layers s') = map ly_z (ls_layers s)).
  { pose proof (al_layers _ _ H) as L. induction L as [|y y' ys ys' Hy _ IH]; [reflexivity|].
    cbn. f_equal; [apply Hy|apply IH]. }
  rewrite E. reflexivity.
Qed.

Lemma alike_update : forall s s', alike s s' -> alike (update_layers s) (update_layers s').
Proof.
  intros s s' H. unfold update_layers. rewrite (al_cur _ _ H), (al_prev _ _ H).
  destruct (opt_eqb (ls_cur_z s) (ls_prev_z s)); [exact H|].
  rewrite (alike_base _ _ H), (al_base _ _ H). destruct (compute_base_z s) as [base est].
  destruct H. destruct (match ls_prev_base s with Some b => opt_eqb base b | None => false end);
    constructor; cbn; try congruence; try assumption.
  apply Forall2_app; [assumption|]. constructor; [|constructor]. split; [reflexivity|split; [cbn; congruence|assumption]].
Qed.

Lemma alike_push : forall s s' l l', raw l' = raw l -> alike s s' -> alike (push_line l s) (push_line l' s').
Proof. intros s s' l l' Hl []. constructor; cbn; try assumption; try congruence. rewrite !map_app. cbn. congruence. Qed.

Lemma alike_body : forall (l l' : line A) mx s s' r, shown l' = shown l -> alike s s' -> layer_body l mx s = Ok r ->
  exists r', layer_body l' mx s' = Ok r' /\ alike r r'.
Proof.
  intros l l' mx s s' r Hl H Hr. unfold layer_body in *. injection Hl as L1 L2 L3 L4 L5 L6 L7.
  destruct (update_bbox l mx s) as [bb bbe]. destruct (update_bbox l' mx s') as [bb' bbe'].
  assert (Hd : update_duration l' (ls_d s') = update_duration l (ls_d s)).
  { rewrite (al_d _ _ H). unfold update_duration, move_duration, find_specific_code, l_x, l_y, l_z, l_e, l_f.
    rewrite L1, L2, L4, L5, L6. reflexivity. }
  rewrite Hd. destruct (update_duration l (ls_d s)) as [d|e]; cbn [bind] in *; [|discriminate Hr].
  injection Hr as <-. eexists. split; [reflexivity|]. apply alike_update.
  assert (Hz : update_cur_z l' (ls_cur_z s') = update_cur_z l (ls_cur_z s)).
  { rewrite (al_cur _ _ H). unfold update_cur_z, l_z. rewrite L2, L3, L4, L5. reflexivity. }
  destruct H. constructor; cbn; try assumption; try reflexivity. rewrite L7, al_ext0. reflexivity.
Qed.

Lemma build_alike : forall light ts m ls out (m1 : mstate A) ls1 out1,
  foldM (build_step light) (map new_line ts) (m, ls, out) = Ok (m1, ls1, out1) ->
  forall m' ls' out', apart_only m m' -> alike ls ls' -> map raw out' = map raw out ->
  exists m1' ls1' out1', foldM (build_step light) (map new_line ts) (m', ls', out') = Ok (m1', ls1', out1') /\
    apart_only m1 m1' /\ alike ls1 ls1' /\ map raw out1' = map raw out1.
Proof.
  intros light ts. induction ts as [|t ts IH]; intros m ls out m1 ls1 out1 H m' ls' out' Ha Hs Ho; cbn [map foldM] in *.
  - injection H as <- <- <-. eexists _, _, _. split; [reflexivity|]. auto.
  - unfold build_step at 1 in H. unfold build_step at 1.
    destruct (motion_step m (new_line t)) as [[s l]|e] eqn:Em; cbn [bind] in H; [|discriminate H].
    destruct (motion_apart _ _ _ _ _ Ha Em) as (s' & l' & Em' & Ha' & Hl). rewrite Em'. cbn [bind].
    assert (Hc : command l' = command l /\ raw l' = raw l) by (injection Hl; auto). destruct Hc as [Hc Hr]. rewrite Hc.
    assert (Hx : m_max s' = m_max s) by apply Ha'. rewrite Hx.
    destruct (match command l with Some _ => layer_body l (m_max s) ls | None => Ok ls end) as [ls2|e] eqn:El; cbn [bind] in H; [|discriminate H].
    assert (Hb : exists ls2', match command l with Some _ => layer_body l' (m_max s) ls' | None => Ok ls' end = Ok ls2' /\ alike ls2 ls2').
    { destruct (command l); [exact (alike_body _ _ _ _ _ _ Hl Hs El)|].
      injection El as <-. exists ls'. split; [reflexivity|exact Hs]. }
    destruct Hb as (ls2' & E2 & E3). rewrite E2. cbn [bind].
    apply (IH _ _ _ _ _ _ H); [exact Ha'| |].
    + apply alike_push; [destruct light; [reflexivity|exact Hr]|exact E3].
    + rewrite !map_app, Ho. cbn. destruct light; [reflexivity|rewrite Hr; reflexivity].
Qed.

Lemma load_place : forall light home home' data (g : gcode A), load_gen light home data = Ok g ->
  exists g', load_gen light home' data = Ok g' /\ same_but_place g g'.
Proof.
  intros light home home' data g H. rewrite load_scan in *.
  destruct (foldM _ _ _) as [[[m ls] out]|e] eqn:Ef; cbn [bind] in H; [|discriminate H]. injection H as <-.
  destruct (build_alike _ _ _ _ _ _ _ _ Ef (init_mstate home') init_lstate []) as (m' & ls' & out' & Ef' & Hm & Hs & Ho);
    [destruct home as [[? ?] ?], home' as [[? ?] ?]; unfold apart_only; auto 10|constructor; reflexivity || constructor|reflexivity|].
  rewrite Ef'. cbn [bind]. eexists. split; [reflexivity|].
  assert (Hx : m_max m' = m_max m) by apply Hm.
  destruct Hs. unfold same_but_place, finalize.
  assert (Hcur : ls_cur ls = [] /\ ls_cur ls' = [] \/ ls_cur ls <> [] /\ ls_cur ls' <> []).
  { destruct (ls_cur ls), (ls_cur ls'); cbn in al_lines0; try discriminate al_lines0; [left; auto|right; split; discriminate]. }
  assert (Hlay : forall ys ys' : list (layer A), Forall2 like ys ys' -> Forall2 like (ys ++ [Layer [] None n0]) (ys' ++ [Layer [] None n0])).
  { intros ys ys' HF. apply Forall2_app; [exact HF|]. constructor; [|constructor]. split; [reflexivity|split; reflexivity]. }
  destruct (ls_cur ls) as [|l1 c1] eqn:E1, (ls_cur ls') as [|l2 c2] eqn:E2; try (destruct Hcur as [[? ?]|[? ?]]; congruence).
  - cbn [g_layers g_lines g_lidx g_kidx g_zs g_zmin g_zmax g_filament g_total g_est].
    split; [apply Hlay; assumption|]. rewrite al_zs0, al_d0, Hx. auto 12.
  - cbn [g_layers g_lines g_lidx g_kidx g_zs g_zmin g_zmax g_filament g_total g_est].
    split.
    + apply Hlay, Forall2_app; [assumption|]. constructor; [|constructor].
      split; [exact al_prev0|]. split; [cbn [ly_dur]; rewrite al_d0, al_begin0; reflexivity|exact al_lines0].
    + rewrite al_zs0, al_d0, al_ext0, al_prev0, Hx. auto 12.
Qed.

End Any.

(** * P_ArcSpeed: arcs are run at the speed of the moves they replace (C118) *)
From Coq Require Import List Ascii String ZArith NArith Bool Reals Lra Lia.
From Verif Require Import PyBase Arith ArithR Gcoder Filters Arc SpecText SpecLoad SpecMachine SpecFilter SpecArc SpecArcSpeed.
From Verif Require Import P_Load P_Text P_Wf P_Machine P_Format P_Filter P_FilterMotion P_Arc P_ArcFit P_ArcPath.
Import ListNotations.
Local Open Scope list_scope.
Local Open Scope R_scope.

Definition known (v : option R) : R := match v with Some f => f | None => 0 end.

(** ** The feedrate noted at each line *)

Lemma motion_speed : forall (m m' : mstate RA) s l v, motion_step m (new_line s) = Ok (m', l) ->
  m_imperial m = false -> op_of s <> Inches -> m_f m = known v -> m_f m' = known (set_speed s v).
Proof.
  intros m m' s l v H Hi Ho Hv.
  pose proof (proj1 (motion_reads exactR m m' s l H Hi Ho)) as Hr.
  pose proof (reads_op exactR s l Hr) as Hop. pose proof (reads_motion exactR s l Hr) as Hmo.
  destruct (command_name s) as [c|] eqn:Hc.
  - destruct (motion_some _ _ _ _ _ Hc H) as (s1 & l1 & ext & H1 & H2 & H3 & ->).
    destruct (update_modes_modes _ _ _ _ Hc H1) as (_ & _ & _ & M4 & _).
    destruct (update_extrusion_fixed _ _ _ _ H3) as (_ & _ & _ & _ & F5 & _).
    rewrite F5. unfold update_position, set_speed.
    change (is_motion (set_notes _ l1)) with (is_motion l1) in Hmo.
    assert (Hm : is_move l1 = str_mem c ["G0"; "G1"; "G2"; "G3"]%string).
    { destruct H2 as (_ & _ & H2 & _). exact H2. }
    rewrite Hm. destruct (str_mem c _) eqn:Em.
    + assert (Hw : exists w e f, op_of s = Move w e f).
      { unfold op_of. rewrite Hc, Em. eauto. }
      destruct Hw as (w & e & f & Hw). rewrite Hw in *.
      destruct Hop as (_ & _ & _ & _ & _ & Hf & _). unfold l_f in *. cbn [largs set_notes] in Hf.
      destruct (a_f (largs l1)) as [y|]; cbn [option_map] in Hf; rewrite <- Hf.
      * reflexivity.
      * cbn [m_f set_pos]. rewrite M4. exact Hv.
    + assert (Hn : match op_of s with Move _ _ _ => False | _ => True end).
      { unfold op_of. rewrite Hc, Em.
        repeat match goal with |- context [if ?b then _ else _] => destruct b; [exact I|] end.
        destruct c as [|d t]; [exact I|]. all_chars d; exact I. }
      replace (match op_of s with Move _ _ (Some f) => Some f | _ => v end) with v
        by (destruct (op_of s); [contradiction|..]; reflexivity).
      rewrite <- Hv, <- M4. destruct (cmd_is (command l1) "G28").
      * unfold axis_home.
        destruct (_ || is_some (l_x l1)), (_ || is_some (l_y l1)), (_ || is_some (l_z l1)); reflexivity.
      * destruct (cmd_is (command l1) "G92"); reflexivity.
  - destruct (motion_none _ _ _ _ Hc H) as (-> & _). rewrite Hv. unfold set_speed, op_of. rewrite Hc. reflexivity.
Qed.

Fixpoint runs_at (v : option R) (ss : list string) (ls : list (line RA)) : Prop :=
  match ss, ls with
  | [], [] => True
  | s :: ss', l :: ls' =>
      reads exactR s l /\
      (command l <> None -> t_f (lnotes l) = Some (known (set_speed s v)) /\ t_e (lnotes l) <> None) /\
      runs_at (set_speed s v) ss' ls'
  | _, _ => False
  end.

Lemma trace_runs_at : forall ts ls (m m' : mstate RA), trace m ts ls m' -> forall v, m_imperial m = false ->
  m_f m = known v -> in_millimetres ts -> runs_at v ts ls.
Proof.
  intros ts ls m m' H. induction H as [m|m s l m1 ts ls m' Hs Ht IH]; intros v Hi Hv Hm; [exact I|].
  inversion Hm as [|? ? Hm1 Hm2]; subst. destruct (motion_reads exactR _ _ _ _ Hs Hi Hm1) as [Hr Hi1].
  pose proof (motion_speed _ _ _ _ v Hs Hi Hm1 Hv) as Hv1. cbn [runs_at]. split; [exact Hr|]. split.
  - intros Hc. destruct (motion_notes _ _ _ _ Hs Hc) as (_ & _ & _ & F & Ee). rewrite F, Ee, Hv1.
    split; [reflexivity|discriminate].
  - apply IH; assumption.
Qed.

Lemma load_runs_at : forall home data (g : gcode RA), load_gen false home data = Ok g ->
  in_millimetres (program_text data) -> runs_at None (program_text data) (all_lines g).
Proof.
  intros home data g H Hm. rewrite (load_all_lines _ _ _ _ H).
  apply load_trace in H as (ls & Ht & Hl). rewrite (Hl eq_refl).
  apply (trace_runs_at _ _ _ _ Ht); [| |exact Hm]; destruct home as [[hx hy] hz]; [reflexivity|].
  exact (val_n0 exactR).
Qed.

Lemma runs_at_app : forall ls1 ls2 v ss, runs_at v ss (ls1 ++ ls2) ->
  exists ss1 ss2, ss = ss1 ++ ss2 /\ List.length ss1 = List.length ls1 /\
    runs_at v ss1 ls1 /\ runs_at (speed_after ss1 v) ss2 ls2.
Proof.
  induction ls1 as [|l ls1 IH]; intros ls2 v ss H; cbn [app] in H.
  - exists [], ss. repeat split. exact H.
  - destruct ss as [|s ss]; [destruct H|]. cbn [runs_at] in H. destruct H as (H1 & H2 & H3).
    destruct (IH _ _ _ H3) as (ss1 & ss2 & -> & Hl & F1 & F2). exists (s :: ss1), ss2.
    split; [reflexivity|]. split; [cbn; congruence|]. split; [|exact F2]. cbn [runs_at]. auto.
Qed.

Lemma speed_known_app : forall ss1 ss2 v, speed_known v (ss1 ++ ss2) ->
  speed_known v ss1 /\ speed_known (speed_after ss1 v) ss2.
Proof.
  induction ss1 as [|s ss1 IH]; intros ss2 v H; [split; [exact I|exact H]|].
  destruct H as [H1 H2]. destruct (IH _ _ H2) as [I1 I2]. split; [split; assumption|exact I2].
Qed.

(** ** A run of moves at one feedrate *)

Lemma run_speed : forall ls ss v f, runs_at v ss ls ->
  Forall (fun l => is_motion l = true /\ l_e l <> None) ls ->
  Forall (fun l => t_f (lnotes l) = f) ls -> speed_known v ss ->
  Forall (fun l => t_e (lnotes l) <> None) ls /\
  forall n, (1 <= n <= List.length ss)%nat -> f <> None /\ speed_after (firstn n ss) v = f.
Proof.
  induction ls as [|l ls IH]; intros ss v f Hr Hm Hf Hk.
  - destruct ss; [|destruct Hr]. split; [constructor|]. cbn. lia.
  - destruct ss as [|s ss]; [destruct Hr|]. destruct Hr as (R1 & R2 & R3).
    inversion Hm as [|? ? [M1 M2] Hm']; subst. inversion Hf as [|? ? F1 F2]; subst. destruct Hk as [K1 K2].
    destruct (IH _ _ _ R3 Hm' F2 K2) as [I1 I2].
    pose proof (reads_op exactR s l R1) as Ho. pose proof (reads_motion exactR s l R1) as Hmo.
    assert (Hmv : exists w e f, op_of s = Move w e f /\ option_map (val exactR) (l_e l) = e).
    { rewrite M1 in Hmo. unfold op_of in *. destruct (command_name s) as [c|]; [|discriminate Hmo].
      rewrite <- Hmo in *. eexists _, _, _. split; [reflexivity|]. apply Ho. }
    destruct Hmv as (w & e & f & Ew & Ee). rewrite Ew in Ho, K1.
    assert (Hc : command l <> None).
    { destruct Ho as (_ & _ & _ & _ & _ & _ & c & Hc & _). congruence. }
    destruct (R2 Hc) as [Q1 Q2]. split; [constructor; assumption|].
    destruct (l_e l) as [x|]; [|congruence]. cbn [option_map] in Ee. subst e.
    destruct (set_speed s v) as [y|] eqn:Ey; [|congruence]. cbn [known] in Q1.
    intros [|n] Hn; [lia|]. split; [congruence|]. cbn [firstn]. unfold speed_after. cbn [fold_left].
    rewrite Ey. destruct n as [|n]; [cbn; congruence|].
    destruct (I2 (S n)) as [_ I3]; [cbn in Hn; lia|]. exact I3.
Qed.

(** ** The generated lines *)

Lemma arc_text_speed : forall c e rel f n v,
  set_speed (raw (arc_line (A:=RA) c e rel (Some f) n)) v = Some (py_round (A:=RA) 3 f).
Proof.
  intros c e rel f n v. unfold arc_line. cbn [raw].
  set (a := Args _ _ _ _ _ _ _). set (cmd := if n_ltb n0 (c_direction c) then "G3"%string else "G2"%string).
  assert (Hg : g_command cmd /\ str_mem cmd ["G0"; "G1"; "G2"; "G3"]%string = true /\ lacks nl cmd = true /\
    exists v, cmd = String "G" v).
  { unfold cmd. destruct (n_ltb _ _); repeat split; try (eexists; reflexivity).
    - exists "3"%string, ""%string, "3"%string, ""%string, ""%string. split; [reflexivity|].
      constructor; auto.
    - exists "2"%string, ""%string, "2"%string, ""%string, ""%string. split; [reflexivity|].
      constructor; auto. }
  destruct Hg as (G1 & G2 & G3 & u & G4).
  destruct (op_unsplit_move exactR cmd a G1 G2) as (w & e1 & f1 & Ho & _ & _ & Hf).
  assert (Ht : comment_tail ("; generated from " ++ nat_to_string (n - 1) ++ " segments")%string).
  { exists ""%string, (" generated from " ++ nat_to_string (n - 1) ++ " segments")%string.
    split; [reflexivity|]. split; [reflexivity|]. split; [reflexivity|].
    rewrite !lacks_app. unfold nat_to_string.
    rewrite !(digits_lack _ (N_to_string _)) by (reflexivity || apply N_to_string_digits).
    split; reflexivity. }
  pose proof (op_comment (unsplit_text cmd a) _ (unsplit_lacks cmd a G3) Ht
    ltac:(rewrite G4; apply unsplit_no_paren) (unsplit_words_some cmd a G1)) as Hc.
  rewrite Ho in Hc. destruct Hc as (w' & e2 & f2 & Ho' & _ & _ & ->).
  unfold set_speed. rewrite Ho', Hf. reflexivity.
Qed.

Lemma gen_speed : forall first run' gen f v, produced first run' gen ->
  Forall (fun l => t_f (lnotes l) = Some f) run' -> t_e (lnotes (last run' first)) <> None ->
  speed_after (map raw gen) v = Some (py_round (A:=RA) 3 f).
Proof.
  intros first run' gen f v [Hfit Hsh] Hf He.
  destruct Hfit as (Hlen & _ & (f0 & z & Hfz & Hl) & _).
  destruct Hsh as (c & e & rel & f1 & n & fix_ & -> & Hfix). cbn [l_f largs arc_line a_f] in Hl.
  assert (Hf1 : f1 = Some f).
  { destruct run' as [|l run']; [cbn in Hlen; lia|]. inversion Hf as [|? ? F1 _]; subst.
    inversion Hfz as [|? ? [F2 _] _]; subst. congruence. }
  rewrite Hf1. pose proof (arc_text_speed c e rel f n v) as Ha.
  destruct Hfix as [-> |(r & ->)]; [exact Ha|].
  unfold speed_after. cbn [map fold_left]. etransitivity; [|exact Ha]. clear Ha.
  destruct (t_e (lnotes (last run' first))) as [x|]; [|congruence].
  destruct (fix_text_op x r) as (w2 & e2 & Ho2 & _). unfold set_speed. rewrite Ho2. reflexivity.
Qed.

Lemma close_same : forall v, close_speed v v.
Proof. intros [v|]; [apply near_same|exact I]. Qed.

Lemma close_step : forall s v v', close_speed v v' -> close_speed (set_speed s v) (set_speed s v').
Proof.
  intros s v v' H. unfold set_speed. destruct (op_of s); try exact H.
  match goal with |- context [match ?f with Some _ => _ | None => _ end] => destruct f end; [apply close_same|exact H].
Qed.

Lemma close_round : forall f : R, close_speed (Some f) (Some (py_round (A:=RA) 3 f)).
Proof.
  intros f. cbn [close_speed]. pose proof (py_round_err exactR 3 f) as H. cbn [val exactR] in H.
  eapply Rle_trans; [exact H|]. cbn [pow]. lra.
Qed.

(** ** The whole program *)

Lemma speed_kept : forall n ins outs, replaced produced n ins outs -> forall ss v v', runs_at v ss ins ->
  speed_known v ss -> close_speed v v' -> keeps_speed v v' ss (map raw outs).
Proof.
  intros n ins outs H.
  induction H as [|n l l' ins outs Hs H IH|n l l' mv mv' gen next outs Hs Hrun HR Hn H IH]; intros ss v v' Hf Hw Hk.
  - destruct ss; [|destruct Hf]. constructor. exact Hk.
  - destruct ss as [|s ss]; [destruct Hf|]. destruct Hf as (Hr & _ & Hf). destruct Hw as [_ Hw].
    assert (Ht : raw l' = s) by (rewrite (proj1 Hs); apply Hr). cbn [map]. rewrite Ht.
    constructor; [exact Hk|]. apply IH; [exact Hf|exact Hw|]. apply close_step, Hk.
  - destruct ss as [|s ss]; [destruct Hf|]. destruct Hf as (Hr & _ & Hf). destruct Hw as [_ Hw].
    assert (Ht : raw l' = s) by (rewrite (proj1 Hs); apply Hr). cbn [map]. rewrite Ht.
    pose proof (close_step s _ _ Hk) as Hk1.
    pose proof HR as HR'. destruct HR' as [(Hlen & Hmv & (f & z & Hfz & _) & _) _].
    pose proof (same_run _ _ Hrun Hmv) as Hsame. subst mv'.
    destruct (runs_at_app _ _ _ _ Hf) as (ss1 & ss2 & -> & Hl & F1 & F2).
    destruct (speed_known_app _ _ _ Hw) as [W1 W2].
    assert (Hff : Forall (fun l => t_f (lnotes l) = f) mv).
    { eapply Forall_impl; [|exact Hfz]. intros x [Hx _]. exact Hx. }
    destruct (run_speed _ _ _ _ F1 Hmv Hff W1) as [Te Tn].
    assert (Hlast : In (last mv l') mv).
    { destruct mv as [|x mv]; [cbn in Hlen; lia|]. clear. revert x. induction mv as [|y mv IHm]; intros x; [now left|].
      right. exact (IHm y). }
    assert (He : t_e (lnotes (last mv l')) <> None) by (rewrite Forall_forall in Te; apply (Te _ Hlast)).
    destruct f as [f|]; [|exfalso; apply (Tn 1%nat); [lia|reflexivity]].
    destruct (gen_text _ _ _ HR) as [G1 G2]. rewrite map_app.
    pose proof (gen_speed _ _ _ f (set_speed s v') HR Hff He) as Hg.
    assert (Hall : speed_after ss1 (set_speed s v) = Some f).
    { rewrite <- (firstn_all ss1). apply Tn. lia. }
    constructor; [exact Hk|]. apply ks_group; try assumption.
    + congruence.
    + intros i Hi. rewrite (proj2 (Tn i Hi)), Hg. apply close_round.
    + apply IH; [exact F2|exact W2|]. rewrite Hall, Hg. apply close_round.
Qed.

Lemma arcs_speed : forall home data (g g' : gcode RA), load_gen false home data = Ok g ->
  optimize_arcs g = Ok g' -> in_millimetres (program_text data) -> speed_known None (program_text data) ->
  keeps_speed None None (program_text data) (write g').
Proof.
  intros home data g g' Hl H Hm Hw. destruct (arcs_produced _ _ _ _ Hl H) as [n Hn].
  apply (speed_kept _ _ _ Hn); [apply (load_runs_at _ _ _ Hl Hm)|exact Hw|exact I].
Qed.

Lemma speed_end : forall v v' ss ss', keeps_speed v v' ss ss' ->
  close_speed (speed_after ss v) (speed_after ss' v').
Proof.
  intros v v' ss ss' H.
  induction H as [v v' H|v v' s ss ss' H H' IH|v v' old new ss ss' H H1 H2 H3 H4 H' IH]; [exact H|exact IH|].
  unfold speed_after in *. rewrite !fold_left_app. exact IH.
Qed.

Lemma arcs_speed_end : forall home data (g g' : gcode RA), load_gen false home data = Ok g ->
  optimize_arcs g = Ok g' -> in_millimetres (program_text data) -> speed_known None (program_text data) ->
  close_speed (speed_after (program_text data) None) (speed_after (write g') None).
Proof. intros home data g g' Hl H Hm Hw. apply speed_end. apply (arcs_speed _ _ _ _ Hl H Hm Hw). Qed.

(** * P_ArcBox: the measured box of a program with arcs (C123) *)
From Coq Require Import List Ascii String ZArith NArith Bool Reals Lra Lia.
From Verif Require Import PyBase Arith ArithR ArithB64 Gcoder Filters Arc SpecText SpecLoad SpecMachine SpecFilter SpecMeasure SpecBox SpecArc SpecArcBox Samples.
From Verif Require Import P_Load P_MachineRefuted P_FilterRefuted P_Text P_Wf P_Machine P_Measure P_Filter P_FilterMotion P_Compose P_Arc P_ArcFit P_ArcFeed P_ArcPath P_ArcReload P_BoxShift.
Import ListNotations.
Local Open Scope list_scope.
Local Open Scope R_scope.

(** ** The mode of extrusion *)

Lemma run_app : forall a b k, run (a ++ b) k = run b (run a k).
Proof. intros a b k. unfold run. apply fold_left_app. Qed.

Lemma mode_run : forall a h, relative_e (run a (start h)) = mode_relative_e a.
Proof.
  intros a h. unfold mode_relative_e, run.
  assert (G : forall k r, relative_e k = r -> relative_e (fold_left (fun k s => exec_line s k) a k) =
    fold_left (fun r s => match op_of s with Absolute | AbsoluteE => false | Relative | RelativeE => true | _ => r end) a r).
  { induction a as [|s a IH]; intros k r Hk; [exact Hk|]. cbn [fold_left]. apply IH.
    unfold exec_line. destruct (op_of s); cbn [exec relative_e]; auto. }
  exact (G (start h) false eq_refl).
Qed.

Definition fed (k : machine) (ss : list string) : Prop :=
  forall a s b, ss = a ++ s :: b -> feeds s = true -> relative_e (run a k) = true.

Lemma fed_cons : forall k s ss, fed k (s :: ss) -> (feeds s = true -> relative_e k = true) /\ fed (exec_line s k) ss.
Proof.
  intros k s ss H. split.
  - intros Hs. exact (H [] s ss eq_refl Hs).
  - intros a t b Hab Ht. subst ss. exact (H (s :: a) t b eq_refl Ht).
Qed.

Lemma fed_app : forall x y k, fed k (x ++ y) -> fed k x /\ fed (run x k) y.
Proof.
  intros x y k H. split.
  - intros a s b -> Hs. rewrite <- app_assoc in H. exact (H a s (b ++ y) eq_refl Hs).
  - intros a s b -> Hs. rewrite app_assoc in H. rewrite <- run_app. exact (H (x ++ a) s b eq_refl Hs).
Qed.

(** ** Printing *)

Lemma prints_app : forall a b k j, prints (a ++ b) k (List.length a + j) <-> prints b (run a k) j.
Proof.
  intros a b k j. unfold prints. replace (S (List.length a + j)) with (List.length a + S j)%nat by lia.
  rewrite !firstn_app_2, !run_app. reflexivity.
Qed.

Lemma same_mode : forall s k k', relative_e k' = relative_e k -> relative_e (exec_line s k') = relative_e (exec_line s k).
Proof. intros s k k' H. unfold exec_line. destruct (op_of s); cbn [exec relative_e]; auto. Qed.

Lemma prints_line : forall s k, inches k = false -> (feeds s = true -> relative_e k = true) ->
  (extruder k < extruder (exec_line s k) <-> exists w v f, op_of s = Move w (Some v) f /\ 0 < v).
Proof.
  intros s k Hi Hf. unfold exec_line, feeds in *. destruct (op_of s) as [w e f|w|w e| | | | | | |n|]; cbn [exec extruder];
    try (split; [intros; exfalso; lra|intros (w' & v' & f' & H' & _); discriminate H']).
  destruct e as [v|].
  - rewrite (Hf eq_refl). unfold mm. rewrite Hi. split.
    + intros H. exists w, v, f. split; [reflexivity|lra].
    + intros (w' & v' & f' & H' & Hv). injection H' as _ <- _. lra.
  - split; [intros; exfalso; lra|intros (w' & v' & f' & H' & _); discriminate H'].
Qed.

(** ** The replaced runs *)

Definition told (l : line RA) : Prop := is_motion l = true -> l_e l <> None -> t_relative_e (lnotes l) = Some true.

Definition printed (first : line RA) (run gen : list (line RA)) : Prop :=
  produced first run gen /\
  (Forall told run -> Forall (fun l : line RA => exists e : R, l_e l = Some e /\ 0 < e) run /\ exists arc, gen = [arc]).

Lemma accepted_printed : forall (first : line RA) run gen,
  accepted (fun q => exists rest, steady q rest) first run gen -> printed first run gen.
Proof.
  intros first run gen Hacc. split; [apply accepted_produced, Hacc|]. intros Ht.
  pose proof (accepted_fitted _ _ _ Hacc) as (Hlen & Hmv & _ & _).
  assert (Hrel : Forall (fun l => t_relative_e (lnotes l) = Some true) run).
  { rewrite Forall_forall in *. intros l Hin. apply (Ht l Hin); apply (Hmv l Hin). }
  destruct (accepted_feeds _ _ _ Hacc Hrel) as (_ & arc & e & Hgen & _).
  split; [|exists arc; exact Hgen].
  destruct Hacc as (_ & Hab & Hq & Harc & _).
  assert (Hne : run <> []) by (intros ->; cbn in Hlen; lia).
  assert (He : forall l, In l run -> l_e l <> None).
  { intros l Hin. rewrite Forall_forall in Hmv. apply (Hmv l Hin). }
  unfold arc_of in Harc.
  destruct (get_circle (first :: run)) as [[er oc]|ex]; cbn [bind] in Harc; [|discriminate Harc].
  destruct (get_distances (first :: run)) as [[[ss fil] ratio]|ex] eqn:Hd; cbn [bind] in Harc; [|discriminate Harc].
  pose proof (accepted_positive first run ss fil ratio Hne He Hq Hd Hrel) as Hpos. clear - Hpos.
  induction Hpos as [|l s ls ss [H1 H2] _ IH]; constructor; [|exact IH]. exists (s_fil (A:=RA) s). auto.
Qed.

Lemma arcs_printed : forall home data (g g' : gcode RA), load_gen false home data = Ok g ->
  optimize_arcs g = Ok g' -> exists n, replaced printed n (all_lines g) (all_lines g').
Proof.
  intros home data g g' Hl H. destruct (optimize_steady _ _ _ _ Hl H) as [n Hn].
  exists n. eapply replaced_mono; [|exact Hn]. exact accepted_printed.
Qed.

(** the last line of a run prints *)
Lemma last_prints : forall ls ss k, follows k ss ls -> ls <> [] -> settled k -> fed k ss ->
  Forall (fun l : line RA => is_motion l = true /\ l_e l <> None) ls ->
  Forall (fun l : line RA => exists e : R, l_e l = Some e /\ 0 < e) ls ->
  exists j, S j = List.length ss /\ prints ss k j.
Proof.
  induction ls as [|l ls IH]; intros ss k Hf Hne Hk Hfed Hm He; [congruence|].
  destruct ss as [|s ss]; [destruct Hf|]. destruct Hf as (Hr & Hp & _ & Hf).
  inversion Hm as [|? ? [M1 M2] Hm']; subst. inversion He as [|? ? (e & E1 & E2) He']; subst.
  destruct (fed_cons _ _ _ Hfed) as [F1 F2].
  destruct ls as [|l2 ls].
  - destruct ss; [|destruct Hf]. exists 0%nat. split; [reflexivity|]. unfold prints. cbn [firstn run fold_left].
    change (extruder k < extruder (exec_line s k)). apply (prints_line s k (proj1 Hk) F1).
    pose proof (reads_op exactR s l Hr) as Ho. pose proof (reads_motion exactR s l Hr) as Hmo. rewrite M1 in Hmo.
    unfold op_of in *. destruct (command_name s) as [c|]; [|discriminate Hmo]. rewrite <- Hmo in *.
    destruct Ho as (_ & _ & _ & _ & Ho & _). rewrite E1 in Ho. cbn [option_map] in Ho.
    eexists _, e, _. split; [|exact E2]. rewrite <- Ho. reflexivity.
  - destruct (IH ss _ Hf ltac:(discriminate) (settled_step _ _ Hp Hk) F2 Hm' He') as (j & J1 & J2).
    exists (S j). split; [cbn; congruence|exact J2].
Qed.

Lemma reads_clear : forall c e rel f n, let s := raw (arc_line (A:=RA) c e rel f n) in clear_words s /\ no_rebase_e s.
Proof.
  intros c e rel f n s. destruct (arc_text_op c e rel f n) as (w & e' & f' & Ho & _). unfold clear_words, no_rebase_e, s.
  rewrite Ho. split; exact I.
Qed.

Lemma boxed : forall n ins outs, replaced printed n ins outs -> forall ss k k', follows k ss ins ->
  in_step k k' -> relative_e k' = relative_e k -> fed k ss -> Forall told ins -> Forall no_rebase_e ss ->
  (Forall clear_words (map raw outs) /\ Forall no_rebase_e (map raw outs)) /\
  forall i, prints (map raw outs) k' i ->
    exists j, prints ss k j /\ near_xy (run (firstn (S j) ss) k) (run (firstn (S i) (map raw outs)) k').
Proof.
  intros n ins outs H.
  induction H as [|n l l' ins outs Hs H IH|n l l' mv mv' gen next outs Hs Hrun HR Hn H IH]; intros ss k k' Hf Hk Hm Hfed Ht Hb.
  - split; [split; constructor|]. intros i Hi. unfold prints in Hi. rewrite !firstn_nil in Hi. exfalso. lra.
  - destruct ss as [|s ss]; [destruct Hf|]. destruct Hf as (Hr & Hp & _ & Hf).
    assert (Hx : raw l' = s) by (rewrite (proj1 Hs); apply Hr). cbn [map]. rewrite Hx.
    inversion Ht as [|? ? T1 T2]; subst. inversion Hb as [|? ? B1 B2]; subst. destruct (fed_cons _ _ _ Hfed) as [F1 F2].
    pose proof (in_step_line _ _ _ Hp Hk) as Hk1.
    destruct (IH _ _ _ Hf Hk1 (same_mode _ _ _ Hm) F2 T2 B2) as [[I1 I2] I3].
    split; [split; constructor; auto; apply Hp|].
    intros [|i] Hi.
    + exists 0%nat. unfold prints in *. cbn [firstn run fold_left] in *. split; [|apply Hk1].
      apply (prints_line _ k (proj1 (proj1 Hk)) F1). apply (prints_line _ k' (proj1 (proj1 (proj2 Hk)))); [|exact Hi].
      intros Hfs. rewrite Hm. now apply F1.
    + destruct (I3 i Hi) as (j & J1 & J2). exists (S j). split; [exact J1|exact J2].
  - destruct ss as [|s ss]; [destruct Hf|]. destruct Hf as (Hr & Hp & _ & Hf).
    assert (Hx : raw l' = s) by (rewrite (proj1 Hs); apply Hr).
    inversion Ht as [|? ? T1 T2]; subst. inversion Hb as [|? ? B1 B2]; subst. destruct (fed_cons _ _ _ Hfed) as [F1 F2].
    apply Forall_app in T2 as [T2 T3].
    pose proof (in_step_line _ _ _ Hp Hk) as Hk1. pose proof (same_mode (raw l') _ _ Hm) as Hm1.
    destruct HR as [HR HP].
    assert (Hlen : (8 <= List.length mv')%nat) by (destruct HR as [HR _]; apply HR).
    assert (Hmv : Forall (fun l => is_motion l = true /\ l_e l <> None) mv') by (destruct HR as [HR _]; apply HR).
    pose proof (same_run _ _ Hrun Hmv) as Hsame. subst mv'.
    destruct (HP T2) as (Hpos & arc & Hgen). subst gen.
    destruct (follows_app _ _ _ _ Hf) as (ss1 & ss2 & -> & Hl & G1 & G2).
    apply Forall_app in B2 as [B2 B3]. destruct (fed_app _ _ _ F2) as [F3 F4].
    destruct Hk1 as (K1 & K2 & Kh & Kn).
    assert (Hne : mv <> []) by (intros ->; cbn in Hlen; lia).
    destruct (moves_run _ _ _ G1 Hmv K1) as (R1 & R2 & R3 & R4 & R5).
    assert (He : t_e (lnotes (last mv l')) <> None).
    { clear - G1 Hne Hmv. revert ss1 G1. generalize (exec_line (raw l') k). induction mv as [|x mv IHm]; intros q ss1 F1; [congruence|].
      destruct ss1 as [|s1 ss1]; [destruct F1|]. destruct F1 as (A1 & _ & A2 & A3). inversion Hmv as [|? ? [M1 _] Hm']; subst.
      destruct mv as [|y mv].
      - cbn. apply A2. unfold is_motion in M1. destruct (command x); [discriminate|discriminate M1].
      - change (last (x :: y :: mv) l') with (last (y :: mv) l'). apply (IHm Hm' ltac:(discriminate) _ _ A3). }
    destruct (gen_run _ _ _ _ HR K2 He) as (U1 & U2 & U3 & U4 & x & y & Up & Ux & Uy).
    destruct (R5 l' (or_intror Hne) x y Up) as [-> ->].
    assert (Hk2 : in_step (run ss1 (exec_line (raw l') k)) (run (map raw [arc]) (exec_line (raw l') k'))).
    { split; [exact R1|]. split; [exact U1|]. split; [intros a; rewrite U2, R2; apply Kh|].
      unfold rounded in Ux, Uy. split; lra. }
    assert (Harc : exists c e rel f m, arc = arc_line c e rel f m).
    { destruct HR as (_ & c & e & rel & f & m & fix_ & Hg & _). injection Hg as -> _. eauto 10. }
    destruct Harc as (c & e & rel & f & m & Harc).
    assert (Hmode : relative_e (run (map raw [arc]) (exec_line (raw l') k')) = relative_e (run ss1 (exec_line (raw l') k))).
    { transitivity (relative_e (exec_line (raw l') k')).
      - cbn [map run fold_left]. unfold exec_line at 1. destruct (arc_text_op c e rel f m) as (w & e' & f' & Ho & _).
        rewrite Harc, Ho. reflexivity.
      - rewrite Hm1. clear - G1 Hmv. revert ss1 G1. generalize (exec_line (raw l') k).
        induction mv as [|x mv IHm]; intros q [|s1 ss1] G1; try (destruct G1; fail); [reflexivity|].
        destruct G1 as (A1 & _ & _ & A3). inversion Hmv as [|? ? [M1 _] Hm']; subst. rewrite run_cons, <- (IHm Hm' _ _ A3).
        unfold exec_line. pose proof (reads_motion exactR _ _ A1) as Hmo. rewrite M1 in Hmo. unfold op_of.
        destruct (command_name s1); [|discriminate Hmo]. rewrite <- Hmo. reflexivity. }
    destruct (IH _ _ _ G2 Hk2 Hmode F4 T3 B3) as [[I1 I2] I3].
    cbn [map app]. cbn [map] in *. destruct (reads_clear c e rel f m) as [C1 C2]. rewrite <- Harc in C1, C2.
    split; [split; constructor; try assumption; try (constructor; assumption); apply Hp|].
    intros [|[|i]] Hi.
    + exists 0%nat. unfold prints in *. cbn [firstn run fold_left] in *. split; [|exact Kn].
      apply (prints_line _ k (proj1 (proj1 Hk)) F1). apply (prints_line _ k' (proj1 (proj1 (proj2 Hk)))); [|exact Hi].
      intros Hfs. rewrite Hm. now apply F1.
    + destruct (last_prints _ _ _ G1 Hne K1 F3 Hmv Hpos) as (j & J1 & J2). exists (S j). split.
      * change (prints (ss1 ++ ss2) (exec_line (raw l') k) j). unfold prints in *.
        rewrite !firstn_app. replace (j - List.length ss1)%nat with 0%nat by lia.
        replace (S j - List.length ss1)%nat with 0%nat by lia. rewrite !firstn_O, !app_nil_r. exact J2.
      * destruct Hk2 as (_ & _ & _ & Hk2). change (firstn (S (S j)) (raw l' :: ss1 ++ ss2)) with (raw l' :: firstn (S j) (ss1 ++ ss2)).
        rewrite run_cons, firstn_app. replace (S j - List.length ss1)%nat with 0%nat by lia.
        rewrite firstn_O, app_nil_r, J1, firstn_all. exact Hk2.
    + destruct (I3 i Hi) as (j & J1 & J2). exists (S (List.length ss1 + j)). split.
      * change (prints (ss1 ++ ss2) (exec_line (raw l') k) (List.length ss1 + j)). now apply prints_app.
      * change (firstn (S (S (List.length ss1 + j))) (raw l' :: ss1 ++ ss2)) with (raw l' :: firstn (S (List.length ss1 + j)) (ss1 ++ ss2)).
        rewrite run_cons. replace (S (List.length ss1 + j)) with (List.length ss1 + S j)%nat by lia.
        rewrite firstn_app_2, run_app. exact J2.
Qed.

(** ** The whole program *)

Lemma rabs_inv : forall x d, Rabs x <= d -> - d <= x <= d.
Proof. intros x d H. unfold Rabs in H. destruct (Rcase_abs x); lra. Qed.

Lemma nth_both : forall S T (P : S -> T -> Prop) xs ys, Forall2 P xs ys ->
  forall i y, nth_error ys i = Some y -> exists x, nth_error xs i = Some x /\ P x y.
Proof.
  intros S T P xs ys H. induction H as [|x y xs ys H _ IH]; intros [|i] z Hi; cbn in *; try discriminate; [|now apply IH].
  injection Hi as <-. eauto.
Qed.

Lemma load_told : forall home data (g : gcode RA), load_gen false home data = Ok g ->
  Forall arc_plain (program_text data) -> fed_relatively (program_text data) -> Forall told (all_lines g).
Proof.
  intros home data g H Hp Hf. apply Forall_forall. intros l Hl Hm He.
  apply In_nth_error in Hl as [i Hi].
  assert (Hin : Forall (fun s => op_of s <> Inches) (program_text data)).
  { eapply Forall_impl; [|exact Hp]. intros s [_ Hs] Hx. rewrite Hx in Hs. exact Hs. }
  destruct (nth_both _ _ _ _ _ (load_reads exactR _ _ _ H Hin) i l Hi) as (s & Hs & Hr).
  rewrite (load_all_lines _ _ _ _ H) in Hi.
  destruct (nth_both _ _ _ _ _ (load_moves _ _ _ H) i l Hi) as (s2 & Hs2 & _ & Hv). rewrite Hs in Hs2. injection Hs2 as <-.
  pose proof (reads_op exactR _ _ Hr) as Ho. pose proof (reads_motion exactR _ _ Hr) as Hmo. rewrite Hm in Hmo.
  assert (Hmv : exists w e f, op_of s = Move w e f).
  { unfold op_of. destruct (command_name s); [|discriminate Hmo]. rewrite <- Hmo. eauto. }
  destruct Hmv as (w & e & f & Ew). rewrite Ew in Ho, Hv. destruct Ho as (_ & _ & _ & _ & Ho & _).
  destruct (load_modes _ _ _ H i l Hi Hv) as [_ ->]. f_equal.
  apply nth_error_split in Hs as (a & b & Hab & Hlen). rewrite Hab, <- Hlen, firstn_app, Nat.sub_diag, firstn_all, firstn_O, app_nil_r.
  apply (Hf a s b Hab). unfold feeds. rewrite Ew. destruct (l_e l); [|congruence]. rewrite <- Ho. reflexivity.
Qed.

Lemma arcs_box : forall home data (g g' : gcode RA), load_gen false home data = Ok g ->
  Forall (fun s => feed_ok s = true) (program_text data) -> optimize_arcs g = Ok g' ->
  Forall arc_plain (program_text data) -> fed_relatively (program_text data) -> Forall no_rebase_e (program_text data) ->
  exists h : gcode RA, load_gen false home (write g') = Ok h /\
    (0 < g_filament g -> 0 < g_filament h ->
     g_xmin g - / 2000 <= g_xmin h /\ g_xmax h <= g_xmax g + / 2000 /\
     g_ymin g - / 2000 <= g_ymin h /\ g_ymax h <= g_ymax g + / 2000).
Proof.
  intros home data g g' Hg Hf H Hp Hr Hb.
  destruct (arcs_reload false home home data g g' Hg Hf H) as (Ht & h & Hh). exists h. split; [exact Hh|]. intros F1 F2.
  destruct (arcs_printed _ _ _ _ Hg H) as [n Hn].
  set (k := start (home_of exactR home)).
  assert (Hk : in_step k k) by (repeat split; cbn; apply near_same).
  assert (Hfed : fed k (program_text data)).
  { intros a s b Hab Hs. unfold k. rewrite mode_run. exact (Hr a s b Hab Hs). }
  destruct (boxed _ _ _ Hn _ _ _ (load_follows _ _ _ Hg Hp) Hk eq_refl Hfed (load_told _ _ _ Hg Hp Hr) Hb) as [[C1 C2] C3].
  change (map raw (all_lines g')) with (write g') in *. rewrite <- Ht in C1, C2.
  assert (Hc : Forall clear_words (program_text data)) by (eapply Forall_impl; [|exact Hp]; intros s Hs; apply Hs).
  pose proof (box_machine exactR _ _ _ Hg Hc Hb F1) as BG. pose proof (box_machine exactR _ _ _ Hh C1 C2 F2) as BH.
  cbv zeta in BG, BH. rewrite Ht in BH. fold k in BG, BH. cbn [val exactR] in BG, BH. fold k in C3.
  destruct BG as (G & _). destruct BH as (_ & (i1 & P1 & V1) & (i2 & P2 & V2) & (i3 & P3 & V3) & (i4 & P4 & V4)).
  repeat split.
  - destruct (C3 _ P1) as (j & J1 & J2 & J3). destruct (G _ J1) as [X1 X2]. apply rabs_inv in J2, J3. 
    rewrite V1 in J2. lra.
  - destruct (C3 _ P2) as (j & J1 & J2 & J3). destruct (G _ J1) as [X1 X2]. apply rabs_inv in J2, J3. rewrite V2 in J2. lra.
  - destruct (C3 _ P3) as (j & J1 & J2 & J3). destruct (G _ J1) as [X1 X2]. apply rabs_inv in J2, J3. rewrite V3 in J3. lra.
  - destruct (C3 _ P4) as (j & J1 & J2 & J3). destruct (G _ J1) as [X1 X2]. apply rabs_inv in J2, J3. rewrite V4 in J3. lra.
Qed.

(** ** Programs *)

From Verif Require Import P_ArcErr P_ArcSample P_ArcRefuted.

Definition cube_rel : list string :=
  ["G28"; "G90"; "M83"; "G1 Z0.3 F1200"; "G1 X10 Y10 E1"; "G1 X20 Y10 E1.5"; "G1 X20 Y20 E1.5"; "M107"]%string.

Lemma feed_last : forall home data (g : gcode RA), load_gen false home data = Ok g ->
  Forall no_rebase_e (program_text data) -> 0 < extruder (run (program_text data) (start (home_of exactR home))) -> 0 < g_filament g.
Proof.
  intros home data g H Hn Hx. destruct (load_extrusion exactR _ _ _ _ H Hn) as (_ & _ & Hf & _). cbv zeta in Hf.
  specialize (Hf (List.length (program_text data))). rewrite firstn_all in Hf. cbn [val exactR] in Hf. lra.
Qed.

Lemma fed_one : forall ss, (forall i, (i < List.length ss)%nat -> feeds (nth i ss ""%string) = true -> mode_relative_e (firstn i ss) = true) ->
  fed_relatively ss.
Proof.
  intros ss H a s b Hab Hs. specialize (H (List.length a)). subst ss. rewrite app_nth2, Nat.sub_diag in H by lia.
  rewrite firstn_app, Nat.sub_diag, firstn_all, firstn_O, app_nil_r in H. apply H; [rewrite app_length; cbn; lia|exact Hs].
Qed.

Lemma fed_samples : fed_relatively (program_text cube_rel) /\ fed_relatively (program_text arc_rel_e).
Proof.
  split; apply fed_one; intros i Hi; cbn [cube_rel arc_rel_e] in *;
  do 14 (destruct i as [|i]; [vm_compute; first [reflexivity|discriminate]|]); cbv in Hi; lia.
Qed.

(** a quarter of a circle that bulges in X *)
Definition arc_bulge : list string :=
  ["G90"; "M83"; "G1 X7.071 Y-7.071 F1200"; "G1 X8.192 Y-5.736 E0.05"; "G1 X9.063 Y-4.226 E0.05";
   "G1 X9.659 Y-2.588 E0.05"; "G1 X9.962 Y-0.872 E0.05"; "G1 X9.962 Y0.872 E0.05"; "G1 X9.659 Y2.588 E0.05";
   "G1 X9.063 Y4.226 E0.05"; "G1 X8.192 Y5.736 E0.05"; "G1 X7.071 Y7.071 E0.05"; "M107"]%string.

Definition arc_bulged : list string :=
  ["G90"; "M83"; "G1 X7.071 Y-7.071 F1200";
   "G3 X7.071 Y7.071 E0.45057 F1200.000 I-7.072 J7.071; generated from 9 segments"; "M107"]%string.

Definition bulge_seen : bool :=
  match load_gen (A:=B64) false home0 arc_bulge with
  | Ok g => match optimize_arcs g with
            | Ok g' => match load_gen (A:=B64) false home0 arc_bulged with
                       | Ok h => n_eqb (g_xmax g) (lit 9962 3) && n_eqb (g_xmax h) (lit 7071 3) &&
                                 (if list_eq_dec string_dec (write g') arc_bulged then true else false)
                       | Err _ => false end
            | Err _ => false end
  | Err _ => false end.

Lemma bulge_refuted :
  exists g g' h : gcode B64, load_gen false home0 arc_bulge = Ok g /\ optimize_arcs g = Ok g' /\
    load_gen false home0 (write g') = Ok h /\
    write g' = ["G90"; "M83"; "G1 X7.071 Y-7.071 F1200";
      "G3 X7.071 Y7.071 E0.45057 F1200.000 I-7.072 J7.071; generated from 9 segments"; "M107"]%string /\
    n_eqb (g_xmax g) (lit 9962 3) = true /\ n_eqb (g_xmax h) (lit 7071 3) = true.
Proof.
  assert (H : bulge_seen = true) by (vm_compute; reflexivity). unfold bulge_seen in H.
  destruct (load_gen (A:=B64) false home0 arc_bulge) as [g|e] eqn:Hg; [|discriminate H].
  destruct (optimize_arcs g) as [g'|e] eqn:Hg'; [|discriminate H].
  destruct (load_gen (A:=B64) false home0 arc_bulged) as [h|e] eqn:Hh; [|discriminate H].
  apply andb_prop in H as [H H3]. apply andb_prop in H as [H1 H2].
  destruct (list_eq_dec string_dec (write g') arc_bulged) as [Hw|]; [|discriminate H3].
  exists g, g', h. split; [reflexivity|]. split; [exact Hg'|]. split; [rewrite Hw; exact Hh|]. split; [exact Hw|]. split; assumption.
Qed.

(** a clockwise quarter in absolute extrusion; the last move prints nothing *)
Definition arc_away : list string :=
  ["G90"; "M82"; "G1 X10.000 Y0.000 F1200"; "G1 X9.848 Y-1.736 E0.05";
   "G1 X9.397 Y-3.420 E0.10"; "G1 X8.660 Y-5.000 E0.15"; "G1 X7.660 Y-6.428 E0.20"; "G1 X6.428 Y-7.660 E0.25";
   "G1 X5.000 Y-8.660 E0.30"; "G1 X3.420 Y-9.397 E0.35"; "G1 X1.736 Y-9.848 E0.40"; "G1 X0.000 Y-10.000 E0.45";
   "M107"; "G1 X50.000 Y0.000 E0.45"]%string.

Definition arc_gone : list string :=
  ["G90"; "M82"; "G1 X10.000 Y0.000 F1200";
   "G2 X0.000 Y-10.000 E-0.45057 F1200.000 I-10.001 J0.001; generated from 9 segments"; "M107";
   "G1 X50.000 Y0.000 E0.45"]%string.

Definition away_seen : bool :=
  match load_gen (A:=B64) false home0 arc_away with
  | Ok g => match optimize_arcs g with
            | Ok g' => match load_gen (A:=B64) false home0 arc_gone with
                       | Ok h => n_eqb (g_xmax g) (lit 9848 3) && n_eqb (g_xmax h) (lit 50 0) &&
                                 (if list_eq_dec string_dec (write g') arc_gone then true else false)
                       | Err _ => false end
            | Err _ => false end
  | Err _ => false end.

Lemma away_refuted :
  exists g g' h : gcode B64, load_gen false home0 arc_away = Ok g /\ optimize_arcs g = Ok g' /\
    load_gen false home0 (write g') = Ok h /\
    write g' = ["G90"; "M82"; "G1 X10.000 Y0.000 F1200";
      "G2 X0.000 Y-10.000 E-0.45057 F1200.000 I-10.001 J0.001; generated from 9 segments"; "M107";
      "G1 X50.000 Y0.000 E0.45"]%string /\
    n_eqb (g_xmax g) (lit 9848 3) = true /\ n_eqb (g_xmax h) (lit 50 0) = true.
Proof.
  assert (H : away_seen = true) by (vm_compute; reflexivity). unfold away_seen in H.
  destruct (load_gen (A:=B64) false home0 arc_away) as [g|e] eqn:Hg; [|discriminate H].
  destruct (optimize_arcs g) as [g'|e] eqn:Hg'; [|discriminate H].
  destruct (load_gen (A:=B64) false home0 arc_gone) as [h|e] eqn:Hh; [|discriminate H].
  apply andb_prop in H as [H H3]. apply andb_prop in H as [H1 H2].
  destruct (list_eq_dec string_dec (write g') arc_gone) as [Hw|]; [|discriminate H3].
  exists g, g', h. split; [reflexivity|]. split; [exact Hg'|]. split; [rewrite Hw; exact Hh|]. split; [exact Hw|]. split; assumption.
Qed.

(** * P_BoxRelative: what is measured of a program converted to relative extrusion *)
From Coq Require Import List Ascii String ZArith NArith Bool Reals Lra Lia.
From Verif Require Import PyBase Arith ArithR Gcoder Filters SpecText SpecLoad SpecMachine SpecMeasure SpecFilter SpecMod SpecBox.
From Verif Require Import P_Text P_Format P_Load P_Wf P_Machine P_Measure P_Filter P_FilterMotion P_Compose P_ModRun P_Mod P_BoxShift.
Import ListNotations.
Local Open Scope list_scope.
Local Open Scope R_scope.

Lemma feed_sign : forall ss ss' k k', same_feed ss ss' k k' ->
  (forall i s, nth_error ss i = Some s -> feeds s = true ->
     / 100000 < Rabs (extruder (run (firstn (S i) ss) k) - extruder (run (firstn i ss) k))) ->
  forall i, prints ss' k' i <-> prints ss k i.
Proof.
  induction ss as [|s ss IH]; intros [|s' ss'] k k' H Hs i; cbn [same_feed] in H; try contradiction.
  - unfold prints. destruct i; cbn; lra.
  - destruct H as [H1 H2]. destruct i as [|i].
    + unfold prints. cbn [firstn run fold_left]. unfold advance in H1. destruct (feeds s) eqn:Ef.
      * specialize (Hs 0%nat s eq_refl Ef). cbn [firstn run fold_left] in Hs. revert H1 Hs.
        generalize (extruder (exec_line s k)), (extruder (exec_line s' k')), (extruder k), (extruder k').
        intros a b c d. unfold Rabs. repeat destruct Rcase_abs; lra.
      * assert (Hz : extruder (exec_line s k) = extruder k).
        { unfold feeds in Ef. unfold exec_line. destruct (op_of s) as [w e f|w|w e| | | | | | |n|]; cbn; try reflexivity. destruct e; [discriminate Ef|reflexivity]. }
        rewrite Hz in *. revert H1. generalize (extruder (exec_line s' k')), (extruder k), (extruder k').
        intros a b c. unfold Rabs. repeat destruct Rcase_abs; lra.
    + apply (IH ss' (exec_line s k) (exec_line s' k') H2). intros j t Hj Hf. apply (Hs (S j) t Hj Hf).
Qed.

Lemma feed_firstn : forall ss ss' k k', same_feed ss ss' k k' -> forall i, same_feed (firstn i ss) (firstn i ss') k k'.
Proof.
  induction ss as [|s ss IH]; intros [|s' ss'] k k' H i; cbn [same_feed] in H; try contradiction.
  - destruct i; exact I.
  - destruct i as [|i]; [exact I|]. cbn [firstn same_feed]. split; [apply H|]. now apply IH.
Qed.

Section Exact.
Context {A : arith} (E : exact A).
Notation val := (val E).

Lemma filament_near : forall home home' data data' (g h : gcode A) d, load_gen false home data = Ok g -> load_gen false home' data' = Ok h ->
  Forall no_rebase_e (program_text data) -> Forall no_rebase_e (program_text data') ->
  (forall i, Rabs (extruder (run (firstn i (program_text data')) (start (home_of E home'))) -
                   extruder (run (firstn i (program_text data)) (start (home_of E home)))) <= d) ->
  Rabs (val (g_filament h) - val (g_filament g)) <= d.
Proof.
  intros home home' data data' g h d Hg Hh N N' Hd.
  destruct (load_extrusion E _ _ _ _ Hg N) as (_ & _ & G1 & (ig & _ & G2) & _). cbv zeta in *.
  destruct (load_extrusion E _ _ _ _ Hh N') as (_ & _ & K1 & (ih & _ & K2) & _). cbv zeta in *.
  pose proof (G1 ih) as G3. pose proof (K1 ig) as K3. pose proof (Hd ih) as Q1. pose proof (Hd ig) as Q2.
  revert G3 K3 Q1 Q2. rewrite G2, K2.
  generalize (extruder (run (firstn ih (program_text data')) (start (home_of E home')))),
    (extruder (run (firstn ig (program_text data')) (start (home_of E home')))),
    (extruder (run (firstn ih (program_text data)) (start (home_of E home)))),
    (extruder (run (firstn ig (program_text data)) (start (home_of E home)))).
  intros a b c e. unfold Rabs. repeat destruct Rcase_abs; lra.
Qed.

Lemma box_near : forall home home' data data' (g h : gcode A) dx dy, load_gen false home data = Ok g -> load_gen false home' data' = Ok h ->
  Forall clear_words (program_text data) -> Forall clear_words (program_text data') ->
  Forall no_rebase_e (program_text data) -> Forall no_rebase_e (program_text data') ->
  0 < val (g_filament g) -> 0 < val (g_filament h) ->
  (forall i, prints (program_text data') (start (home_of E home')) i <-> prints (program_text data) (start (home_of E home)) i) ->
  (forall i, prints (program_text data) (start (home_of E home)) i ->
     Rabs (head (run (firstn (S i) (program_text data')) (start (home_of E home'))) X -
           head (run (firstn (S i) (program_text data)) (start (home_of E home))) X) <= dx) ->
  (forall i, prints (program_text data) (start (home_of E home)) i ->
     Rabs (head (run (firstn (S i) (program_text data')) (start (home_of E home'))) Y -
           head (run (firstn (S i) (program_text data)) (start (home_of E home))) Y) <= dy) ->
  Rabs (val (g_xmin h) - val (g_xmin g)) <= dx /\ Rabs (val (g_xmax h) - val (g_xmax g)) <= dx /\
  Rabs (val (g_ymin h) - val (g_ymin g)) <= dy /\ Rabs (val (g_ymax h) - val (g_ymax g)) <= dy.
Proof.
  intros home home' data data' g h dx dy Hg Hh C C' N N' F F' Hpr HX HY.
  pose proof (box_machine E _ _ _ Hg C N F) as BG. pose proof (box_machine E _ _ _ Hh C' N' F') as BH. cbv zeta in BG, BH.
  destruct BG as (BG & (i1 & U1 & V1) & (i2 & U2 & V2) & (i3 & U3 & V3) & (i4 & U4 & V4)).
  destruct BH as (BH & (j1 & U1' & V1') & (j2 & U2' & V2') & (j3 & U3' & V3') & (j4 & U4' & V4')).
  apply Hpr in U1', U2', U3', U4'.
  assert (L : forall a b c e d : R, Rabs (a - b) <= d -> Rabs (c - e) <= d -> b <= e -> c <= a -> Rabs (c - b) <= d).
  { intros a b c e d. unfold Rabs. repeat destruct Rcase_abs; lra. }
  assert (U : forall a b c e d : R, Rabs (a - b) <= d -> Rabs (c - e) <= d -> e <= b -> a <= c -> Rabs (c - b) <= d).
  { intros a b c e d. unfold Rabs. repeat destruct Rcase_abs; lra. }
  split; [|split; [|split]].
  - pose proof (HX i1 U1) as P. pose proof (HX j1 U1') as Q. rewrite V1 in P. rewrite V1' in Q.
    apply (L _ _ _ _ _ P Q); [apply (BG j1 U1')|apply (BH i1), Hpr, U1].
  - pose proof (HX i2 U2) as P. pose proof (HX j2 U2') as Q. rewrite V2 in P. rewrite V2' in Q.
    apply (U _ _ _ _ _ P Q); [apply (BG j2 U2')|apply (BH i2), Hpr, U2].
  - pose proof (HY i3 U3) as P. pose proof (HY j3 U3') as Q. rewrite V3 in P. rewrite V3' in Q.
    apply (L _ _ _ _ _ P Q); [apply (BG j3 U3')|apply (BH i3), Hpr, U3].
  - pose proof (HY i4 U4) as P. pose proof (HY j4 U4') as Q. rewrite V4 in P. rewrite V4' in Q.
    apply (U _ _ _ _ _ P Q); [apply (BG j4 U4')|apply (BH i4), Hpr, U4].
Qed.

(** ** The conversion *)

Lemma rel_plain : forall s s', head_op (/ 2000) (op_of s) (op_of s') -> (clear_words s -> clear_words s') /\ (no_rebase_e s -> no_rebase_e s').
Proof.
  intros s s' [H|[[H1 H2]|(w & e & f & w' & e' & f' & H1 & H2 & _)]]; unfold clear_words, no_rebase_e; rewrite ?H, ?H1, ?H2; auto.
Qed.

Lemma feed_count_firstn : forall i ss, (feed_count (firstn i ss) <= feed_count ss)%nat.
Proof.
  unfold feed_count. induction i as [|i IH]; intros [|s ss]; cbn [firstn filter List.length]; try lia.
  specialize (IH ss). destruct (feeds s); cbn [List.length]; lia.
Qed.

Lemma relative_measures : forall home data (g g1 h : gcode A), load_gen false home data = Ok g ->
  to_relative_extrusion g = Ok g1 -> load_gen false home (write g1) = Ok h ->
  e_ready (program_text data) = true -> Forall clear_words (program_text data) -> Forall no_rebase_e (program_text data) ->
  sharp (program_text data) (start (home_of E home)) ->
  Rabs (val (g_filament h) - val (g_filament g)) <= INR (feed_count (program_text data)) * / 200000 /\
  (INR (feed_count (program_text data)) * / 200000 < val (g_filament g) ->
   forall n, (drive_count X (program_text data) <= n)%nat -> (drive_count Y (program_text data) <= n)%nat ->
   Rabs (val (g_xmin h) - val (g_xmin g)) <= INR n * / 2000 /\ Rabs (val (g_xmax h) - val (g_xmax g)) <= INR n * / 2000 /\
   Rabs (val (g_ymin h) - val (g_ymin g)) <= INR n * / 2000 /\ Rabs (val (g_ymax h) - val (g_ymax g)) <= INR n * / 2000) /\
  (INR (feed_count (program_text data)) * / 200000 < val (g_filament g) ->
   fixed_axis X (program_text data) -> fixed_axis Y (program_text data) ->
   Rabs (val (g_xmin h) - val (g_xmin g)) <= / 2000 /\ Rabs (val (g_xmax h) - val (g_xmax g)) <= / 2000 /\
   Rabs (val (g_ymin h) - val (g_ymin g)) <= / 2000 /\ Rabs (val (g_ymax h) - val (g_ymax g)) <= / 2000).
Proof.
  intros home data g g1 h Hg H1 Hh Hr Hc Hn Hs.
  pose proof (e_ready_inches _ _ Hr) as Hin.
  assert (Ht : program_text (write g1) = write g1).
  { apply tight_text, (relative_text _ _ H1), (load_tight _ _ _ _ Hg). }
  destruct (relative_pure _ _ H1) as (P1 & _).
  pose proof (rel_head_ops E _ _ (load_reads E _ _ _ Hg Hin) rel_init) as Hops.
  rewrite <- P1, <- write_all in Hops.
  assert (HC : Forall clear_words (program_text (write g1)) /\ Forall no_rebase_e (program_text (write g1))).
  { rewrite Ht. clear -Hops Hc Hn. induction Hops as [|s s' ss ss' Ho _ IH]; [split; constructor|].
    inversion Hc; subst. inversion Hn; subst. destruct (rel_plain s s' Ho) as [R1 R2]. destruct IH as [I1 I2]; [assumption..|].
    split; constructor; auto. }
  destruct HC as [C' N'].
  pose proof (relative_same_feed E _ _ _ _ (home_of E home) Hg H1 Hr) as Hsf.
  assert (Hdrift : forall i, Rabs (extruder (run (firstn i (write g1)) (start (home_of E home))) -
      extruder (run (firstn i (program_text data)) (start (home_of E home)))) <= INR (feed_count (program_text data)) * / 200000).
  { intros i. pose proof (same_feed_total _ _ _ _ (feed_firstn _ _ _ _ Hsf i)) as Hd. cbn [start extruder] in Hd.
    rewrite !Rminus_0_r in Hd. eapply Rle_trans; [exact Hd|].
    pose proof (le_INR _ _ (feed_count_firstn i (program_text data))) as Hle.
    replace (/ 2 / 10 ^ 5) with (/ 200000) by (cbn [pow]; lra). apply Rmult_le_compat_r; lra. }
  assert (Hfil : Rabs (val (g_filament h) - val (g_filament g)) <= INR (feed_count (program_text data)) * / 200000).
  { apply (filament_near home home data (write g1)); try assumption. rewrite Ht. exact Hdrift. }
  split; [exact Hfil|].
  assert (Hpos : INR (feed_count (program_text data)) * / 200000 < val (g_filament g) -> 0 < val (g_filament g) /\ 0 < val (g_filament h)).
  { pose proof (pos_INR (feed_count (program_text data))). intros Hlt. split; [lra|]. revert Hfil. unfold Rabs. destruct Rcase_abs; lra. }
  assert (Hpr : forall i, prints (program_text (write g1)) (start (home_of E home)) i <-> prints (program_text data) (start (home_of E home)) i).
  { rewrite Ht. apply feed_sign; assumption. }
  split.
  - intros Hlt n HX HY. destruct (Hpos Hlt) as [F F'].
    assert (Hle : forall a m, (drive_count a (program_text data) <= m)%nat -> forall i, INR (drive_count a (firstn (S i) (program_text data))) * / 2000 <= INR m * / 2000).
    { intros a m Hm i. apply Rmult_le_compat_r; [lra|]. apply le_INR. eapply Nat.le_trans; [|exact Hm].
      clear. unfold drive_count. generalize (program_text data), (S i). induction l as [|s ss IH]; intros [|j]; cbn [firstn filter List.length]; try lia.
      specialize (IH j). destruct (drives a s); cbn [List.length]; lia. }
    apply (box_near home home data (write g1)); try assumption; intros i _; rewrite Ht;
      (eapply Rle_trans; [apply (relative_head E _ _ _ _ _ Hg H1 Hin)|now apply Hle]).
  - intros Hlt HX HY. destruct (Hpos Hlt) as [F F'].
    apply (box_near home home data (write g1)); try assumption; intros i _; rewrite Ht;
      apply (relative_head_fixed E _ _ _ _ _ _ Hg H1 Hin); assumption.
Qed.

End Exact.

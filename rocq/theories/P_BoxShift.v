(** * P_BoxShift: the measured box of a translated program *)
From Coq Require Import List Ascii String ZArith NArith Bool Reals Lra Lia.
From Verif Require Import PyBase Arith ArithR Gcoder Filters SpecText SpecLoad SpecMachine SpecMeasure SpecFilter SpecBox.
From Verif Require Import P_Text P_Format P_Load P_Wf P_Machine P_Measure P_Filter P_FilterMotion P_Compose.
Import ListNotations.
Local Open Scope list_scope.
Local Open Scope R_scope.

Lemma firstn_step : forall (ss : list string) i s, nth_error ss i = Some s -> firstn (S i) ss = firstn i ss ++ [s].
Proof.
  induction ss as [|x ss IH]; intros [|i] s H; cbn in *; try discriminate; [now injection H as ->|].
  now rewrite <- (IH i s H).
Qed.

Lemma run_step : forall ss i s k, nth_error ss i = Some s -> run (firstn (S i) ss) k = exec_line s (run (firstn i ss) k).
Proof. intros ss i s k H. rewrite (firstn_step _ _ _ H). unfold run. rewrite fold_left_app. reflexivity. Qed.

Lemma run_end : forall ss i k, nth_error ss i = None -> run (firstn (S i) ss) k = run (firstn i ss) k.
Proof. intros ss i k H. apply nth_error_None in H. now rewrite !firstn_all2 by lia. Qed.

Lemma prints_move : forall ss k i, prints ss k i -> exists s w e f, nth_error ss i = Some s /\ op_of s = Move w (Some e) f.
Proof.
  intros ss k i H. unfold prints in H. destruct (nth_error ss i) as [s|] eqn:En; [|rewrite (run_end _ _ _ En) in H; lra].
  rewrite (run_step _ _ _ _ En) in H. unfold exec_line in H.
  destruct (op_of s) as [w e f|w|w e| | | | | | |n|] eqn:Eo; cbn [exec extruder] in H; try (exfalso; lra).
  destruct e as [e|]; [|exfalso; lra]. exists s, w, e, f. auto.
Qed.

Section Exact.
Context {A : arith} (E : exact A).
Notation val := (val E).

Lemma trace_move_command : forall ts ls (m m' : mstate A), trace m ts ls m' ->
  forall l, In l ls -> is_move l = true -> command l <> None.
Proof.
  intros ts ls m m' H. induction H as [m|m s l m1 ts ls m' Hs Ht IH]; intros x Hx Hm; [destruct Hx|].
  destruct Hx as [<-|Hx]; [apply (move_has_command _ _ _ _ Hs Hm)|now apply IH].
Qed.

Lemma move_command : forall home data (g : gcode A), load_gen false home data = Ok g ->
  forall l, In l (g_lines g) -> is_move l = true -> command l <> None.
Proof.
  intros home data g H. apply load_trace in H as (ls & Ht & Hl). rewrite (Hl eq_refl). eapply trace_move_command, Ht.
Qed.

(** the box, in terms of the reference machine *)
Lemma box_machine : forall home data (g : gcode A), load_gen false home data = Ok g ->
  Forall clear_words (program_text data) -> Forall no_rebase_e (program_text data) -> 0 < val (g_filament g) ->
  let k i := run (firstn i (program_text data)) (start (home_of E home)) in
  let p := prints (program_text data) (start (home_of E home)) in
  (forall i, p i -> val (g_xmin g) <= head (k (S i)) X <= val (g_xmax g) /\ val (g_ymin g) <= head (k (S i)) Y <= val (g_ymax g)) /\
  (exists i, p i /\ head (k (S i)) X = val (g_xmin g)) /\ (exists i, p i /\ head (k (S i)) X = val (g_xmax g)) /\
  (exists i, p i /\ head (k (S i)) Y = val (g_ymin g)) /\ (exists i, p i /\ head (k (S i)) Y = val (g_ymax g)).
Proof.
  intros home data g H Hc Hn Hf k p.
  destruct (load_box E _ _ _ H Hf) as (_ & B1 & B2 & B3 & B4 & B5).
  destruct (load_extrusion E _ _ _ _ H Hn) as (_ & _ & _ & _ & Hx). cbv zeta in Hx. specialize (Hx eq_refl).
  destruct (load_tracks E _ _ _ _ H Hc) as (_ & Ht). specialize (Ht eq_refl).
  pose proof (load_moves _ _ _ H) as Hmv.
  assert (Hlen : forall i s, nth_error (program_text data) i = Some s -> exists l, nth_error (g_lines g) i = Some l /\
     is_move l = match op_of s with Move _ _ _ => true | _ => false end).
  { clear -Hmv. induction Hmv as [|s l ss ls [_ Hm] _ IH]; intros [|i] t Hi; cbn in *; try discriminate; [|now apply IH].
    injection Hi as <-. eauto. }
  assert (Hin : forall l, In l (g_lines g) -> extrudes l -> exists i, nth_error (g_lines g) i = Some l /\ p i /\
     forall x y, t_x (lnotes l) = Some x -> t_y (lnotes l) = Some y -> head (k (S i)) X = val x /\ head (k (S i)) Y = val y).
  { intros l Hl [X1 X2]. apply In_nth_error in Hl as [i Hi]. exists i. split; [exact Hi|]. split; [now apply (Hx i l Hi)|].
    intros x y Tx Ty. destruct (Ht i l Hi (move_command _ _ _ H l (nth_error_In _ _ Hi) X1)) as (x' & y' & z' & U1 & U2 & U3 & V1 & V2 & V3).
    rewrite U1 in Tx. rewrite U2 in Ty. injection Tx as ->. injection Ty as ->. auto. }
  split.
  - intros i Hi. destruct (prints_move _ _ _ Hi) as (s & w & e & f & Es & Eo).
    destruct (Hlen i s Es) as (l & El & Em). rewrite Eo in Em.
    assert (Hex : extrudes l) by (split; [exact Em|now apply (Hx i l El)]).
    destruct (B1 l (nth_error_In _ _ El) Hex) as (x & y & Tx & Ty & B6).
    destruct (Ht i l El (move_command _ _ _ H l (nth_error_In _ _ El) Em)) as (x' & y' & z' & U1 & U2 & U3 & V1 & V2 & V3).
    rewrite U1 in Tx. rewrite U2 in Ty. injection Tx as ->. injection Ty as ->. unfold k. rewrite <- V1, <- V2. exact B6.
  - assert (Hxy : forall l, In l (g_lines g) -> extrudes l -> exists x y, t_x (lnotes l) = Some x /\ t_y (lnotes l) = Some y).
    { intros l Hl He. destruct (B1 l Hl He) as (x & y & Tx & Ty & _). eauto. }
    repeat split.
    + destruct B2 as (l & Hl & He & T). destruct (Hin l Hl He) as (i & _ & Hp & Hv). destruct (Hxy l Hl He) as (x & y & Tx & Ty). exists i. split; [exact Hp|]. now apply (Hv _ y).
    + destruct B3 as (l & Hl & He & T). destruct (Hin l Hl He) as (i & _ & Hp & Hv). destruct (Hxy l Hl He) as (x & y & Tx & Ty). exists i. split; [exact Hp|]. now apply (Hv _ y).
    + destruct B4 as (l & Hl & He & T). destruct (Hin l Hl He) as (i & _ & Hp & Hv). destruct (Hxy l Hl He) as (x & y & Tx & Ty). exists i. split; [exact Hp|]. now apply (Hv x).
    + destruct B5 as (l & Hl & He & T). destruct (Hin l Hl He) as (i & _ & Hp & Hv). destruct (Hxy l Hl He) as (x & y & Tx & Ty). exists i. split; [exact Hp|]. now apply (Hv x).
Qed.

(** ** Translation *)

Lemma plain_run : forall ss a, Forall e_plain ss -> t_run a Homed ss <> None.
Proof.
  intros ss a. assert (G : Forall e_plain ss -> forall p, p = Homed \/ p = Placed -> t_run a p ss <> None).
  { intros H. induction H as [|s ss Hs _ IH]; intros p Hp; cbn [t_run]; [discriminate|]. unfold t_step, e_plain in *.
    destruct (op_of s) as [w e f|w|w e| | | | | | |n|]; try contradiction; try (apply IH; exact Hp).
    - apply IH. destruct (named w a); [|exact Hp]. destruct Hp as [-> | ->]; auto.
    - destruct (negb (named w X || named w Y || named w Z) || named w a); [|apply IH; exact Hp].
      destruct Hp as [-> | ->]; apply IH; auto. }
  intros H. now apply G; [|left].
Qed.

(** a line of a program without G92, as it is written *)
Lemma tr_plain : forall s (l : line A) st, reads E s l -> e_plain s ->
  let s' := raw (answer tr_opcode st l) in
  feeds s' = feeds s /\ e_plain s' /\ (clear_words s -> clear_words s') /\ no_rebase_e s'.
Proof.
  intros s l st Hr Hp s'.
  assert (Hsame : s' = s -> feeds s' = feeds s /\ e_plain s' /\ (clear_words s -> clear_words s') /\ no_rebase_e s').
  { intros ->. split; [reflexivity|]. split; [exact Hp|]. split; [auto|]. unfold no_rebase_e, e_plain in *. destruct (op_of s); auto; contradiction. }
  destruct (op_of s) as [w e f|w|w e| | | | | | |n|] eqn:Eop.
  1: { destruct (tr_absolute st) as [[|]|] eqn:Et.
       - destruct (tr_move E s l st w e f Hr Eop Et) as (_ & w' & e' & f' & Ho & _ & He). fold s' in Ho.
         unfold feeds, e_plain, clear_words, no_rebase_e. rewrite Eop, Ho.
         split; [destruct e, e'; cbn in He; try contradiction; reflexivity|auto].
       - apply Hsame. pose proof (reads_motion E s l Hr) as Hm. unfold s', answer, tr_opcode. rewrite cmd_in_motion, Et.
         pose proof (reads_op E s l Hr) as Hk. rewrite Eop in Hk. destruct Hk as (Hm2 & _). rewrite Hm2. apply Hr.
       - apply Hsame. pose proof (reads_motion E s l Hr) as Hm. unfold s', answer, tr_opcode. rewrite cmd_in_motion, Et.
         pose proof (reads_op E s l Hr) as Hk. rewrite Eop in Hk. destruct Hk as (Hm2 & _). rewrite Hm2. apply Hr. }
  2: { unfold e_plain in Hp. rewrite Eop in Hp. contradiction. }
  all: apply Hsame; apply (tr_other E s l st Hr); rewrite Eop; exact I.
Qed.

Lemma tr_run_plain : forall ss (ls : list (line A)), Forall2 (reads E) ss ls -> Forall e_plain ss -> Forall clear_words ss -> forall st,
  Forall clear_words (map raw (answers tr_opcode st ls)) /\ Forall no_rebase_e (map raw (answers tr_opcode st ls)) /\
  forall i s, nth_error ss i = Some s -> exists s', nth_error (map raw (answers tr_opcode st ls)) i = Some s' /\ feeds s' = feeds s.
Proof.
  intros ss ls H. induction H as [|s l ss ls Hr _ IH]; intros Hp Hc st; cbn [answers map].
  - split; [constructor|]. split; [constructor|]. intros [|i] s Hi; discriminate Hi.
  - inversion Hp; subst. inversion Hc; subst. destruct (tr_plain s l st Hr ltac:(assumption)) as (T1 & _ & T2 & T3). cbv zeta in *.
    destruct (IH ltac:(assumption) ltac:(assumption) (fst (tr_opcode st l))) as (I1 & I2 & I3).
    split; [constructor; auto|]. split; [constructor; auto|]. intros [|i] t Hi; cbn in *; [|now apply I3]. injection Hi as <-. eauto.
Qed.

Lemma tr_length : forall (ls : list (line A)) st, List.length (answers tr_opcode st ls) = List.length ls.
Proof. induction ls as [|l ls IH]; intros st; cbn; [reflexivity|]. now rewrite IH. Qed.

Lemma box_shift : forall home data x y (g g1 h : gcode A), load_gen false home data = Ok g ->
  translate x y g = Ok g1 -> load_gen false home (write g1) = Ok h ->
  (forall a, home_of E home a = 0) -> declared (program_text data) = true ->
  Forall e_plain (program_text data) -> Forall clear_words (program_text data) ->
  sharp (program_text data) (start (fun _ => 0)) -> placed (program_text data) (start (fun _ => 0)) ->
  / 200000 < val (g_filament g) ->
  Rabs (val (g_filament h) - val (g_filament g)) <= / 200000 /\
  Rabs (val (g_xmin h) - (val (g_xmin g) + amount E x)) <= / 1000 /\
  Rabs (val (g_xmax h) - (val (g_xmax g) + amount E x)) <= / 1000 /\
  Rabs (val (g_ymin h) - (val (g_ymin g) + amount E y)) <= / 1000 /\
  Rabs (val (g_ymax h) - (val (g_ymax g) + amount E y)) <= / 1000.
Proof.
  intros home data x y g g1 h Hg H1 Hh H0 Hd Hp Hc Hs Hpl Hf.
  assert (Hst : start (home_of E home) = start (fun _ => 0)).
  { unfold start. f_equal. apply FunctionalExtensionality.functional_extensionality. exact H0. }
  assert (Hin : Forall (fun s => op_of s <> Inches) (program_text data)).
  { eapply Forall_impl; [|exact Hp]. intros s Hs' Ho. unfold e_plain in Hs'. rewrite Ho in Hs'. exact Hs'. }
  assert (Hn : Forall no_rebase_e (program_text data)).
  { eapply Forall_impl; [|exact Hp]. intros s Hs'. unfold e_plain in Hs'. unfold no_rebase_e. destruct (op_of s); auto; contradiction. }
  assert (Ht : program_text (write g1) = write g1).
  { apply tight_text, (translate_text _ _ _ _ H1), (load_tight _ _ _ _ Hg). }
  destruct (translate_pure _ _ _ _ H1) as (P1 & _).
  destruct (tr_run_plain _ _ (load_reads E _ _ _ Hg Hin) Hp Hc (tr_init x y)) as (C1 & N1 & F1).
  rewrite <- P1, <- write_all in C1, N1, F1.
  assert (Hlen : List.length (write g1) = List.length (program_text data)).
  { rewrite write_all, P1, map_length, tr_length. rewrite <- (load_write _ _ _ _ Hg), write_all, map_length. reflexivity. }
  pose proof (translate_feeds E _ _ _ _ _ _ (fun _ => 0) Hg H1 Hp) as Hfe.
  set (e i := extruder (run (firstn i (program_text data)) (start (fun _ => 0)))) in *.
  set (e' i := extruder (run (firstn i (write g1)) (start (fun _ => 0)))) in *.
  assert (Hfe' : forall i, Rabs (e' i - e i) <= / 200000) by exact Hfe.
  (* what is printed *)
  assert (Hpr : forall i, prints (write g1) (start (fun _ => 0)) i <-> prints (program_text data) (start (fun _ => 0)) i).
  { intros i. unfold prints. fold (e i) (e (S i)) (e' i) (e' (S i)).
    destruct (nth_error (program_text data) i) as [s|] eqn:En.
    - destruct (F1 i s En) as (s' & En' & Hfs). destruct (feeds s) eqn:Ef.
      + specialize (Hs i s En Ef). fold (e i) (e (S i)) in Hs. pose proof (Hfe' i) as Q1. pose proof (Hfe' (S i)) as Q2.
        revert Hs Q1 Q2. generalize (e i), (e (S i)), (e' i), (e' (S i)). intros a b c d. unfold Rabs. repeat destruct Rcase_abs; lra.
      + assert (Hz : forall ss t k, nth_error ss i = Some t -> feeds t = false -> extruder (run (firstn (S i) ss) k) = extruder (run (firstn i ss) k)).
        { intros ss t k Ht' Hf'. rewrite (run_step _ _ _ _ Ht'). unfold feeds in Hf'. unfold exec_line.
          destruct (op_of t) as [w e0 f|w|w e0| | | | | | |n|]; cbn [exec extruder]; try reflexivity. destruct e0; [discriminate Hf'|reflexivity]. }
        unfold e, e'. rewrite (Hz _ _ _ En Ef), (Hz _ _ _ En' Hfs). lra.
    - apply nth_error_None in En. unfold e, e'. rewrite !firstn_all2 by lia. lra. }
  destruct (load_extrusion E _ _ _ _ Hg Hn) as (_ & _ & G1 & (ig & _ & G2) & _). cbv zeta in *. rewrite Hst in G1, G2.
  assert (N1' : Forall no_rebase_e (program_text (write g1))) by now rewrite Ht.
  destruct (load_extrusion E _ _ _ _ Hh N1') as (_ & _ & K1 & (ih & _ & K2) & _). cbv zeta in *. rewrite Hst, Ht in K1, K2.
  fold (e ig) in G2. fold (e' ih) in K2.
  assert (Hfil : Rabs (val (g_filament h) - val (g_filament g)) <= / 200000).
  { pose proof (G1 ih) as G3. pose proof (K1 ig) as K3. fold (e ih) in G3. fold (e' ig) in K3.
    pose proof (Hfe' ih) as Q1. pose proof (Hfe' ig) as Q2. revert G3 K3 Q1 Q2. rewrite G2, K2.
    generalize (e ig), (e ih), (e' ig), (e' ih). intros a b c d. unfold Rabs. repeat destruct Rcase_abs; lra. }
  split; [exact Hfil|].
  assert (Hf1 : 0 < val (g_filament g)) by lra.
  assert (Hf2 : 0 < val (g_filament h)).
  { revert Hfil. unfold Rabs. destruct Rcase_abs; lra. }
  assert (C1' : Forall clear_words (program_text (write g1))) by now rewrite Ht.
  pose proof (box_machine _ _ _ Hg Hc Hn Hf1) as BG. pose proof (box_machine _ _ _ Hh C1' N1' Hf2) as BH.
  cbv zeta in BG, BH. rewrite Hst in BG, BH. rewrite Ht in BH.
  destruct BG as (BG & (i1 & U1 & V1) & (i2 & U2 & V2) & (i3 & U3 & V3) & (i4 & U4 & V4)).
  destruct BH as (BH & (j1 & U1' & V1') & (j2 & U2' & V2') & (j3 & U3' & V3') & (j4 & U4' & V4')).
  assert (Hmv : forall i a, prints (program_text data) (start (fun _ => 0)) i -> a <> Z ->
    Rabs (head (run (firstn (S i) (write g1)) (start (fun _ => 0))) a -
          (head (run (firstn (S i) (program_text data)) (start (fun _ => 0))) a + shift_amount E x y a)) <= / 1000).
  { intros i a Hi Ha. destruct (translate_moves E _ _ _ _ _ _ Hg H1 Hd (fun b => plain_run _ b Hp) (S i) a) as (p & Ep & Hb).
    destruct (Hpl i Hi a Ha) as (q & Eq & Mq). rewrite Ep in Eq. injection Eq as <-. rewrite Mq in Hb. exact Hb. }
  assert (Hmin : forall lo lo' (a : axis), a <> Z ->
    (forall i, prints (program_text data) (start (fun _ => 0)) i -> lo <= head (run (firstn (S i) (program_text data)) (start (fun _ => 0))) a) ->
    (forall i, prints (write g1) (start (fun _ => 0)) i -> lo' <= head (run (firstn (S i) (write g1)) (start (fun _ => 0))) a) ->
    (exists i, prints (program_text data) (start (fun _ => 0)) i /\ head (run (firstn (S i) (program_text data)) (start (fun _ => 0))) a = lo) ->
    (exists i, prints (write g1) (start (fun _ => 0)) i /\ head (run (firstn (S i) (write g1)) (start (fun _ => 0))) a = lo') ->
    Rabs (lo' - (lo + shift_amount E x y a)) <= / 1000).
  { intros lo lo' a Ha L1 L2 (i & Pi & Ei) (j & Pj & Ej).
    pose proof (L1 j (proj1 (Hpr j) Pj)) as M1. pose proof (L2 i (proj2 (Hpr i) Pi)) as M2.
    pose proof (Hmv i a Pi Ha) as Q1. pose proof (Hmv j a (proj1 (Hpr j) Pj) Ha) as Q2. rewrite Ei in Q1. rewrite Ej in Q2.
    revert M1 M2 Q1 Q2. generalize (shift_amount E x y a).
    generalize (head (run (firstn (S j) (program_text data)) (start (fun _ => 0))) a).
    generalize (head (run (firstn (S i) (write g1)) (start (fun _ => 0))) a). intros u v t.
    unfold Rabs. repeat destruct Rcase_abs; lra. }
  assert (Hmax : forall hi hi' (a : axis), a <> Z ->
    (forall i, prints (program_text data) (start (fun _ => 0)) i -> head (run (firstn (S i) (program_text data)) (start (fun _ => 0))) a <= hi) ->
    (forall i, prints (write g1) (start (fun _ => 0)) i -> head (run (firstn (S i) (write g1)) (start (fun _ => 0))) a <= hi') ->
    (exists i, prints (program_text data) (start (fun _ => 0)) i /\ head (run (firstn (S i) (program_text data)) (start (fun _ => 0))) a = hi) ->
    (exists i, prints (write g1) (start (fun _ => 0)) i /\ head (run (firstn (S i) (write g1)) (start (fun _ => 0))) a = hi') ->
    Rabs (hi' - (hi + shift_amount E x y a)) <= / 1000).
  { intros lo lo' a Ha L1 L2 (i & Pi & Ei) (j & Pj & Ej).
    pose proof (L1 j (proj1 (Hpr j) Pj)) as M1. pose proof (L2 i (proj2 (Hpr i) Pi)) as M2.
    pose proof (Hmv i a Pi Ha) as Q1. pose proof (Hmv j a (proj1 (Hpr j) Pj) Ha) as Q2. rewrite Ei in Q1. rewrite Ej in Q2.
    revert M1 M2 Q1 Q2. generalize (shift_amount E x y a).
    generalize (head (run (firstn (S j) (program_text data)) (start (fun _ => 0))) a).
    generalize (head (run (firstn (S i) (write g1)) (start (fun _ => 0))) a). intros u v t.
    unfold Rabs. repeat destruct Rcase_abs; lra. }
  split; [|split; [|split]].
  - apply (Hmin _ _ X ltac:(discriminate)); [intros i Hi; apply (BG i Hi)|intros i Hi; apply (BH i Hi)|eauto|eauto].
  - apply (Hmax _ _ X ltac:(discriminate)); [intros i Hi; apply (BG i Hi)|intros i Hi; apply (BH i Hi)|eauto|eauto].
  - apply (Hmin _ _ Y ltac:(discriminate)); [intros i Hi; apply (BG i Hi)|intros i Hi; apply (BH i Hi)|eauto|eauto].
  - apply (Hmax _ _ Y ltac:(discriminate)); [intros i Hi; apply (BG i Hi)|intros i Hi; apply (BH i Hi)|eauto|eauto].
Qed.

End Exact.

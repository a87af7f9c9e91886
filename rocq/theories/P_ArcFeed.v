(** * P_ArcFeed: angles and extrusion of arcs (C53, C55) *)
From Coq Require Import List Ascii String ZArith NArith Bool Reals Lra Lia.
From Verif Require Import PyBase Arith ArithR Gcoder Filters Arc SpecText SpecLoad SpecMachine SpecFilter SpecArc.
From Verif Require Import P_Load P_Measure P_Filter P_Arc P_ArcFit.
Import ListNotations.
Local Open Scope list_scope.
Local Open Scope R_scope.

Lemma same_length : forall S T (P : S -> T -> Prop) l r, Forall2 P l r -> List.length l = List.length r.
Proof. intros S T P l r H. induction H; cbn; congruence. Qed.

(** C55 *)
Lemma phase_diff_normal : forall a b : R, - PI <= a <= PI -> - PI <= b <= PI ->
  - PI <= phase_diff (A:=RA) a b <= PI /\
  exists k : BinNums.Z, phase_diff (A:=RA) a b = a - b + 2 * PI * IZR k.
Proof.
  intros a b Ha Hb. unfold phase_diff. cbv zeta. pose proof PI_RGT_0 as HP.
  destruct lits as (_ & _ & _ & _ & _ & _ & L2 & _).
  destruct (n_ltb (a:=RA) (n_sub (a:=RA) a b) (n_opp n_pi)) eqn:H1.
  - apply (val_ltb RA exactR) in H1. cbn in H1. rewrite L2. cbn [n_add n_sub n_mul n_pi RA].
    split; [lra|]. exists 1%Z. lra.
  - apply r_ltb_false in H1. cbn in H1.
    destruct (n_ltb (a:=RA) n_pi (n_sub (a:=RA) a b)) eqn:H2.
    + apply (val_ltb RA exactR) in H2. cbn in H2. rewrite L2. cbn [n_add n_sub n_mul n_pi RA].
      split; [lra|]. exists (-1)%Z. lra.
    + apply r_ltb_false in H2. cbn in H2. cbn [n_sub RA]. split; [lra|]. exists 0%Z. lra.
Qed.

Lemma atan_le0 : forall x, x <= 0 -> atan x <= 0.
Proof. intros x [H| ->]; [left; rewrite <- atan_0; apply atan_increasing, H|rewrite atan_0; lra]. Qed.
Lemma atan_ge0 : forall x, 0 <= x -> 0 <= atan x.
Proof. intros x [H| <-]; [left; rewrite <- atan_0; apply atan_increasing, H|rewrite atan_0; lra]. Qed.

Lemma r_phase_bound : forall x y, - PI <= r_phase x y <= PI.
Proof.
  intros x y. unfold r_phase. pose proof PI_RGT_0 as HP. pose proof (atan_bound (y / x)) as Hb.
  destruct (r_ltb 0 x) eqn:H1; [lra|].
  destruct (r_ltb x 0) eqn:H2.
  - apply r_ltb_iff in H2. assert (Hi : / x < 0) by (apply Rinv_lt_0_compat, H2).
    destruct (r_leb 0 y) eqn:H3.
    + apply r_leb_iff in H3. assert (Hq : y / x <= 0) by (unfold Rdiv; nra). apply atan_le0 in Hq. lra.
    + assert (H4 : y < 0).
      { apply Rnot_le_lt. intros H. apply r_leb_iff in H. congruence. }
      assert (Hq : 0 <= y / x) by (unfold Rdiv; nra). apply atan_ge0 in Hq. lra.
  - destruct (r_ltb 0 y), (r_ltb y 0); lra.
Qed.

Lemma diffs_bound : forall l x, - PI <= x <= PI -> Forall (fun p => - PI <= p <= PI) l ->
  Forall (fun d => - PI <= d <= PI) (diffs_from (A:=RA) x l).
Proof.
  induction l as [|y l IH]; intros x Hx Hl; cbn [diffs_from]; constructor.
  - inversion Hl; subst. apply phase_diff_normal; assumption.
  - inversion Hl; subst. apply IH; assumption.
Qed.

Lemma phase_diffs_bound : forall c ps, Forall (fun d => - PI <= d <= PI) (phase_diffs (A:=RA) c ps).
Proof.
  intros c ps. unfold phase_diffs. destruct ps as [|p ps]; cbn [map]; [constructor|].
  apply diffs_bound; [apply r_phase_bound|]. rewrite Forall_map. apply Forall_forall. intros q _. apply r_phase_bound.
Qed.

Lemma phase_diffs_length : forall (c : circle (A:=RA)) ps,
  List.length (phase_diffs c ps) = (List.length ps - 1)%nat.
Proof.
  intros c ps. unfold phase_diffs. destruct ps as [|p ps]; cbn [map]; [reflexivity|].
  assert (H : forall l x, List.length (diffs_from (A:=RA) x l) = List.length l).
  { induction l as [|y l IH]; intros x; cbn [diffs_from List.length]; [reflexivity|]. now rewrite IH. }
  rewrite H, map_length. cbn. lia.
Qed.

(** the arc is longer than its chord *)
Lemma arc_ratio : forall a, - PI <= a <= PI -> a <> 0 -> 0 < sin (a / 2) * a /\ sin (a / 2) * a <= a * a / 2.
Proof.
  assert (Hpos : forall a, 0 < a <= PI -> 0 < sin (a / 2) /\ sin (a / 2) <= a / 2).
  { intros a H. split; [apply sin_gt_0; lra|]. left. apply sin_lt_x. lra. }
  intros a Ha Hn. destruct (Rle_or_lt a 0) as [Hle|Hgt].
  - destruct (Hpos (- a)) as [H1 H2]; [lra|]. replace (- a / 2) with (- (a / 2)) in * by lra.
    rewrite sin_neg in *. split; nra.
  - destruct (Hpos a) as [H1 H2]; [lra|]. split; nra.
Qed.

Lemma arc_term_ge : forall (c : circle (A:=RA)) s a t, arc_term c (s, a) = Ok t ->
  0 < s_fil (A:=RA) s -> - PI <= a <= PI -> (s_fil s : R) <= t.
Proof.
  intros c s a t H Hs Ha. unfold arc_term in H. apply py_div_R in H as [Hd ->].
  destruct lits as (_ & _ & _ & _ & _ & _ & L2 & _). rewrite L2 in *.
  cbn [n_mul n_sin n_div RA] in *. set (r := c_radius c) in *. set (f := s_fil s) in *.
  assert (Hr : r <> 0) by (intros Hr; apply Hd; rewrite Hr; lra).
  assert (Hsin : sin (a / 2) <> 0) by (intros Hz; apply Hd; rewrite Hz; lra).
  assert (Hne : a <> 0).
  { intros ->. apply Hsin. replace (0 / 2) with 0 by lra. apply sin_0. }
  destruct (arc_ratio a Ha Hne) as [H1 H2].
  replace (f * (r * a) / (2 * r * sin (a / 2))) with (f * (a / (2 * sin (a / 2)))) by (field; auto).
  assert (Hq : 1 <= a / (2 * sin (a / 2))).
  { replace (a / (2 * sin (a / 2))) with (a * a / (2 * (sin (a / 2) * a))) by (field; auto).
    apply Rmult_le_reg_r with (2 * (sin (a / 2) * a)); [lra|].
    unfold Rdiv. rewrite Rmult_assoc, Rinv_l by lra. lra. }
  nra.
Qed.

Lemma py_sum_R : forall l : list R, py_sum (A:=RA) l = fold_right Rplus 0 l.
Proof.
  intros l. unfold py_sum. destruct lits as (_ & _ & _ & _ & -> & _).
  assert (H : forall l a, fold_left (n_add (a:=RA)) l a = a + fold_right Rplus 0 l).
  { clear. induction l as [|x l IH]; intros a; cbn [fold_left fold_right]; [cbn; lra|].
    rewrite IH. cbn [n_add RA]. lra. }
  rewrite H. lra.
Qed.

(** measures in relative mode: the filament is the E word *)
Lemma measures_rel : forall (ls : list (line RA)) prev ss, measures prev ls = Ok ss ->
  Forall (fun l => t_relative_e (lnotes l) = Some true) ls ->
  Forall2 (fun l s => l_e l = Some (s_fil s) /\
     (if n_ltb (s_path s) epsilon then s_ratio s = n0 else py_div (s_fil s) (s_path s) = Ok (s_ratio s))) ls ss.
Proof.
  induction ls as [|l ls IH]; intros prev ss H Hr; cbn [measures] in H.
  - injection H as <-. constructor.
  - destruct (measure prev l) as [s|e] eqn:Hm; cbn [bind] in H; [|discriminate H].
    destruct (measures l ls) as [t|e] eqn:Ht; cbn [bind] in H; [|discriminate H].
    injection H as <-. inversion Hr as [|? ? Hl Hr']; subst.
    constructor; [|apply (IH l t Ht Hr')].
    unfold measure in Hm.
    destruct (place l) as [p|e]; cbn [bind] in Hm; [|discriminate Hm].
    destruct (place prev) as [p'|e]; cbn [bind] in Hm; [|discriminate Hm].
    rewrite Hl in Hm. cbv zeta in Hm. destruct (l_e l) as [e|]; cbn [need bind] in Hm; [|discriminate Hm].
    destruct (n_ltb (py_round 7 (distance_to p p')) epsilon) eqn:Hp; cbn [bind] in Hm.
    + apply ok_inj in Hm. rewrite <- Hm. cbn [s_fil s_path s_ratio]. rewrite Hp. auto.
    + destruct (py_div e (py_round 7 (distance_to p p'))) as [q|] eqn:Hq; cbn [bind] in Hm; [|discriminate Hm].
      apply ok_inj in Hm. rewrite <- Hm. cbn [s_fil s_path s_ratio]. rewrite Hp. auto.
Qed.

(** the filament of every entry of an accepted run is positive *)
Lemma accepted_positive : forall (first : line RA) run ss fil ratio, run <> [] ->
  (forall l, In l run -> l_e l <> None) ->
  queue_error (first :: run) = Ok false -> get_distances (first :: run) = Ok (ss, fil, ratio) ->
  Forall (fun l => t_relative_e (lnotes l) = Some true) run ->
  Forall2 (fun l s => l_e l = Some (s_fil s) /\ 0 < (s_fil (A:=RA) s)) run ss.
Proof.
  intros first run ss fil ratio Hne He Hq Hd Hr. unfold queue_error in Hq.
  destruct run as [|l1 t]; [congruence|].
  match type of Hq with (if negb ?a then _ else _) = _ => destruct a; cbn [negb] in Hq; [|discriminate Hq] end.
  assert (Hs : is_some (l_e l1) = true).
  { specialize (He l1 (or_introl eq_refl)). destruct (l_e l1); [reflexivity|congruence]. }
  rewrite Hs, Hd in Hq. cbn [bind] in Hq.
  destruct (n_ltb ratio epsilon) eqn:Hlt; [discriminate Hq|].
  destruct (mapM (fun s => py_div (s_ratio s) ratio) ss) as [rs|e] eqn:Hm; cbn [bind] in Hq; [|discriminate Hq].
  destruct (forallb (fun r => n_ltb (n_abs (n_sub r n1)) extrusion_error) rs) eqn:Hf; [|discriminate Hq].
  destruct lits as (_ & _ & L3 & L4 & L0 & L1 & _).
  apply r_ltb_false in Hlt. rewrite L3 in Hlt.
  unfold get_distances in Hd.
  destruct (measures first (l1 :: t)) as [ss'|e] eqn:Hms; cbn [bind] in Hd; [|discriminate Hd].
  match type of Hd with bind ?m _ = _ => destruct m; cbn [bind] in Hd; [|discriminate Hd] end.
  injection Hd as -> _ ->. apply measures_rel in Hms; [|exact Hr].
  apply mapM_ok in Hm. clear - Hms Hm Hf Hlt L0 L1 L3 L4.
  revert rs Hm Hf. induction Hms as [|l s ls ss [Hl Hrat] Hls IH]; intros rs Hm Hf; [constructor|].
  inversion Hm as [|? q ? rs' Hq Hm']; subst. cbn [forallb] in Hf. apply andb_prop in Hf as [Hf1 Hf2].
  constructor; [|apply (IH rs' Hm' Hf2)]. split; [exact Hl|].
  apply py_div_R in Hq as [Hne ->]. apply (val_ltb RA exactR) in Hf1.
  rewrite L1, L4 in Hf1. cbn [val exactR n_abs n_sub RA] in Hf1.
  apply Rabs_def2 in Hf1.
  assert (Hq : 0 < s_ratio (A:=RA) s / ratio) by lra.
  assert (Hrp : 0 < ratio) by lra.
  assert (Hsr : 0 < s_ratio (A:=RA) s).
  { replace (s_ratio (A:=RA) s) with (s_ratio (A:=RA) s / ratio * ratio) by (field; lra). nra. }
  destruct (n_ltb (s_path s) epsilon) eqn:Hp.
  - rewrite Hrat, L0 in Hsr. lra.
  - apply r_ltb_false in Hp. rewrite L3 in Hp. apply py_div_R in Hrat as [Hne2 Heq].
    rewrite Heq in Hsr.
    replace (s_fil (A:=RA) s) with (s_fil (A:=RA) s / s_path s * s_path s) by (field; exact Hne2). nra.
Qed.

Lemma accepted_feeds : forall (first : line RA) run gen,
  accepted (fun q => exists rest, steady q rest) first run gen -> feeds_enough first run gen.
Proof.
  intros first run gen Hacc Hrel. pose proof (accepted_fitted _ _ _ Hacc) as (Hlen & Hmv & _ & _).
  destruct Hacc as (_ & Hab & Hq & Harc & _).
  assert (Hne : run <> []) by (intros ->; cbn in Hlen; lia).
  assert (He : forall l, In l run -> l_e l <> None).
  { intros l Hin. rewrite Forall_forall in Hmv. apply (Hmv l Hin). }
  unfold arc_of in Harc.
  destruct (get_circle (first :: run)) as [[er oc]|ex]; cbn [bind] in Harc; [|discriminate Harc].
  destruct (get_distances (first :: run)) as [[[ss fil] ratio]|ex] eqn:Hd; cbn [bind] in Harc; [|discriminate Harc].
  destruct oc as [c|]; [|discriminate Harc].
  destruct (mapM place (first :: run)) as [ps|ex] eqn:Hps; cbn [bind] in Harc; [|discriminate Harc].
  assert (Hlast : t_relative_e (lnotes (last (first :: run) first)) = Some true).
  { rewrite Forall_forall in Hrel. apply Hrel. destruct run as [|r0 t]; [congruence|].
    change (last (first :: r0 :: t) first) with (last (r0 :: t) first).
    destruct (exists_last (l := r0 :: t)) as (p & y & ->); [discriminate|].
    rewrite last_last. apply in_or_app. right. now left. }
  rewrite Hlast in Harc.
  destruct (mapM (arc_term c) (combine ss (phase_diffs c ps))) as [ts|ex] eqn:Hts; cbn [bind] in Harc; [|discriminate Harc].
  injection Harc as <-.
  pose proof (accepted_positive first run ss fil ratio Hne He Hq Hd Hrel) as Hpos.
  apply mapM_ok in Hps, Hts.
  assert (Hal : List.length (phase_diffs c ps) = List.length run).
  { rewrite phase_diffs_length, <- (same_length _ _ _ _ _ Hps). cbn. lia. }
  pose proof (phase_diffs_bound c ps) as Hb.
  assert (Hsum : total_e run <= fold_right Rplus 0 ts /\ 0 <= total_e run /\ (run <> [] -> 0 < total_e run)).
  { clear - Hpos Hts Hal Hb. revert Hts Hal Hb. generalize (phase_diffs c ps) as alphas. revert ts.
    induction Hpos as [|l s ls ss [Hl Hs] Hls IH]; intros ts alphas Hts Hal Hb.
    - cbn in Hts. inversion Hts; subst. cbn. split; [lra|]. split; [lra|congruence].
    - destruct alphas as [|a alphas]; [discriminate Hal|]. cbn [combine] in Hts.
      inversion Hts as [|? t0 ? ts' Ht0 Hts']; subst. inversion Hb as [|? ? Ha Hb']; subst.
      destruct (IH ts' alphas Hts' ltac:(injection Hal as Hal; exact Hal) Hb') as (H1 & H2 & _).
      pose proof (arc_term_ge c s a t0 Ht0 Hs Ha) as H3. change (total_e (l :: ls)) with (match l_e l with Some e => e + total_e ls | None => total_e ls end).
      rewrite Hl. cbn [fold_right]. split; [lra|]. split; [lra|]. intros _. lra. }
  destruct Hsum as (H1 & _ & H2). split; [apply H2, Hne|].
  eexists _, _. split; [reflexivity|]. split; [apply arc_line_is_arc|]. split; [reflexivity|].
  rewrite py_sum_R. exact H1.
Qed.

Lemma arcs_feed : forall home data (g g' : gcode RA), load_gen false home data = Ok g ->
  optimize_arcs g = Ok g' -> exists n, replaced feeds_enough n (all_lines g) (all_lines g').
Proof.
  intros home data g g' Hl H. destruct (optimize_steady _ _ _ _ Hl H) as [n Hn].
  exists n. eapply replaced_mono; [|exact Hn]. exact accepted_feeds.
Qed.

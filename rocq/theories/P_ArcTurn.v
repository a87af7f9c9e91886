(** * P_ArcTurn: angles of the replaced segments (C94, C95) *)
From Coq Require Import List Ascii String ZArith NArith Bool Reals Lra Lia.
From Verif Require Import PyBase Arith ArithR Gcoder Filters Arc SpecText SpecLoad SpecMachine SpecFilter SpecArc.
From Verif Require Import P_Load P_Format P_Measure P_Filter P_FilterMotion P_Arc P_ArcFit P_ArcFeed.
Import ListNotations.
Local Open Scope list_scope.
Local Open Scope R_scope.

(** ** Polar coordinates *)

Lemma atan_polar : forall x y, x <> 0 -> exists d, 0 < d /\ Rabs x = d * cos (atan (y / x)) /\
  (if r_ltb 0 x then y else - y) = d * sin (atan (y / x)).
Proof.
  intros x y Hx. set (t := y / x). assert (Hq : 0 < sqrt (1 + t * t)) by (apply sqrt_lt_R0; nra).
  exists (Rabs x * sqrt (1 + t * t)). split; [apply Rmult_lt_0_compat; [apply Rabs_pos_lt, Hx|exact Hq]|].
  rewrite cos_atan, sin_atan. unfold Rsqr. split; [field; lra|].
  replace (Rabs x * sqrt (1 + t * t) * (t / sqrt (1 + t * t))) with (Rabs x * t) by (field; lra).
  unfold t. destruct (r_ltb 0 x) eqn:H.
  - apply r_ltb_iff in H. rewrite Rabs_right by lra. field. exact Hx.
  - assert (H' : x < 0) by (destruct (Rtotal_order x 0) as [G|[G|G]]; [exact G|contradiction|];
      apply r_ltb_iff in G; congruence).
    rewrite Rabs_left by exact H'. field. exact Hx.
Qed.

Lemma r_phase_polar : forall x y, exists d, 0 <= d /\ x = d * cos (r_phase x y) /\ y = d * sin (r_phase x y).
Proof.
  intros x y. unfold r_phase. destruct (r_ltb 0 x) eqn:H1.
  - pose proof H1 as H. apply r_ltb_iff in H. destruct (atan_polar x y) as (d & Hd & Hc & Hs); [lra|].
    rewrite H1 in Hs. rewrite Rabs_right in Hc by lra. exists d. repeat split; try assumption; lra.
  - destruct (r_ltb x 0) eqn:H2.
    + pose proof H2 as H. apply r_ltb_iff in H. destruct (atan_polar x y) as (d & Hd & Hc & Hs); [lra|].
      rewrite H1 in Hs. rewrite Rabs_left in Hc by lra. exists d. split; [lra|].
      assert (Hm : cos (atan (y / x) - PI) = - cos (atan (y / x)) /\ sin (atan (y / x) - PI) = - sin (atan (y / x))).
      { unfold Rminus. rewrite cos_plus, sin_plus, cos_neg, sin_neg, cos_PI, sin_PI. split; ring. }
      destruct (r_leb 0 y); [rewrite neg_cos, neg_sin|destruct Hm as [-> ->]]; split; lra.
    + assert (Hx : x = 0).
      { destruct (Rtotal_order x 0) as [G|[G|G]]; [|exact G|]; apply r_ltb_iff in G; congruence. }
      subst x. destruct (r_ltb 0 y) eqn:H3.
      * apply r_ltb_iff in H3. exists y. rewrite cos_PI2, sin_PI2. repeat split; lra.
      * destruct (r_ltb y 0) eqn:H4.
        -- apply r_ltb_iff in H4. exists (- y). rewrite cos_neg, sin_neg, cos_PI2, sin_PI2. repeat split; lra.
        -- assert (Hy : y = 0).
           { destruct (Rtotal_order y 0) as [G|[G|G]]; [|exact G|]; apply r_ltb_iff in G; congruence. }
           subst y. exists 0. repeat split; lra.
Qed.

Lemma phase_towards : forall (c p : R * R), towards (fst c) (snd c) p (phase_at (A:=RA) c p).
Proof.
  intros c p. unfold towards. change (phase_at (A:=RA) c p) with (r_phase (fst p - fst c) (snd p - snd c)).
  destruct (r_phase_polar (fst p - fst c) (snd p - snd c)) as (d & Hd & Hx & Hy).
  exists d. split; [exact Hd|]. split; lra.
Qed.

Lemma turn_full : forall t (k : BinNums.Z), cos (t + 2 * PI * IZR k) = cos t /\ sin (t + 2 * PI * IZR k) = sin t.
Proof.
  assert (Hn : forall t n, cos (t + 2 * PI * INR n) = cos t /\ sin (t + 2 * PI * INR n) = sin t).
  { intros t n. replace (t + 2 * PI * INR n) with (t + 2 * INR n * PI) by ring.
    split; [apply cos_period|apply sin_period]. }
  intros t k. destruct (Z.le_gt_cases 0 k) as [H|H].
  - rewrite <- (Z2Nat.id k H), <- INR_IZR_INZ. apply Hn.
  - replace k with (- Z.of_nat (Z.to_nat (- k)))%Z by lia. set (n := Z.to_nat (- k)).
    rewrite opp_IZR, <- INR_IZR_INZ. destruct (Hn (t + 2 * PI * - INR n) n) as [H1 H2].
    rewrite <- H1, <- H2. replace (t + 2 * PI * - INR n + 2 * PI * INR n) with t by ring. auto.
Qed.

Lemma towards_turn : forall x0 y0 p t (k : BinNums.Z), towards x0 y0 p t -> towards x0 y0 p (t + 2 * PI * IZR k).
Proof.
  intros x0 y0 p t k (d & H). exists d. destruct (turn_full t k) as [-> ->]. exact H.
Qed.

(** ** Steps *)

Lemma phase_in : forall c p, - PI <= phase_at (A:=RA) c p <= PI.
Proof. intros c p. apply r_phase_bound. Qed.

Lemma step_towards : forall (c p q : R * R),
  let d := phase_diff (A:=RA) (phase_at (A:=RA) c q) (phase_at (A:=RA) c p) in
  towards (fst c) (snd c) q (phase_at (A:=RA) c p + d) /\ - PI <= d <= PI.
Proof.
  intros c p q d. unfold d.
  destruct (phase_diff_normal (phase_at (A:=RA) c q) (phase_at (A:=RA) c p) (phase_in c q) (phase_in c p)) as (Hb & k & Hk).
  split; [|exact Hb]. rewrite Hk.
  replace (phase_at (A:=RA) c p + (phase_at (A:=RA) c q - phase_at (A:=RA) c p + 2 * PI * IZR k))
    with (phase_at (A:=RA) c q + 2 * PI * IZR k) by (cbn [num RA]; ring).
  apply towards_turn, phase_towards.
Qed.

Lemma phase_diffs_steps : forall (c : circle (A:=RA)) ps, ps <> [] ->
  steps (fst (c_center c)) (snd (c_center c)) ps (phase_diffs c ps).
Proof.
  intros c ps Hne. unfold phase_diffs. destruct ps as [|p ps]; [congruence|]. cbn [map]. clear Hne.
  revert p. induction ps as [|q ps IH]; intros p; cbn [map diffs_from]; [constructor|].
  destruct (step_towards (c_center c) p q) as [H1 H2].
  eapply steps_next; [apply phase_towards|exact H1|exact H2|]. apply IH.
Qed.

Lemma n_of_nat_R : forall n, n_of_nat (A:=RA) n = INR n.
Proof.
  intros n. unfold n_of_nat, lit. cbn. rewrite INR_IZR_INZ.
  rewrite ?nat_N_Z. lra.
Qed.

Lemma phase_error_R : phase_error (A:=RA) = 5 * PI / 180.
Proof. unfold phase_error. cbn. lra. Qed.

(** ** The accepted circle *)

Lemma accepted_circle : forall (first : line RA) run gen I, accepted I first run gen ->
  exists (c : circle (A:=RA)) arc fix_ (ps : list (R * R)), gen = arc :: fix_ /\ centre (fst (c_center c)) (snd (c_center c)) first arc /\
    Forall2 (fun l p => at_place l (fst p) (snd p)) (first :: run) ps /\
    least_squares (A:=RA) ps = Ok (Some c) /\
    Forall (fun d => d - mean (phase_diffs (A:=RA) c ps) <= 5 * PI / 180) (phase_diffs (A:=RA) c ps) /\
    command arc = Some (if n_ltb n0 (c_direction c) then "G3" else "G2")%string.
Proof.
  intros first run gen I (Hlen & Hab & Hq & Harc & _).
  destruct (queue_error_ok _ _ Hq) as (Hne & _ & _ & (oc & Hg)).
  destruct (arc_of_words _ _ _ Harc) as (c & ea & rel & fx & Hg2 & Hgen).
  rewrite Hg in Hg2. injection Hg2 as ->.
  destruct (get_circle_ok _ _ _ Hg) as (_ & _ & Hs & _).
  unfold get_circle in Hg.
  destruct (mapM place (first :: run)) as [ps|e] eqn:Hp; cbn [bind] in Hg; [|discriminate Hg].
  destruct (least_squares ps) as [[c'|]|e] eqn:Hl; cbn [bind] in Hg; try discriminate Hg.
  destruct (n_ltb max_radius (c_radius c')) eqn:Hr; [discriminate Hg|].
  destruct (existsb (n_ltb alignment_error) (radius_errors c' ps)) eqn:He; [discriminate Hg|].
  destruct (angle_errors c' ps) as [errs|e] eqn:Ha; cbn [bind] in Hg; [|discriminate Hg].
  assert (Hx : existsb (n_ltb phase_error) errs = false) by congruence.
  assert (c' = c) by congruence. subst c'. clear Hg. apply mapM_ok in Hp.
  exists c. eexists _, fx, ps. split; [exact Hgen|]. split; [|split; [|split; [exact Hl|split; [|reflexivity]]]].
  - exists (fst (c_start c)), (snd (c_start c)). split; [exact Hs|].
    split; (eexists; split; [reflexivity|apply round3]).
  - clear - Hp. induction Hp as [|l p ls ps H Hp IH]; constructor; [apply place_at, H|exact IH].
  - unfold angle_errors in Ha.
    destruct (py_div (py_sum (phase_diffs c ps)) (n_of_nat (List.length (phase_diffs c ps)))) as [avg|e] eqn:Hv;
      cbn [bind] in Ha; [|discriminate Ha].
    injection Ha as <-. apply py_div_R in Hv as [_ Hv].
    rewrite py_sum_R, n_of_nat_R in Hv. fold (mean (phase_diffs c ps)) in Hv. subst avg.
    apply existsb_false in Hx. rewrite Forall_map in Hx. eapply Forall_impl; [|exact Hx].
    intros d Hd. cbn beta in Hd. apply r_ltb_false in Hd. rewrite phase_error_R in Hd. exact Hd.
Qed.

Lemma accepted_spaced : forall (first : line RA) run gen I, accepted I first run gen -> spaced first run gen.
Proof.
  intros first run gen I H.
  destruct (accepted_circle _ _ _ _ H) as (c & arc & fx & ps & Hgen & Hc & Hps & _ & Hd & _).
  eexists _, _, ps, _, arc, fx. split; [exact Hgen|]. split; [exact Hc|]. split; [exact Hps|].
  split; [|exact Hd]. apply phase_diffs_steps. inversion Hps; discriminate.
Qed.

Lemma least_squares_direction : forall ps c, least_squares (A:=RA) ps = Ok (Some c) ->
  exists p0 p1 p2 t, ps = p0 :: p1 :: p2 :: t /\
    c_direction c = phase_diff (phase_at (c_center c) p2) (phase_at (c_center c) p0).
Proof.
  intros ps c H. unfold least_squares in H.
  repeat match type of H with
  | bind ?m _ = _ => let E := fresh in destruct m eqn:E; cbn [bind] in H; [|discriminate H]
  | (if ?b then _ else _) = _ => destruct b; [discriminate H|]
  | (let _ := _ in _) = _ => cbv zeta in H
  end.
  destruct ps as [|p0 [|p1 [|p2 t]]]; try discriminate H.
  match type of H with bind ?m _ = _ => destruct m; cbn [bind] in H; [|discriminate H] end.
  injection H as <-. exists p0, p1, p2, t. split; reflexivity.
Qed.

Lemma left_polar : forall x0 y0 p q t d, towards x0 y0 p t -> towards x0 y0 q (t + d) ->
  exists r, 0 <= r /\ left_of x0 y0 p q = r * sin d.
Proof.
  intros x0 y0 p q t d (a & Ha & A1 & A2) (b & Hb & B1 & B2).
  exists (a * b). split; [apply Rmult_le_pos; assumption|]. unfold left_of.
  rewrite A1, A2, B1, B2. replace d with ((t + d) - t) at 3 by ring. rewrite sin_minus. ring.
Qed.

Lemma accepted_turned : forall (first : line RA) run gen I, accepted I first run gen -> turned first run gen.
Proof.
  intros first run gen I H.
  destruct (accepted_circle _ _ _ _ H) as (c & arc & fx & ps & Hgen & Hc & Hps & Hl & _ & Hcmd).
  destruct (least_squares_direction _ _ Hl) as (p0 & p1 & p2 & t & -> & Hdir).
  inversion Hps as [|? ? ? ? P0 Hps1]; subst. inversion Hps1 as [|l1 ? run1 ? P1 Hps2]; subst.
  inversion Hps2 as [|l2 ? run2 ? P2 Hps3]; subst.
  exists (fst (c_center c)), (snd (c_center c)), p0, p2, arc, fx, l1, l2, run2. split; [reflexivity|]. split; [exact Hc|].
  split; [reflexivity|]. split; [exact P0|]. split; [exact P2|]. rewrite Hcmd.
  destruct (step_towards (c_center c) p0 p2) as [H2 Hb]. rewrite <- Hdir in H2, Hb.
  destruct (left_polar _ _ _ _ _ _ (phase_towards (c_center c) p0) H2) as (r & Hr & Hlf).
  destruct lits as (_ & _ & _ & _ & L0 & _). rewrite L0.
  destruct (n_ltb (a:=RA) 0 (c_direction c)) eqn:E.
  - left. split; [reflexivity|]. apply (val_ltb RA exactR) in E. cbn [val exactR] in E.
    eapply Rle_trans; [|apply Req_le; symmetry; exact Hlf].
    apply Rmult_le_pos; [exact Hr|]. apply sin_ge_0; lra.
  - right. split; [reflexivity|]. apply r_ltb_false in E.
    assert (Hs : sin (c_direction c) <= 0).
    { replace (c_direction c) with (- - c_direction c) by (cbn [num RA]; ring). rewrite sin_neg.
      assert (0 <= sin (- c_direction c)) by (apply sin_ge_0; lra). lra. }
    eapply Rle_trans; [apply Req_le; exact Hlf|]. nra.
Qed.

Lemma arcs_spaced : forall (g g' : gcode RA), optimize_arcs g = Ok g' ->
  exists n, replaced spaced n (all_lines g) (all_lines g').
Proof.
  intros g g' H. destruct (optimize_replaced (fun _ _ => True) g g') as [n Hn]; auto.
  exists n. eapply replaced_mono; [|exact Hn]. intros first run gen Ha. apply (accepted_spaced _ _ _ _ Ha).
Qed.

Lemma arcs_turned : forall (g g' : gcode RA), optimize_arcs g = Ok g' ->
  exists n, replaced turned n (all_lines g) (all_lines g').
Proof.
  intros g g' H. destruct (optimize_replaced (fun _ _ => True) g g') as [n Hn]; auto.
  exists n. eapply replaced_mono; [|exact Hn]. intros first run gen Ha. apply (accepted_turned _ _ _ _ Ha).
Qed.

(** ** Extrusion in absolute mode *)

Lemma distance_R : forall p q : R * R, distance_to (A:=RA) p q = distance (fst p) (snd p) (fst q) (snd q).
Proof. reflexivity. Qed.

Lemma last_any : forall T (l : list T) a b, l <> [] -> last l a = last l b.
Proof.
  induction l as [|x l IH]; intros a b H; [congruence|]. destruct l as [|y l]; [reflexivity|].
  apply (IH a b). discriminate.
Qed.

Lemma measures_abs : forall (ls : list (line RA)) prev ss ps, measures prev ls = Ok ss -> ls <> [] ->
  Forall (fun l => t_relative_e (lnotes l) <> Some true) ls ->
  Forall2 (fun x y => place x = Ok y) (prev :: ls) ps ->
  exists e0 e1, t_e (lnotes prev) = Some e0 /\ t_e (lnotes (last ls prev)) = Some e1 /\
    total (map s_fil ss) = e1 - e0 /\
    Rabs (total (map s_path ss) - path_length ps) <= INR (List.length ls) * (/ 2 / 10 ^ 7).
Proof.
  induction ls as [|l ls IH]; intros prev ss ps H Hne Hr Hp; [congruence|]. cbn [measures] in H.
  destruct (measure prev l) as [s|e] eqn:Hm; cbn [bind] in H; [|discriminate H].
  destruct (measures l ls) as [t|e] eqn:Ht; cbn [bind] in H; [|discriminate H].
  injection H as <-. inversion Hr as [|? ? Hl Hr']; subst.
  inversion Hp as [|? p ? ps1 P0 Hp1]; subst. pose proof Hp1 as Hp1'.
  inversion Hp1' as [|? q ? ps2 P1 Hp2]; subst.
  unfold measure in Hm. rewrite P1, P0 in Hm. cbn [bind] in Hm. cbv zeta in Hm.
  assert (Hrb : match t_relative_e (lnotes l) with Some b => b | None => false end = false)
    by (destruct (t_relative_e (lnotes l)) as [[]|]; [congruence|reflexivity|reflexivity]).
  rewrite Hrb in Hm.
  destruct (t_e (lnotes l)) as [e1|] eqn:E1; cbn [need bind] in Hm; [|discriminate Hm].
  destruct (t_e (lnotes prev)) as [e0|] eqn:E0; cbn [need bind] in Hm; [|discriminate Hm].
  match type of Hm with bind ?m _ = _ => destruct m; cbn [bind] in Hm; [|discriminate Hm] end.
  apply ok_inj in Hm. subst s. cbn [map total fold_right s_fil s_path].
  pose proof (py_round_err exactR 7 (distance_to (A:=RA) q p)) as Hd.
  cbn [val exactR] in Hd. rewrite distance_R in Hd at 2.
  assert (Hpl : path_length (p :: q :: ps2) = distance (fst q) (snd q) (fst p) (snd p) + path_length (q :: ps2))
    by reflexivity.
  rewrite Hpl. clear Hpl. cbn [n_sub RA].
  destruct ls as [|l2 ls].
  - cbn [measures] in Ht. injection Ht as <-. inversion Hp2; subst. cbn [map fold_right last path_length].
    exists e0, e1. split; [reflexivity|]. split; [exact E1|]. split; [cbn [num RA]; lra|].
    cbn [List.length INR]. rewrite Rmult_1_l. unfold Rminus in *. rewrite !Rplus_0_r. exact Hd.
  - destruct (IH l t (q :: ps2) Ht ltac:(discriminate) Hr' Hp1) as (e1' & e2 & G1 & G2 & G3 & G4).
    rewrite E1 in G1. injection G1 as <-. exists e0, e2. split; [reflexivity|].
    split; [rewrite (last_any _ (l :: l2 :: ls) prev l) by discriminate; exact G2|]. unfold total in G3, G4 |- *. rewrite G3. split; [cbn [num RA]; lra|].
    change (List.length (l :: l2 :: ls)) with (S (List.length (l2 :: ls))). rewrite S_INR.
    replace ((INR (List.length (l2 :: ls)) + 1) * (/ 2 / 10 ^ 7))
      with (/ 2 / 10 ^ 7 + INR (List.length (l2 :: ls)) * (/ 2 / 10 ^ 7)) by ring.
    eapply Rabs_add_le; [exact Hd|exact G4|cbn [num RA]; ring].
Qed.

Lemma accepted_even : forall (first : line RA) run gen I, accepted I first run gen -> feeds_evenly first run gen.
Proof.
  intros first run gen I (Hlen & Hab & Hq & Harc & _) Hrel.
  assert (Hne : run <> []) by (intros ->; cbn in Hlen; lia).
  destruct (queue_error_ok _ _ Hq) as (_ & _ & _ & (oc & Hg)).
  unfold arc_of in Harc. rewrite Hg in Harc. cbn [bind] in Harc.
  destruct (get_distances (first :: run)) as [[[ss fil] ratio]|ex] eqn:Hd; cbn [bind] in Harc; [|discriminate Harc].
  destruct oc as [c|]; [|discriminate Harc].
  destruct (mapM place (first :: run)) as [ps|ex] eqn:Hps; cbn [bind] in Harc; [|discriminate Harc].
  assert (Hin : In (last run first) run).
  { destruct run as [|x t]; [congruence|]. destruct (exists_last (l := x :: t)) as (p & y & ->); [discriminate|].
    rewrite last_last. apply in_or_app. right. now left. }
  assert (Hq' : last (first :: run) first = last run first) by (destruct run; reflexivity).
  rewrite Hq' in Harc.
  assert (Hrb : match t_relative_e (lnotes (last run first)) with Some b => b | None => false end = false).
  { rewrite Forall_forall in Hrel. specialize (Hrel _ Hin).
    destruct (t_relative_e (lnotes (last run first))) as [[]|]; [congruence|reflexivity|reflexivity]. }
  rewrite Hrb in Harc. cbv zeta in Harc.
  unfold get_distances in Hd.
  destruct (measures first run) as [ss'|e] eqn:Hms; cbn [bind] in Hd; [|discriminate Hd].
  destruct (py_div (py_sum (map s_fil ss')) (py_sum (map s_path ss'))) as [rt|e] eqn:Hrt; cbn [bind] in Hd; [|discriminate Hd].
  apply ok_inj in Hd. injection Hd as -> <- <-.
  apply py_div_R in Hrt as [Hs0 ->]. apply mapM_ok in Hps.
  destruct (measures_abs _ _ _ _ Hms Hne Hrel Hps) as (e0 & e1 & E0 & E1 & Hf & Hp).
  rewrite E0 in Harc. cbn [need bind] in Harc.
  match type of Harc with bind ?m _ = _ => destruct m as [rel|] eqn:Hrl; cbn [bind] in Harc; [|discriminate Harc] end.
  apply ok_inj in Harc. apply py_div_R in Hrl as [Hf0 ->].
  destruct (get_circle_ok _ _ _ Hg) as ([Hr _] & Hnear & Hst & _).
  assert (Hsum : py_sum (map (fun a => n_mul a (c_radius c)) (phase_diffs c ps)) = c_radius c * total (phase_diffs c ps)).
  { rewrite py_sum_R. unfold total. generalize (phase_diffs c ps). induction l as [|d l IH]; cbn [map fold_right].
    - cbn [num RA]. lra.
    - rewrite IH. cbn [n_mul RA num]. lra. }
  rewrite py_sum_R in Hs0, Hf0. change (fold_right Rplus 0 ?l) with (total l) in Hs0, Hf0.
  exists (fst (c_center c)), (snd (c_center c)), (c_radius c), ps, (phase_diffs c ps), (total (map s_path ss)), e0, e1.
  eexists _, _. split; [symmetry; exact Harc|].
  split.
  { exists (fst (c_start c)), (snd (c_start c)). split; [exact Hst|].
    split; (eexists; split; [reflexivity|apply round3]). }
  split.
  { clear - Hps. induction Hps as [|l p ls ps H Hp IH]; constructor; [apply place_at, H|exact IH]. }
  split; [apply phase_diffs_steps; inversion Hps; discriminate|].
  split; [exact Hr|]. split; [exact Hnear|]. split; [exact Hp|]. split; [exact Hs0|].
  split; [exact E0|]. split; [exact E1|]. cbv zeta.
  change (l_e (arc_line c ?e false ?f ?n)) with (Some e).
  assert (HF : py_sum (map s_fil ss) = e1 - e0) by (rewrite py_sum_R; exact Hf).
  assert (HP : py_sum (map s_path ss) = total (map s_path ss)) by (rewrite py_sum_R; reflexivity).
  assert (Hf0' : e1 - e0 <> 0) by (intros Hz; apply Hf0; rewrite <- Hz; exact Hf).
  set (ratio := c_radius c * total (phase_diffs c ps) / total (map s_path ss)).
  match goal with |- context [n_add e0 ?l] => assert (Hlen' : l = ratio * (e1 - e0)) end.
  { transitivity (c_radius c * total (phase_diffs c ps) * ((e1 - e0) / total (map s_path ss))).
    - apply (f_equal2 Rmult); [exact Hsum|]. apply (f_equal2 Rdiv); [exact HF|exact HP].
    - unfold ratio. cbn [num RA]. unfold Rdiv. ring. }
  match goal with |- context [n_sub (?l / ?f) n1] => assert (Hrel' : l / f = ratio) end.
  { transitivity (ratio * (e1 - e0) / (e1 - e0)); [apply (f_equal2 Rdiv); [exact Hlen'|exact HF]|].
    cbn [num RA]. field. exact Hf0'. }
  split; [apply (f_equal Some), (f_equal (Rplus e0)); exact Hlen'|].
  rewrite Hrel'. destruct lits as (_ & _ & _ & _ & _ & L1 & _ & L8). rewrite L1, L8. rewrite E1.
  destruct (n_ltb (a:=RA) (/ 100) (n_sub (a:=RA) ratio 1)) eqn:Hc.
  - right. apply (val_ltb RA exactR) in Hc. cbn [val exactR n_sub RA] in Hc. split; [lra|].
    eexists. split; [reflexivity|]. split; [|reflexivity]. split; [reflexivity|].
    intros k Hk. destruct k; try reflexivity. congruence.
  - left. apply r_ltb_false in Hc. cbn [n_sub RA] in Hc. split; [lra|reflexivity].
Qed.

Lemma arcs_even : forall (g g' : gcode RA), optimize_arcs g = Ok g' ->
  exists n, replaced feeds_evenly n (all_lines g) (all_lines g').
Proof.
  intros g g' H. destruct (optimize_replaced (fun _ _ => True) g g') as [n Hn]; auto.
  exists n. eapply replaced_mono; [|exact Hn]. intros first run gen Ha. apply (accepted_even _ _ _ _ Ha).
Qed.

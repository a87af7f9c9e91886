(** * P_ArcErr: when the arc optimizer raises (C52) *)
From Coq Require Import List Ascii String ZArith NArith Bool Lia.
From Verif Require Import PyBase Arith Gcoder Filters Arc SpecText SpecLoad SpecMachine SpecFilter SpecArc.
From Verif Require Import P_Load P_Text P_Filter P_Arc.
Import ListNotations.
Local Open Scope list_scope.

Section Err.
Context {A : arith}.
Notation num := (num A).
Notation line := (line A).

(** *** Short rows are left alone *)

Lemma short_row : forall ls n (q : list line), List.length q + n = 8 -> rows_within 8 n ls = true ->
  forall l rest, ls = l :: rest ->
  (absorbable l = true /\ exists l', same_line l l' /\ arc_opcode (q, false) l = Ok ((q ++ [l'], false), FList []) /\
     exists n', n = S n' /\ rows_within 8 n' rest = true) \/
  (absorbable l = false /\ arc_opcode (q, false) l = Ok (([], false), FList (q ++ [l])) /\
     rows_within 8 8 rest = true).
Proof.
  intros ls n q Hn Hrow l rest ->. cbn [rows_within] in Hrow.
  assert (Hc : same_line l (carry q l)) by apply carry_same.
  assert (Hcmd : command (carry q l) = command l) by apply Hc.
  destruct (absorbable l) eqn:Ha.
  - left. split; [reflexivity|]. exists (carry q l). split; [exact Hc|].
    destruct n as [|n']; [discriminate Hrow|]. split; [|exists n'; auto].
    unfold arc_opcode. rewrite app_length, Hcmd. cbn [List.length].
    assert (Hlt : (min_segments <? List.length q + 1) = false) by (apply Nat.ltb_ge; unfold min_segments; lia).
    assert (Hm : cmd_in (command l) move_gcodes || negb (is_some (command l)) = true).
    { rewrite cmd_in_motion. unfold absorbable in Ha. destruct (command l); cbn [is_some negb];
        [rewrite Ha; reflexivity|apply orb_true_r]. }
    rewrite Hlt, Hm. reflexivity.
  - right. split; [reflexivity|]. split; [|exact Hrow].
    assert (Hm : cmd_in (command l) move_gcodes = false /\ exists c, command l = Some c).
    { rewrite cmd_in_motion. unfold absorbable in Ha. destruct (command l) as [c|]; [|discriminate Ha]. eauto. }
    destruct Hm as [Hm [c Ec]].
    assert (Hcl : carry q l = l) by (unfold carry; rewrite Ec; reflexivity).
    unfold arc_opcode. rewrite Hcl, Hm. cbn [negb orb]. rewrite Ec. cbn [is_some negb].
    destruct (min_segments <? List.length (q ++ [l])); reflexivity.
Qed.

Lemma short_rewrites : forall s (ls : list line) outs s', rewrites arc_opcode s ls outs s' ->
  forall (q : list line) n (orig : list line), s = (q, false) -> List.length q + n = 8 -> rows_within 8 n ls = true ->
  Forall2 same_line orig q ->
  Forall2 same_line (orig ++ ls) (List.concat outs ++ fst s') /\
  exists q', s' = (q', false) /\ List.length q' <= 8.
Proof.
  intros s ls outs s' H. induction H as [s|s l s1 r ins outs s2 Hf Hr IH]; intros q n orig -> Hn Hrow Ho.
  - cbn. rewrite app_nil_r. split; [exact Ho|]. exists q. split; [reflexivity|lia].
  - destruct (short_row _ n q Hn Hrow l ins eq_refl) as [(Ha & l' & Hs & He & n' & -> & Hrow')|(Ha & He & Hrow')].
    + rewrite He in Hf. injection Hf as <- <-.
      destruct (IH (q ++ [l']) n' (orig ++ [l]) eq_refl) as [IH1 IH2].
      { rewrite app_length. cbn. lia. } { exact Hrow'. }
      { apply Forall2_app; [exact Ho|]. constructor; [exact Hs|constructor]. }
      split; [|exact IH2]. rewrite <- app_assoc in IH1. exact IH1.
    + rewrite He in Hf. injection Hf as <- <-.
      destruct (IH [] 8 [] eq_refl eq_refl Hrow') as [IH1 IH2]; [constructor|].
      split; [|exact IH2]. cbn [replacement List.concat]. rewrite <- !app_assoc.
      apply Forall2_app; [exact Ho|]. cbn. constructor; [apply same_line_refl|exact IH1].
Qed.

Lemma short_total : forall ls n (q : list line), List.length q + n = 8 -> rows_within 8 n ls = true ->
  exists outs s', rewrites arc_opcode (q, false) ls outs s'.
Proof.
  induction ls as [|l ls IH]; intros n q Hn Hrow.
  - exists [], (q, false). constructor.
  - destruct (short_row _ n q Hn Hrow l ls eq_refl) as [(Ha & l' & Hs & He & n' & -> & Hrow')|(Ha & He & Hrow')].
    + destruct (IH n' (q ++ [l'])) as (outs & s' & Hr); [rewrite app_length; cbn; lia|exact Hrow'|].
      eexists _, s'. econstructor; [exact He|exact Hr].
    + destruct (IH 8 []) as (outs & s' & Hr); [reflexivity|exact Hrow'|].
      eexists _, s'. econstructor; [exact He|exact Hr].
Qed.

Lemma rewrites_fun : forall St (f : St -> line -> res (St * fresult)) s ls outs s',
  rewrites f s ls outs s' -> forall pre l post outs1 s1 e, ls = pre ++ l :: post ->
  rewrites f s pre outs1 s1 -> f s1 l = Err e -> False.
Proof.
  intros St f s ls outs s' H. induction H as [s|s l s1 r ins outs s2 Hf Hr IH]; intros pre l0 post outs1 s3 e Heq Hp He.
  - destruct pre; discriminate Heq.
  - destruct pre as [|x pre].
    + inversion Hp; subst. injection Heq as <- <-. rewrite Hf in He. discriminate He.
    + injection Heq as <- ->. inversion Hp as [|? ? ? ? ? ? ? Hf' Hp']; subst.
      rewrite Hf in Hf'. injection Hf' as <- <-. eapply IH; [reflexivity|exact Hp'|exact He].
Qed.

(** C52 *)
Lemma short_rows_same : forall g : gcode A, rows_within 8 8 (all_lines g) = true ->
  exists g', optimize_arcs g = Ok g' /\ write g' = write g.
Proof.
  intros g H. destruct (short_total _ 8 [] eq_refl H) as (outs & s & Hr).
  destruct (optimize_arcs g) as [g'|e] eqn:Ho.
  - exists g'. split; [reflexivity|]. destruct (optimize_loop _ _ Ho) as (outs' & s' & Hr' & Hall).
    destruct (short_rewrites _ _ _ _ Hr' [] 8 [] eq_refl eq_refl H) as [Hs _]; [constructor|].
    rewrite <- Hall in Hs. apply same_raw in Hs. exact Hs.
  - exfalso. unfold optimize_arcs in Ho.
    destruct (filter_gcode arc_opcode arc_init g) as [[s1 g1]|e1] eqn:Hf; cbn [bind] in Ho.
    + destruct (fst s1); discriminate Ho.
    + apply filter_err in Hf as (pre & l & post & outs1 & s1 & Heq & Hp & He).
      eapply rewrites_fun; [exact Hr|exact Heq|exact Hp|exact He].
Qed.

(** *** What it can raise *)

Definition arith_error (e : exn) : Prop := e = TypeError \/ e = ZeroDivisionError.

Definition errs {T} (r : res T) : Prop := forall e, r = Err e -> arith_error e.

Lemma errs_ok : forall T (x : T), errs (Ok x).
Proof. intros T x e H. discriminate H. Qed.

Lemma errs_bind : forall T U (r : res T) (f : T -> res U), errs r -> (forall x, r = Ok x -> errs (f x)) -> errs (bind r f).
Proof.
  intros T U r f H1 H2 e H. destruct r as [x|e1]; cbn [bind] in H; [apply (H2 x eq_refl e H)|].
  injection H as <-. apply H1. reflexivity.
Qed.

Lemma errs_need : forall o : option num, errs (need o).
Proof. intros [x|]; [apply errs_ok|]. intros e H. injection H as <-. now left. Qed.

Lemma errs_div : forall a b : num, errs (py_div a b).
Proof.
  intros a b e H. unfold py_div in H. destruct (n_eqb b n0); [|discriminate H]. injection H as <-. now right.
Qed.

Lemma errs_place : forall l : line, errs (place l).
Proof.
  intros l. unfold place. apply errs_bind; [apply errs_need|]. intros x _. apply errs_bind; [apply errs_need|].
  intros y _. apply errs_ok.
Qed.

Lemma errs_mapM : forall S T (f : S -> res T) l, (forall x, errs (f x)) -> errs (mapM f l).
Proof.
  intros S T f l H. induction l as [|x l IH]; cbn [mapM]; [apply errs_ok|].
  apply errs_bind; [apply H|]. intros y _. apply errs_bind; [exact IH|]. intros r _. apply errs_ok.
Qed.

Lemma mapM_length : forall S T (f : S -> res T) l r, mapM f l = Ok r -> List.length r = List.length l.
Proof.
  intros S T f l. induction l as [|x l IH]; intros r H; cbn [mapM] in H; [injection H as <-; reflexivity|].
  destruct (f x) as [y|e]; cbn [bind] in H; [|discriminate H].
  destruct (mapM f l) as [r'|e]; cbn [bind] in H; [|discriminate H]. injection H as <-. cbn. f_equal. apply IH. reflexivity.
Qed.

Lemma errs_least_squares : forall ps : list (point (A:=A)), 3 <= List.length ps -> errs (least_squares ps).
Proof.
  intros ps Hl. unfold least_squares.
  repeat (apply errs_bind; [apply errs_div|intros ? _]). cbv zeta.
  destruct (_ || _); [apply errs_ok|].
  repeat (apply errs_bind; [apply errs_div|intros ? _]). cbv zeta.
  destruct ps as [|p0 [|p1 [|p2 ps]]]; cbn in Hl; try lia.
  apply errs_bind; [apply errs_div|]. intros w _. apply errs_ok.
Qed.

Lemma errs_get_circle : forall q : list line, 3 <= List.length q -> errs (get_circle q).
Proof.
  intros q Hl. unfold get_circle. apply errs_bind; [apply errs_mapM, errs_place|]. intros ps Hps.
  apply errs_bind; [apply errs_least_squares; rewrite (mapM_length _ _ _ _ _ Hps); exact Hl|].
  intros [c|] _; [|apply errs_ok].
  destruct (n_ltb max_radius (c_radius c)); [apply errs_ok|].
  destruct (existsb _ _); [apply errs_ok|].
  apply errs_bind; [|intros; apply errs_ok].
  unfold angle_errors. apply errs_bind; [apply errs_div|]. intros; apply errs_ok.
Qed.

Lemma errs_measure : forall p l : line, errs (measure p l).
Proof.
  intros p l. unfold measure. apply errs_bind; [apply errs_place|]. intros x _.
  apply errs_bind; [apply errs_place|]. intros y _. cbv zeta.
  apply errs_bind.
  - destruct (match t_relative_e _ with Some b => b | None => false end); [apply errs_need|].
    apply errs_bind; [apply errs_need|]. intros e _. apply errs_bind; [apply errs_need|]. intros; apply errs_ok.
  - intros fil _. apply errs_bind; [|intros; apply errs_ok].
    destruct (n_ltb _ epsilon); [apply errs_ok|apply errs_div].
Qed.

Lemma errs_measures : forall ls (p : line), errs (measures p ls).
Proof.
  induction ls as [|l ls IH]; intros p; cbn [measures]; [apply errs_ok|].
  apply errs_bind; [apply errs_measure|]. intros s _. apply errs_bind; [apply IH|]. intros; apply errs_ok.
Qed.

Lemma errs_distances : forall q : list line, errs (get_distances q).
Proof.
  intros q. unfold get_distances. apply errs_bind.
  - destruct q; [apply errs_ok|apply errs_measures].
  - intros ss _. cbv zeta. apply errs_bind; [apply errs_div|]. intros; apply errs_ok.
Qed.

Lemma errs_queue : forall q : list line, 3 <= List.length q -> errs (queue_error q).
Proof.
  intros q Hl. pose proof (errs_get_circle q Hl) as Hc. unfold queue_error.
  destruct q as [|l0 [|l1 t]]; cbn in Hl; try lia. cbv zeta.
  destruct (negb _); [apply errs_ok|]. destruct (is_some (l_e l1)).
  - apply errs_bind; [apply errs_distances|]. intros [[ss fil] ratio] _.
    destruct (n_ltb ratio epsilon); [apply errs_ok|].
    apply errs_bind; [apply errs_mapM; intros; apply errs_div|]. intros rs _.
    destruct (forallb _ rs); [|apply errs_ok].
    apply errs_bind; [exact Hc|]. intros [er oc] _. apply errs_ok.
  - apply errs_bind; [exact Hc|]. intros [er oc] _. apply errs_ok.
Qed.

Lemma get_circle_none : forall (q : list line) er, get_circle q = Ok (er, None) -> er = true.
Proof.
  intros q er H. unfold get_circle in H.
  destruct (mapM place q) as [ps|e]; cbn [bind] in H; [|discriminate H].
  destruct (least_squares ps) as [[c|]|e]; cbn [bind] in H; [| |discriminate H].
  - destruct (n_ltb max_radius (c_radius c)); [injection H as _ H; discriminate H|].
    destruct (existsb _ _); [injection H as _ H; discriminate H|].
    destruct (angle_errors c ps); cbn [bind] in H; [|discriminate H]. injection H as _ H. discriminate H.
  - injection H as <-. reflexivity.
Qed.

Lemma valid_circle : forall q : list line, queue_error q = Ok false -> exists c, get_circle q = Ok (false, Some c).
Proof.
  intros q H.
  assert (Hc : (do '(err, _) <- get_circle q; Ok err) = Ok false -> exists c, get_circle q = Ok (false, Some c)).
  { destruct (get_circle q) as [[er oc]|e] eqn:Hg; cbn [bind]; intros Hb; [|discriminate Hb]. injection Hb as ->.
    destruct oc as [c|]; [eauto|]. apply get_circle_none in Hg. discriminate Hg. }
  unfold queue_error in H.
  destruct q as [|l0 [|l1 t]]; [discriminate H|discriminate H|]. cbv zeta in H.
  destruct (negb _); [discriminate H|]. destruct (is_some (l_e l1)).
  - destruct (get_distances _) as [[[ss fil] ratio]|e]; cbn [bind] in H; [|discriminate H].
    destruct (n_ltb ratio epsilon); [discriminate H|].
    destruct (mapM _ ss) as [rs|e]; cbn [bind] in H; [|discriminate H].
    destruct (forallb _ rs); [|discriminate H]. apply Hc, H.
  - apply Hc, H.
Qed.

Lemma errs_to_gcode : forall (q : list line) (l : line), 3 <= List.length q -> queue_error q = Ok false ->
  errs (to_gcode q l).
Proof.
  intros q l Hl Hv. destruct (valid_circle q Hv) as [c Hc]. unfold to_gcode.
  destruct q as [|first t]; [cbn in Hl; lia|]. apply errs_bind; [|intros; apply errs_ok].
  unfold arc_of. cbv zeta. rewrite Hc. cbn [bind].
  apply errs_bind; [apply errs_distances|]. intros [[ss fil] ratio] _.
  apply errs_bind; [apply errs_mapM, errs_place|]. intros ps _.
  destruct (match t_relative_e _ with Some b => b | None => false end).
  - apply errs_bind; [|intros; apply errs_ok]. apply errs_mapM. intros [s a]. unfold arc_term. apply errs_div.
  - apply errs_bind; [apply errs_need|]. intros e0 _. apply errs_bind; [apply errs_div|]. intros; apply errs_ok.
Qed.

Lemma errs_opcode : forall q valid (l : line), (valid = true -> 8 < List.length q /\ queue_error q = Ok false) ->
  errs (arc_opcode (q, valid) l).
Proof.
  intros q valid l Hv. unfold arc_opcode. set (l1 := carry q l).
  destruct (min_segments <? List.length (q ++ [l1])) eqn:Hlen.
  - apply Nat.ltb_lt in Hlen. unfold min_segments in Hlen.
    destruct (negb _).
    + destruct valid; [|apply errs_ok]. destruct (Hv eq_refl) as [H1 H2].
      apply errs_bind; [apply errs_to_gcode; [lia|exact H2]|]. intros; apply errs_ok.
    + apply errs_bind; [apply errs_queue; lia|]. intros [] He.
      * destruct valid.
        -- destruct (Hv eq_refl) as [H1 H2].
           apply errs_bind; [apply errs_to_gcode; [lia|exact H2]|]. intros; apply errs_ok.
        -- destruct (q ++ [l1]) as [|x t] eqn:E; [destruct q; discriminate E|apply errs_ok].
      * apply errs_ok.
  - destruct (_ || _); apply errs_ok.
Qed.

Lemma opcode_valid : forall q valid (l : line) q' valid' r,
  (valid = true -> 8 < List.length q /\ queue_error q = Ok false) ->
  arc_opcode (q, valid) l = Ok ((q', valid'), r) ->
  valid' = true -> 8 < List.length q' /\ queue_error q' = Ok false.
Proof.
  intros q valid l q' valid' r Hv H ->. unfold arc_opcode in H. set (l1 := carry q l) in *.
  destruct (min_segments <? List.length (q ++ [l1])) eqn:Hlen.
  - apply Nat.ltb_lt in Hlen. unfold min_segments in Hlen.
    destruct (negb _).
    + destruct valid; [destruct (to_gcode q l1); cbn [bind] in H; discriminate H|discriminate H].
    + destruct (queue_error (q ++ [l1])) as [[]|e] eqn:He; cbn [bind] in H; [| |discriminate H].
      * destruct valid; [destruct (to_gcode q l1); cbn [bind] in H; discriminate H|].
        destruct (q ++ [l1]); discriminate H.
      * injection H as <- <-. split; [exact Hlen|exact He].
  - apply Nat.ltb_ge in Hlen. unfold min_segments in Hlen. rewrite app_length in Hlen.
    destruct (_ || _); [|discriminate H].
    injection H as <- -> <-. destruct (Hv eq_refl). lia.
Qed.

Lemma rewrites_valid : forall s ls outs s', rewrites arc_opcode s ls outs s' ->
  (snd s = true -> 8 < List.length (fst s) /\ queue_error (A:=A) (fst s) = Ok false) ->
  snd s' = true -> 8 < List.length (fst s') /\ queue_error (fst s') = Ok false.
Proof.
  intros s ls outs s' H. induction H as [s|s l s1 r ins outs s2 Hf Hr IH]; intros Hv; [exact Hv|].
  apply IH. destruct s as [q v], s1 as [q1 v1]. eapply opcode_valid; [exact Hv|exact Hf].
Qed.

Lemma optimize_errors : forall (g : gcode A) e, optimize_arcs g = Err e -> e = TypeError \/ e = ZeroDivisionError.
Proof.
  intros g e H. unfold optimize_arcs in H.
  destruct (filter_gcode arc_opcode arc_init g) as [[s1 g1]|e1] eqn:Hf; cbn [bind] in H.
  - destruct (fst s1); discriminate H.
  - injection H as ->. apply filter_err in Hf as (pre & l & post & outs1 & [q v] & Heq & Hp & He).
    apply (errs_opcode q v l); [|exact He].
    apply (rewrites_valid _ _ _ _ Hp). discriminate.
Qed.

End Err.

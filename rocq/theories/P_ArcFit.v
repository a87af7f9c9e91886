(** * P_ArcFit: what a generated arc stands for (C51, C53) *)
From Coq Require Import List Ascii String ZArith NArith Bool Reals Lra Lia.
From Verif Require Import PyBase Arith ArithR Gcoder Filters Arc SpecText SpecLoad SpecMachine SpecFilter SpecArc.
From Verif Require Import P_Load P_Text P_Machine P_Format P_Filter P_FilterMotion P_Arc.
Import ListNotations.
Local Open Scope list_scope.

Section Noted.
Context {A : arith}.
Notation num := (num A).
Notation line := (line A).

(** E as noted on the lines of a program: it only changes on lines with an E
    word, and comments have no words *)
Fixpoint noted (e : num) (ls : list line) : Prop :=
  match ls with
  | [] => True
  | l :: t =>
      match command l with
      | None => l_e l = None /\ t_e (lnotes l) = None /\ noted e t
      | Some _ => exists e', t_e (lnotes l) = Some e' /\ (l_e l = None -> e' = e) /\ noted e' t
      end
  end.

Lemma update_modes_e : forall c b (m m1 : mstate A), update_modes c b m = Ok m1 -> m_e m1 = m_e m.
Proof.
  intros c b m m1 H. unfold update_modes in H.
  repeat match type of H with
  | (if ?x then _ else _) = _ => destruct x; [injection H as <-; reflexivity|]
  end.
  destruct c as [|d t]; [injection H as <-; reflexivity|].
  destruct (Ascii.eqb d "T") eqn:Ed.
  - apply Ascii.eqb_eq in Ed. subst d. destruct (py_int t); [|discriminate H]. injection H as <-. reflexivity.
  - assert (Hs : Ok m = Ok m1 \/ d = "T"%char) by (clear - H; all_chars d; auto).
    destruct Hs as [Hs| ->]; [injection Hs as <-; reflexivity|discriminate Ed].
Qed.

Lemma split_args : forall l : line, largs (fst (split l)) = largs l /\ lnotes (fst (split l)) = lnotes l.
Proof.
  intros l. unfold split. destruct (match findall _ with [] => [] | _ => _ end) as [|[c v] t]; split; reflexivity.
Qed.

Lemma motion_noted : forall (m m' : mstate A) l0 l, l0 = new_line (raw l0) -> motion_step m l0 = Ok (m', l) ->
  match command l with
  | None => l_e l = None /\ t_e (lnotes l) = None /\ m' = m
  | Some _ => t_e (lnotes l) = Some (m_e m') /\ (l_e l = None -> m_e m' = m_e m)
  end.
Proof.
  intros m m' l0 l Ha H. rewrite motion_step_rest in H. destruct (split_args l0) as [Hs Hs'].
  destruct (split l0) as [l1 toks]. cbn [fst] in Hs, Hs'. unfold motion_rest in H.
  destruct (command l1) as [c|] eqn:Ec.
  - destruct (update_modes c (is_move l1) m) as [s1|ex] eqn:Em; cbn [bind] in H; [|discriminate H].
    destruct (parse_coordinates (m_imperial s1) toks l1) as [l2|ex] eqn:Ep; cbn [bind] in H; [|discriminate H].
    destruct (update_extrusion l2 (update_position l2 s1)) as [ext s3] eqn:Ex. injection H as <- <-.
    cbn [command set_notes lnotes t_e].
    assert (Hc : command l2 <> None).
    { unfold parse_coordinates in Ep. rewrite Ec in Ep. destruct (first_is "G" c).
      - destruct (parse_words_fixed _ _ _ _ Ep) as (_ & E2 & _). congruence.
      - injection Ep as <-. congruence. }
    destruct (command l2) as [c2|]; [|congruence]. split; [reflexivity|]. intros He.
    unfold update_extrusion in Ex. cbn [l_e largs set_notes] in He. unfold l_e in Ex, He. cbn in He.
    rewrite He in Ex. injection Ex as _ <-.
    destruct (update_position_fixed l2 s1) as (_ & _ & _ & _ & H5 & _). rewrite H5.
    apply (update_modes_e _ _ _ _ Em).
  - injection H as <- <-. rewrite Ec. unfold l_e. rewrite Hs, Hs', Ha. repeat split.
Qed.

Lemma trace_noted : forall ts ls (m m' : mstate A), trace m ts ls m' -> noted (m_e m) ls.
Proof.
  intros ts ls m m' H. induction H as [m|m s l m1 ts ls m' Hs Ht IH]; [exact I|].
  cbn [noted]. pose proof (motion_noted _ _ (new_line s) _ eq_refl Hs) as Hn. destruct (command l) as [c|].
  - destruct Hn as [H1 H2]. exists (m_e m1). auto.
  - destruct Hn as (H1 & H2 & ->). auto.
Qed.

Lemma load_noted : forall home data (g : gcode A), load_gen false home data = Ok g ->
  exists e, noted e (all_lines g).
Proof.
  intros home data g H. rewrite (load_all_lines _ _ _ _ H).
  apply load_trace in H as (ls & Ht & Hl). rewrite (Hl eq_refl). exists (m_e (init_mstate home)).
  apply (trace_noted _ _ _ _ Ht).
Qed.

(** *** The queue of such a program *)

Definition e_link (a b : line) : Prop :=
  l_e b = None -> t_e (lnotes a) = None \/ t_e (lnotes b) = t_e (lnotes a).

Definition steady (q rest : list line) : Prop :=
  exists e, noted e rest /\
    Forall (fun l => command l = None -> l_e l = None) q /\
    (forall p a b s, q = p ++ a :: b :: s -> e_link a b) /\
    (forall p x, q = p ++ [x] -> t_e (lnotes x) = None \/ t_e (lnotes x) = Some e).

Lemma carry_args : forall (q : list line) l, largs (carry q l) = largs l /\ command (carry q l) = command l.
Proof. intros q l. destruct (carry_same q l) as (_ & H & _ & H' & _). auto. Qed.

Lemma snoc_split : forall T (q : list T) x p a b s, q ++ [x] = p ++ a :: b :: s ->
  (s = [] /\ b = x /\ q = p ++ [a]) \/ exists s', s = s' ++ [x] /\ q = p ++ a :: b :: s'.
Proof.
  intros T q x p a b s H. destruct s as [|y s] using rev_ind.
  - left. change (a :: [b]) with ([a] ++ [b]) in H. rewrite app_assoc in H.
    apply app_inj_tail in H as [H1 H2]. auto.
  - right. clear IHs. exists s. change (a :: b :: s ++ [y]) with ((a :: b :: s) ++ [y]) in H.
    rewrite app_assoc in H. apply app_inj_tail in H as [H1 H2]. subst. auto.
Qed.

Lemma steady_push : forall q l rest, steady q (l :: rest) -> steady (q ++ [carry q l]) rest.
Proof.
  intros q l rest (e & Hn & Hc & Hl & Ht). cbn [noted] in Hn.
  destruct (carry_args q l) as [Ca Cc].
  assert (Hlast : q = [] \/ exists p x, q = p ++ [x]).
  { destruct q as [|y q] using rev_ind; [now left|]. right. eauto. }
  destruct (command l) as [c|] eqn:Ec.
  - destruct Hn as (e' & He & Hsame & Hn). assert (Hcar : carry q l = l) by (unfold carry; rewrite Ec; reflexivity).
    rewrite Hcar in *. exists e'. split; [exact Hn|]. split; [|split].
    + apply Forall_app. split; [exact Hc|]. constructor; [congruence|constructor].
    + intros p a b s Hs. apply snoc_split in Hs as [(-> & -> & ->)|(s' & -> & ->)]; [|apply (Hl p a b s'); reflexivity].
      intros Hb. destruct (Ht p a eq_refl) as [Ha|Ha]; [now left|right]. rewrite He, Ha, (Hsame Hb). reflexivity.
    + intros p x Hx. apply app_inj_tail in Hx as [_ <-]. now right.
  - destruct Hn as (He & He' & Hn). exists e. split; [exact Hn|].
    assert (Hnote : forall p x, q = p ++ [x] -> t_e (lnotes (carry q l)) = t_e (lnotes x)).
    { intros p x ->. unfold carry. rewrite Ec, rev_app_distr. reflexivity. }
    split; [|split].
    + apply Forall_app. split; [exact Hc|]. constructor; [|constructor]. intros _. unfold l_e. rewrite Ca. exact He.
    + intros p a b s Hs. apply snoc_split in Hs as [(-> & -> & Hq)|(s' & -> & ->)]; [|apply (Hl p a b s'); reflexivity].
      intros _. right. rewrite (Hnote p a Hq). reflexivity.
    + intros p x Hx. apply app_inj_tail in Hx as [_ <-]. destruct Hlast as [->|(p' & x' & Hq)].
      * unfold carry. rewrite Ec. cbn. now left.
      * rewrite (Hnote p' x' Hq). apply (Ht p' x' Hq).
Qed.

Lemma steady_drop : forall a b rest, steady (a ++ b) rest -> steady b rest.
Proof.
  intros a b rest (e & Hn & Hc & Hl & Ht). exists e. split; [exact Hn|]. split; [|split].
  - apply Forall_app in Hc as [_ Hc]. exact Hc.
  - intros p x y s ->. apply (Hl (a ++ p) x y s). rewrite app_assoc. reflexivity.
  - intros p x ->. apply (Ht (a ++ p) x). rewrite app_assoc. reflexivity.
Qed.

Lemma optimize_steady : forall home data (g g' : gcode A), load_gen false home data = Ok g ->
  optimize_arcs g = Ok g' ->
  exists n, replaced (accepted (fun q => exists rest, steady q rest)) n (all_lines g) (all_lines g').
Proof.
  intros home data g g' Hl H. apply optimize_replaced; [exact steady_push|exact steady_drop| |exact H].
  destruct (load_noted _ _ _ Hl) as [e He]. exists e. split; [exact He|]. split; [constructor|].
  split; [intros [|] a b s Hs; discriminate Hs|intros [|] x Hx; discriminate Hx].
Qed.

End Noted.

(** ** Over the reals *)

Local Open Scope R_scope.
Notation lineR := (line RA).

Lemma mapM_ok : forall S T (f : S -> res T) l r, mapM f l = Ok r -> Forall2 (fun x y => f x = Ok y) l r.
Proof.
  intros S T f. induction l as [|x l IH]; intros r H; cbn [mapM] in H.
  - injection H as <-. constructor.
  - destruct (f x) as [y|e] eqn:Ef; cbn [bind] in H; [|discriminate H].
    destruct (mapM f l) as [t|e] eqn:Em; cbn [bind] in H; [|discriminate H].
    injection H as <-. constructor; [exact Ef|]. apply IH. reflexivity.
Qed.

Lemma place_at : forall (l : lineR) p, place l = Ok p -> at_place l (fst p) (snd p).
Proof.
  intros l p H. unfold place, need in H. unfold at_place.
  destruct (t_x (lnotes l)) as [x|]; cbn [bind] in H; [|discriminate H].
  destruct (t_y (lnotes l)) as [y|]; cbn [bind] in H; [|discriminate H].
  injection H as <-. auto.
Qed.

Lemma Forall2_last : forall S T (P : S -> T -> Prop) l r d e, Forall2 P l r -> l <> [] -> P (last l d) (last r e).
Proof.
  intros S T P l r d e H. induction H as [|x y l r Hxy Hlr IH]; intros Hn; [congruence|].
  inversion Hlr as [|x' y' l' r' H1 H2]; subst; [exact Hxy|].
  cbn [last]. apply IH. discriminate.
Qed.

Lemma py_div_R : forall (a b c : R), py_div (A:=RA) a b = Ok c -> b <> 0 /\ c = a / b.
Proof.
  intros a b c H. unfold py_div in H. destruct (n_eqb (a:=RA) b n0) eqn:Hb; [discriminate H|].
  injection H as <-. split; [|reflexivity]. intros ->.
  assert (Ht : n_eqb (a:=RA) 0 n0 = true) by (apply (val_eqb RA exactR); cbn; lra).
  congruence.
Qed.

Lemma lits : max_radius (A:=RA) = 200 /\ alignment_error (A:=RA) = 15 / 1000 /\
  epsilon (A:=RA) = / 1000000 /\ extrusion_error (A:=RA) = 15 / 100 /\ n0 (A:=RA) = 0 /\
  n1 (A:=RA) = 1 /\ n2 (A:=RA) = 2 /\ correction_limit (A:=RA) = / 100.
Proof. repeat split; cbn; lra. Qed.

Lemma least_squares_ends : forall ps c, least_squares (A:=RA) ps = Ok (Some c) ->
  exists p0 t, ps = p0 :: t /\ c_start c = p0 /\ c_end c = last ps p0 /\ 0 <= c_radius c.
Proof.
  intros ps c H. unfold least_squares in H.
  repeat match type of H with
  | bind ?m _ = _ => let E := fresh in destruct m eqn:E; cbn [bind] in H; [|discriminate H]
  | (if ?b then _ else _) = _ => destruct b; [discriminate H|]
  | (let _ := _ in _) = _ => cbv zeta in H
  end.
  destruct ps as [|p0 [|p1 [|p2 t]]]; try discriminate H.
  match type of H with bind ?m _ = _ => destruct m; cbn [bind] in H; [|discriminate H] end.
  injection H as <-. exists p0, (p1 :: p2 :: t).
  split; [reflexivity|]. split; [reflexivity|]. split; [reflexivity|]. apply sqrt_pos.
Qed.

Lemma existsb_false : forall T (p : T -> bool) l, existsb p l = false -> Forall (fun x => p x = false) l.
Proof.
  intros T p l. induction l as [|x l IH]; intros H; constructor; cbn in H; apply orb_false_elim in H as [H1 H2]; auto.
Qed.

Lemma r_ltb_false : forall a b : R, n_ltb (a:=RA) a b = false -> b <= a.
Proof. intros a b H. apply Rnot_lt_le. intros Hlt. apply (val_ltb RA exactR) in Hlt. congruence. Qed.

(** an accepted circle *)
Lemma get_circle_ok : forall (first : lineR) run c,
  get_circle (first :: run) = Ok (false, Some c) ->
  0 <= c_radius c <= 200 /\
  Forall (near_circle (fst (c_center c)) (snd (c_center c)) (c_radius c)) (first :: run) /\
  at_place first (fst (c_start c)) (snd (c_start c)) /\
  at_place (last run first) (fst (c_end c)) (snd (c_end c)).
Proof.
  intros first run c H. unfold get_circle in H. destruct lits as (L1 & L2 & _).
  destruct (mapM place (first :: run)) as [ps|e] eqn:Hp; cbn [bind] in H; [|discriminate H].
  destruct (least_squares ps) as [[c'|]|e] eqn:Hl; cbn [bind] in H; try discriminate H.
  destruct (n_ltb max_radius (c_radius c')) eqn:Hr; [discriminate H|].
  destruct (existsb (n_ltb alignment_error) (radius_errors c' ps)) eqn:He; [discriminate H|].
  destruct (angle_errors c' ps) as [errs|e]; cbn [bind] in H; [|discriminate H].
  injection H as _ ->. apply mapM_ok in Hp.
  destruct (least_squares_ends _ _ Hl) as (p0 & t & Hps & H1 & H2 & H3).
  split; [split; [exact H3|]; apply r_ltb_false in Hr; rewrite L1 in Hr; exact Hr|].
  split; [|split].
  - apply existsb_false in He. unfold radius_errors in He. rewrite Forall_map in He.
    clear - Hp He L2. induction Hp as [|x p xs ps Hxp Hxs IH]; constructor.
    + inversion He as [|? ? Hx _]; subst. exists (fst p), (snd p). split; [apply place_at, Hxp|].
      apply r_ltb_false in Hx. rewrite L2 in Hx. exact Hx.
    + apply IH. inversion He; assumption.
  - rewrite H1. rewrite Hps in Hp. inversion Hp as [|? ? ? ? Hx _]. apply place_at, Hx.
  - rewrite H2.
    replace (last run first) with (last (first :: run) first) by (destruct run; reflexivity).
    apply place_at. apply (Forall2_last _ _ (fun x y => place x = Ok y)); [exact Hp|discriminate].
Qed.

Lemma opt_eqb_R : forall a b : option R, opt_eqb (A:=RA) a b = true -> a = b.
Proof.
  intros [a|] [b|] H; cbn in H; try discriminate H; [|reflexivity].
  apply r_eqb_iff in H. congruence.
Qed.

Lemma round3 : forall x : R, rounded x (py_round (A:=RA) 3 x).
Proof.
  intros x. pose proof (py_round_err exactR 3 x) as H. unfold rounded. cbn [val exactR] in H.
  replace (/ 2 / 10 ^ 3) with (/ 2 / 1000) in H by (cbn; lra). exact H.
Qed.

Lemma py_sum_zero : forall l : list R, Forall (fun x => x = 0) l -> py_sum (A:=RA) l = 0.
Proof.
  intros l H. unfold py_sum. destruct lits as (_ & _ & _ & _ & -> & _).
  induction H as [|x l -> Hl IH]; [reflexivity|]. cbn [fold_left]. cbn. rewrite Rplus_0_r. exact IH.
Qed.

(** a run without E words does not make an arc *)
Lemma no_filament : forall (ls : list lineR) prev ss, measures prev ls = Ok ss ->
  Forall (fun l => l_e l = None) ls ->
  (forall p a b s, prev :: ls = p ++ a :: b :: s -> e_link a b) ->
  Forall (fun s => s_fil (A:=RA) s = 0) ss /\
  Forall (fun l => t_relative_e (lnotes l) <> Some true) ls.
Proof.
  induction ls as [|l ls IH]; intros prev ss H He Hl; cbn [measures] in H.
  - injection H as <-. split; constructor.
  - destruct (measure prev l) as [s|e] eqn:Hm; cbn [bind] in H; [|discriminate H].
    destruct (measures l ls) as [t|e] eqn:Ht; cbn [bind] in H; [|discriminate H].
    injection H as <-. inversion He as [|? ? Hl0 He']; subst.
    destruct (IH _ _ Ht He') as [H1 H2].
    { intros p a b s0 Hs. apply (Hl (prev :: p) a b s0). cbn. rewrite Hs. reflexivity. }
    unfold measure in Hm.
    destruct (place l) as [p|e]; cbn [bind] in Hm; [|discriminate Hm].
    destruct (place prev) as [p'|e]; cbn [bind] in Hm; [|discriminate Hm].
    assert (Hrel : t_relative_e (lnotes l) <> Some true).
    { intros Hr. rewrite Hr, Hl0 in Hm. discriminate Hm. }
    assert (Hrb : match t_relative_e (lnotes l) with Some b => b | None => false end = false)
      by (destruct (t_relative_e (lnotes l)) as [[]|]; [congruence|reflexivity|reflexivity]).
    rewrite Hrb in Hm. cbv zeta in Hm.
    destruct (t_e (lnotes l)) as [e|] eqn:E1; cbn [need bind] in Hm; [|discriminate Hm].
    destruct (t_e (lnotes prev)) as [e'|] eqn:E2; cbn [need bind] in Hm; [|discriminate Hm].
    match type of Hm with bind ?m _ = _ => destruct m; cbn [bind] in Hm; [|discriminate Hm] end.
    injection Hm as <-. split; constructor; auto. cbn [s_fil].
    destruct (Hl [] prev l ls eq_refl Hl0) as [Hx|Hx]; [congruence|].
    rewrite E1, E2 in Hx. injection Hx as ->. cbn. lra.
Qed.

Lemma travel_no_arc : forall (first : lineR) run gen, arc_of first (first :: run) = Ok gen -> run <> [] ->
  Forall (fun l => l_e l = None) run ->
  (forall p a b s, first :: run = p ++ a :: b :: s -> e_link a b) -> False.
Proof.
  intros first run gen H Hne He Hl. unfold arc_of in H.
  destruct (get_circle (first :: run)) as [[er oc]|ex]; cbn [bind] in H; [|discriminate H].
  destruct (get_distances (first :: run)) as [[[ss fil] ratio]|ex] eqn:Hd; cbn [bind] in H; [|discriminate H].
  destruct oc as [c|]; [|discriminate H].
  destruct (mapM place (first :: run)) as [ps|ex]; cbn [bind] in H; [|discriminate H].
  unfold get_distances in Hd.
  destruct (measures first run) as [ss'|ex] eqn:Hm; cbn [bind] in Hd; [|discriminate Hd].
  match type of Hd with bind ?m _ = _ => destruct m; cbn [bind] in Hd; [|discriminate Hd] end.
  injection Hd as <- <- <-. destruct (no_filament _ _ _ Hm He Hl) as [H1 H2].
  assert (Hlast : t_relative_e (lnotes (last (first :: run) first)) <> Some true).
  { rewrite Forall_forall in H2. apply H2. destruct run as [|r0 t]; [congruence|].
    change (last (first :: r0 :: t) first) with (last (r0 :: t) first).
    destruct (exists_last (l := r0 :: t)) as (p & y & ->); [discriminate|].
    rewrite last_last. apply in_or_app. right. now left. }
  assert (Hz : forall a : num RA, py_div a (py_sum (map s_fil ss')) = Err ZeroDivisionError).
  { intros a. unfold py_div. replace (n_eqb (py_sum (map s_fil ss')) n0) with true; [reflexivity|].
    symmetry. apply (val_eqb RA exactR). transitivity 0; [apply (py_sum_zero (map s_fil ss'))|cbn; lra].
    rewrite Forall_map. exact H1. }
  destruct (t_relative_e (lnotes (last (first :: run) first))) as [[]|]; [congruence| |];
  (destruct (need (t_e (lnotes first))); cbn [bind] in H; [|discriminate H];
   rewrite Hz in H; discriminate H).
Qed.

(** what was checked before an arc is made *)
Lemma queue_error_ok : forall (first : lineR) run, queue_error (first :: run) = Ok false ->
  run <> [] /\
  ((forall l, In l run -> l_e l <> None) \/ (forall l, In l run -> l_e l = None)) /\
  (exists f z, Forall (fun l => t_f (lnotes l) = f /\ t_z (lnotes l) = z) run) /\
  (exists oc, get_circle (first :: run) = Ok (false, oc)).
Proof.
  intros first run H. unfold queue_error in H. destruct run as [|l1 t]; [discriminate H|].
  split; [discriminate|].
  match type of H with (if negb (?a && ?b && ?c) then _ else _) = _ =>
    destruct a eqn:Ve, b eqn:Vf, c eqn:Vz; try discriminate H end.
  cbn [andb negb] in H.
  assert (Hg : exists oc, get_circle (first :: l1 :: t) = Ok (false, oc)).
  { destruct (is_some (l_e l1)).
    - destruct (get_distances _) as [[[ss fil] ratio]|e]; cbn [bind] in H; [|discriminate H].
      destruct (n_ltb ratio epsilon); [discriminate H|].
      destruct (mapM _ ss) as [rs|e]; cbn [bind] in H; [|discriminate H].
      destruct (forallb _ rs); [|discriminate H].
      destruct (get_circle _) as [[er oc]|e]; cbn [bind] in H; [|discriminate H].
      injection H as ->. eauto.
    - destruct (get_circle _) as [[er oc]|e]; cbn [bind] in H; [|discriminate H].
      injection H as ->. eauto. }
  split; [|split; [|exact Hg]].
  - destruct (is_some (l_e l1)).
    + left. intros l Hin. rewrite forallb_forall in Ve. specialize (Ve l Hin). destruct (l_e l); [discriminate|discriminate Ve].
    + right. intros l Hin. apply negb_true_iff in Ve. apply existsb_false in Ve. rewrite Forall_forall in Ve.
      specialize (Ve l Hin). cbn in Ve. destruct (l_e l); [discriminate Ve|reflexivity].
  - exists (t_f (lnotes l1)), (t_z (lnotes l1)). rewrite Forall_forall. intros l Hin.
    rewrite forallb_forall in Vf, Vz. split; apply opt_eqb_R; [apply Vf|apply Vz]; exact Hin.
Qed.

Lemma arc_of_words : forall (first : lineR) q gen, arc_of first q = Ok gen ->
  exists c e rel fix_, get_circle q = Ok (fst (match get_circle q with Ok x => x | _ => (true, None) end), Some c) /\
    gen = arc_line c e rel (t_f (lnotes (last q first))) (List.length q) :: fix_.
Proof.
  intros first q gen H. unfold arc_of in H.
  destruct (get_circle q) as [[er oc]|ex]; cbn [bind] in H; [|discriminate H].
  destruct (get_distances q) as [[[ss fil] ratio]|ex]; cbn [bind] in H; [|discriminate H].
  destruct oc as [c|]; [|discriminate H].
  destruct (mapM place q) as [ps|ex]; cbn [bind] in H; [|discriminate H].
  destruct (match t_relative_e _ with Some b => b | None => false end).
  - destruct (mapM (arc_term c) _) as [ts|ex]; cbn [bind] in H; [|discriminate H].
    injection H as <-. exists c. eexists _, _, _. split; reflexivity.
  - destruct (need _) as [e0|ex]; cbn [bind] in H; [|discriminate H].
    destruct (py_div _ fil) as [rel|ex]; cbn [bind] in H; [|discriminate H].
    injection H as <-. exists c. eexists _, _, _. split; reflexivity.
Qed.

Lemma accepted_fitted : forall (first : lineR) run gen,
  accepted (fun q => exists rest, steady q rest) first run gen -> fitted first run gen.
Proof.
  intros first run gen (Hlen & Hab & Hq & Harc & (rest & e & Hn & Hc & Hl & Ht)).
  destruct (queue_error_ok _ _ Hq) as (Hne & He & (f & z & Hfz) & (oc & Hg)).
  destruct He as [He|He].
  2:{ exfalso. apply (travel_no_arc _ _ _ Harc Hne); [rewrite Forall_forall; exact He|exact Hl]. }
  destruct (arc_of_shape _ _ _ Harc) as (arc & fix_ & Hgen & Hisarc & Hfix).
  destruct (arc_of_words _ _ _ Harc) as (c & ea & rel & fix2 & Hg2 & Hgen2).
  rewrite Hg in Hg2. injection Hg2 as ->. rewrite Hgen in Hgen2. injection Hgen2 as -> ->.
  destruct (get_circle_ok _ _ _ Hg) as (Hr & Hnear & Hs & Hend).
  assert (Hlast : In (last run first) run).
  { destruct run as [|x t]; [congruence|].
    destruct (exists_last (l := x :: t)) as (p & y & ->); [discriminate|].
    rewrite last_last. apply in_or_app. right. now left. }
  split; [exact Hlen|]. split; [|split].
  - rewrite Forall_forall. intros l Hin. split; [|apply He, Hin].
    rewrite forallb_forall in Hab. specialize (Hab l Hin).
    inversion Hc as [|? ? _ Hc']; subst. rewrite Forall_forall in Hc'. specialize (Hc' l Hin).
    unfold absorbable in Hab. unfold is_motion in *. destruct (command l); [exact Hab|].
    exfalso. apply (He l Hin), Hc'. reflexivity.
  - exists f, z. split; [exact Hfz|]. rewrite Hgen. cbn [l_f largs arc_line a_f].
    rewrite Forall_forall in Hfz. destruct (Hfz _ Hlast) as [Hf _]. rewrite <- Hf.
    destruct run; reflexivity.
  - exists (fst (c_center c)), (snd (c_center c)), (c_radius c), (fst (c_start c)), (snd (c_start c)),
      (fst (c_end c)), (snd (c_end c)).
    eexists _, fix2. split; [exact Hgen|]. split; [exact Hisarc|]. split; [exact Hfix|].
    split; [exact Hr|]. split; [exact Hnear|]. split; [exact Hs|]. split; [exact Hend|].
    split; [|split; [|split; [|split]]]; try reflexivity; (eexists; split; [reflexivity|apply round3]).
Qed.

Lemma arcs_fitted : forall home data (g g' : gcode RA), load_gen false home data = Ok g ->
  optimize_arcs g = Ok g' -> exists n, replaced fitted n (all_lines g) (all_lines g').
Proof.
  intros home data g g' Hl H. destruct (optimize_steady _ _ _ _ Hl H) as [n Hn].
  exists n. eapply replaced_mono; [|exact Hn]. exact accepted_fitted.
Qed.

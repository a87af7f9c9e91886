(** * P_ArcAny: runs are made of extruding moves, for doubles too (C120) *)
From Coq Require Import List Ascii String ZArith NArith Bool Reals Lra Lia Floats.SpecFloat.
From Flocq Require Import Core BinarySingleNaN.
From Verif Require Import PyBase Arith ArithR ArithB64 Gcoder Filters Arc SpecText SpecLoad SpecMachine SpecFilter SpecArc SpecArcKept SpecBinary64.
From Verif Require Import P_Load P_Text P_Machine P_Measure P_Filter P_FilterMotion P_Arc P_ArcFit P_ArcPath P_ArcKept P_Float P_FloatTrack P_IdleNum.
Import ListNotations.
Local Open Scope list_scope.

Section Any.
Context {A : arith}.
Notation num := (num A).
Notation line := (line A).

(** numbers whose differences with themselves add up to nothing *)
Variable good : num -> Prop.
Hypothesis good_sum : forall es, Forall good es -> n_eqb (py_sum (map (fun e => n_sub e e) es)) n0 = true.

Definition good_note (l : line) : Prop := forall e, t_e (lnotes l) = Some e -> good e.

Definition steadier (q rest : list line) : Prop := steady q rest /\ Forall good_note q /\ Forall good_note rest.

Lemma steadier_push : forall q l rest, steadier q (l :: rest) -> steadier (q ++ [carry q l]) rest.
Proof.
  intros q l rest (H1 & H2 & H3). inversion H3 as [|? ? G1 G2]; subst. split; [apply steady_push, H1|]. split; [|exact G2].
  apply Forall_app. split; [exact H2|]. constructor; [|constructor]. unfold carry.
  destruct (command l); [exact G1|]. destruct (rev q) as [|p t] eqn:E; [exact G1|].
  assert (Hp : In p q) by (apply in_rev; rewrite E; now left). rewrite Forall_forall in H2. intros e He. exact (H2 p Hp e He).
Qed.

Lemma steadier_drop : forall a b rest, steadier (a ++ b) rest -> steadier b rest.
Proof.
  intros a b rest (H1 & H2 & H3). apply Forall_app in H2 as [_ H2]. split; [eapply steady_drop, H1|]. split; assumption.
Qed.

Lemma no_filament_any : forall (ls : list line) prev ss, measures prev ls = Ok ss ->
  Forall (fun l => l_e l = None) ls -> Forall good_note ls ->
  (forall p a b s, prev :: ls = p ++ a :: b :: s -> e_link a b) ->
  (exists es, Forall good es /\ map s_fil ss = map (fun e => n_sub e e) es) /\
  Forall (fun l => t_relative_e (lnotes l) <> Some true) ls.
Proof.
  induction ls as [|l ls IH]; intros prev ss H He Hg Hl; cbn [measures] in H.
  - injection H as <-. split; [exists []; split; [constructor|reflexivity]|constructor].
  - destruct (measure prev l) as [s|e] eqn:Hm; cbn [bind] in H; [|discriminate H].
    destruct (measures l ls) as [t|e] eqn:Ht; cbn [bind] in H; [|discriminate H].
    injection H as <-. inversion He as [|? ? Hl0 He']; subst. inversion Hg as [|? ? Hg0 Hg']; subst.
    destruct (IH _ _ Ht He' Hg') as [(es & H0 & H1) H2].
    { intros p a b s0 Hs. apply (Hl (prev :: p) a b s0). cbn. rewrite Hs. reflexivity. }
    unfold measure in Hm.
    destruct (place l) as [p|e]; cbn [bind] in Hm; [|discriminate Hm].
    destruct (place prev) as [p'|e]; cbn [bind] in Hm; [|discriminate Hm].
    assert (Hrel : t_relative_e (lnotes l) <> Some true).
    { intros Hr. rewrite Hr, Hl0 in Hm. discriminate Hm. }
    assert (Hrb : match t_relative_e (lnotes l) with Some b => b | None => false end = false)
      by (destruct (t_relative_e (lnotes l)) as [[]|]; [congruence|reflexivity|reflexivity]).
    rewrite Hrb in Hm. cbv zeta in Hm.
    destruct (t_e (lnotes l)) as [e|] eqn:E1; cbn [need bind] in Hm; [|discriminate Hm].
    destruct (t_e (lnotes prev)) as [e'|] eqn:E2; cbn [need bind] in Hm; [|discriminate Hm].
    match type of Hm with bind ?m _ = _ => destruct m; cbn [bind] in Hm; [|discriminate Hm] end.
    injection Hm as <-. split; [|constructor; assumption]. exists (e :: es). cbn [map s_fil].
    destruct (Hl [] prev l ls eq_refl Hl0) as [Hx|Hx]; [congruence|].
    rewrite E1, E2 in Hx. injection Hx as <-. split; [constructor; [exact (Hg0 _ E1)|exact H0]|]. rewrite H1. reflexivity.
Qed.

Lemma travel_no_arc_any : forall (first : line) run gen, arc_of first (first :: run) = Ok gen -> run <> [] ->
  Forall (fun l => l_e l = None) run -> Forall good_note run ->
  (forall p a b s, first :: run = p ++ a :: b :: s -> e_link a b) -> False.
Proof.
  intros first run gen H Hne He Hg Hl. unfold arc_of in H.
  destruct (get_circle (first :: run)) as [[er oc]|ex]; cbn [bind] in H; [|discriminate H].
  destruct (get_distances (first :: run)) as [[[ss fil] ratio]|ex] eqn:Hd; cbn [bind] in H; [|discriminate H].
  destruct oc as [c|]; [|discriminate H].
  destruct (mapM place (first :: run)) as [ps|ex]; cbn [bind] in H; [|discriminate H].
  unfold get_distances in Hd.
  destruct (measures first run) as [ss'|ex] eqn:Hm; cbn [bind] in Hd; [|discriminate Hd].
  match type of Hd with bind ?m _ = _ => destruct m; cbn [bind] in Hd; [|discriminate Hd] end.
  injection Hd as <- <- <-. destruct (no_filament_any _ _ _ Hm He Hg Hl) as [(es & H0 & H1) H2].
  assert (Hlast : t_relative_e (lnotes (last (first :: run) first)) <> Some true).
  { rewrite Forall_forall in H2. apply H2. destruct run as [|r0 t]; [congruence|].
    change (last (first :: r0 :: t) first) with (last (r0 :: t) first).
    destruct (exists_last (l := r0 :: t)) as (p & y & ->); [discriminate|].
    rewrite last_last. apply in_or_app. right. now left. }
  assert (Hz : forall a : num, py_div a (py_sum (map s_fil ss')) = Err ZeroDivisionError).
  { intros a. unfold py_div. rewrite H1, (good_sum _ H0). reflexivity. }
  destruct (t_relative_e (lnotes (last (first :: run) first))) as [[]|]; [congruence| |];
  (destruct (need (t_e (lnotes first))); cbn [bind] in H; [|discriminate H];
   rewrite Hz in H; discriminate H).
Qed.

Lemma queue_error_e : forall (first : line) run, queue_error (first :: run) = Ok false ->
  run <> [] /\ ((forall l, In l run -> l_e l <> None) \/ (forall l, In l run -> l_e l = None)).
Proof.
  intros first run H. unfold queue_error in H. destruct run as [|l1 t]; [discriminate H|].
  split; [discriminate|].
  match type of H with (if negb (?a && ?b && ?c) then _ else _) = _ =>
    destruct a eqn:Ve, b eqn:Vf, c eqn:Vz; try discriminate H end.
  destruct (is_some (l_e l1)).
  - left. intros l Hin. rewrite forallb_forall in Ve. specialize (Ve l Hin). destruct (l_e l); [discriminate|discriminate Ve].
  - right. intros l Hin. apply negb_true_iff in Ve. apply existsb_false in Ve. rewrite Forall_forall in Ve.
    specialize (Ve l Hin). cbn in Ve. destruct (l_e l); [discriminate Ve|reflexivity].
Qed.

(** what is put in the place of what *)
Definition made (first : line) (run gen : list line) : Prop :=
  8 <= List.length run /\ Forall (fun l => is_motion l = true /\ l_e l <> None) run /\
  Forall (fun l => generated (raw l)) gen.

Lemma gen_marked : forall (first : line) q gen, arc_of first q = Ok gen -> Forall (fun l => generated (raw l)) gen.
Proof.
  intros first q gen H. unfold arc_of in H.
  assert (H1 : forall c e rel f n, generated (raw (arc_line (A:=A) c e rel f n))).
  { intros c e rel f n. unfold generated. cbn [raw arc_line].
    change ("; generated from " ++ nat_to_string (n - 1) ++ " segments")%string
      with ("; generated" ++ (" from " ++ nat_to_string (n - 1) ++ " segments"))%string.
    apply contains_here. }
  assert (H2 : forall e r, generated (raw (correction_line (A:=A) e r))).
  { intros e r. unfold generated. cbn [raw correction_line].
    match goal with |- contains _ (?a ++ "; generated as arc to path relation is " ++ ?b) = true =>
      change ("; generated as arc to path relation is " ++ b)%string
        with ("; generated" ++ (" as arc to path relation is " ++ b))%string end.
    apply contains_here. }
  destruct (get_circle q) as [[er oc]|ex]; cbn [bind] in H; [|discriminate H].
  destruct (get_distances q) as [[[ss fil] ratio]|ex]; cbn [bind] in H; [|discriminate H].
  destruct oc as [c|]; [|discriminate H].
  destruct (mapM place q) as [ps|ex]; cbn [bind] in H; [|discriminate H].
  destruct (match t_relative_e _ with Some b => b | None => false end).
  - destruct (mapM (arc_term c) _) as [ts|ex]; cbn [bind] in H; [|discriminate H].
    injection H as <-. constructor; [apply H1|constructor].
  - destruct (need _) as [e0|ex]; cbn [bind] in H; [|discriminate H].
    destruct (py_div _ fil) as [rel|ex]; cbn [bind] in H; [|discriminate H].
    injection H as <-. constructor; [apply H1|]. destruct (n_ltb correction_limit _); [|constructor].
    constructor; [apply H2|constructor].
Qed.

Lemma accepted_made : forall (first : line) run gen,
  accepted (fun q => exists rest, steadier q rest) first run gen -> made first run gen.
Proof.
  intros first run gen (Hlen & Hab & Hq & Harc & (rest & (e & Hn & Hc & Hl & Ht) & Hg & _)).
  destruct (queue_error_e _ _ Hq) as (Hne & He). inversion Hg as [|? ? _ Hg']; subst.
  destruct He as [He|He].
  2:{ exfalso. apply (travel_no_arc_any _ _ _ Harc Hne); [rewrite Forall_forall; exact He|exact Hg'|exact Hl]. }
  split; [exact Hlen|]. split; [|exact (gen_marked _ _ _ Harc)].
  rewrite Forall_forall. intros l Hin. split; [|apply He, Hin].
  rewrite forallb_forall in Hab. specialize (Hab l Hin).
  inversion Hc as [|? ? _ Hc']; subst. rewrite Forall_forall in Hc'. specialize (Hc' l Hin).
  unfold absorbable in Hab. unfold is_motion in *. destruct (command l); [exact Hab|].
  exfalso. apply (He l Hin), Hc'. reflexivity.
Qed.

Lemma others_made : forall n ins outs, replaced made n ins outs ->
  more generated (other_texts ins) (other_texts outs).
Proof.
  assert (Hx : forall l l' : line, same_line l l' -> extruding_move l' = extruding_move l).
  { intros l l' (_ & Hc & _ & Ha & _). unfold extruding_move, is_motion, l_e. rewrite Hc, Ha. reflexivity. }
  assert (Happ : forall a b : list line, other_texts (a ++ b) = other_texts a ++ other_texts b).
  { intros a b. unfold other_texts. rewrite filter_app. apply map_app. }
  intros n ins outs H.
  induction H as [|n l l' ins outs Hs H IH|n l l' mv mv' gen next outs Hs Hrun HR Hn H IH].
  - constructor.
  - unfold other_texts in *. cbn [filter]. rewrite (Hx _ _ Hs).
    destruct (extruding_move l); cbn [negb]; [exact IH|]. cbn [map]. rewrite (proj1 Hs). constructor. exact IH.
  - destruct HR as (_ & Hmv & Hg).
    assert (Hr : other_texts mv = []).
    { clear - Hmv Hrun Hx. induction Hrun as [|x y xs ys Hxy _ IH]; [reflexivity|].
      inversion Hmv as [|? ? [M1 M2] Hmv']; subst. unfold other_texts in *. cbn [filter].
      rewrite <- (Hx _ _ Hxy). unfold extruding_move. rewrite M1. destruct (l_e y); [exact (IH Hmv')|congruence]. }
    assert (Hnew : Forall generated (other_texts gen)).
    { unfold other_texts. clear - Hg. induction Hg as [|x gen Hx _ IH]; [constructor|].
      cbn [filter]. destruct (extruding_move x); cbn [negb]; [exact IH|]. cbn [map]. constructor; assumption. }
    assert (Hall : more generated (other_texts (mv ++ next)) (other_texts (gen ++ outs))).
    { rewrite !Happ, Hr. cbn [app]. apply more_all; assumption. }
    change (l :: mv ++ next) with ([l] ++ (mv ++ next)). change (l' :: gen ++ outs) with ([l'] ++ (gen ++ outs)).
    rewrite (Happ [l]), (Happ [l']). unfold other_texts at 1 3. cbn [filter].
    rewrite (Hx _ _ Hs). destruct (extruding_move l); cbn [negb map app]; [exact Hall|].
    rewrite (proj1 Hs). constructor. exact Hall.
Qed.

Lemma arcs_made : forall home data (g g' : gcode A), load_gen false home data = Ok g ->
  Forall good_note (all_lines g) -> optimize_arcs g = Ok g' ->
  exists n, replaced made n (all_lines g) (all_lines g').
Proof.
  intros home data g g' Hl Hg H.
  assert (H0 : steadier [] (all_lines g)).
  { destruct (load_noted _ _ _ Hl) as [e He]. split; [|split; [constructor|exact Hg]]. exists e. split; [exact He|].
    split; [constructor|]. split; [intros [|] a b s Hs; discriminate Hs|intros [|] x Hx; discriminate Hx]. }
  destruct (optimize_replaced steadier g g' steadier_push steadier_drop H0 H) as [n Hn]. exists n.
  eapply replaced_mono; [|exact Hn]. exact accepted_made.
Qed.
End Any.

(** ** Doubles *)

Local Open Scope R_scope.

Lemma fin_sum : forall es : list (num B64), Forall fin es ->
  n_eqb (py_sum (A:=B64) (map (fun e => n_sub e e) es)) (n0 (A:=B64)) = true.
Proof.
  intros es H. unfold py_sum. destruct n0_fin as [F0 V0].
  assert (Hgen : forall acc : num B64, fin acc -> fval acc = 0 ->
    fin (fold_left n_add (map (fun e => n_sub e e) es) acc) /\ fval (fold_left n_add (map (fun e => n_sub e e) es) acc) = 0).
  { induction H as [|e es He _ IH]; intros acc Fa Va; [split; assumption|]. cbn [map fold_left].
    assert (Hb : 0 <= big) by apply bpow_ge_0.
    destruct (fsub_val e e He He) as [F1 V1]; [replace (fval e - fval e) with 0 by ring; rewrite Rabs_R0; exact Hb|].
    replace (fval e - fval e) with 0 in V1 by ring. rewrite rnd_0 in V1.
    destruct (fadd_val acc (fsub e e) Fa F1) as [F2 V2]; [rewrite Va, V1, Rplus_0_l, Rabs_R0; exact Hb|].
    rewrite Va, V1, Rplus_0_l, rnd_0 in V2. apply IH; assumption. }
  destruct (Hgen _ F0 V0) as [F V]. apply (feqb_val _ _ F F0). rewrite V, V0. reflexivity.
Qed.

Lemma calm_e : forall (m m' : mstate B64) s l, modest s -> motion_step m (new_line s) = Ok (m', l) ->
  calm (Some (m_e m)) -> small (m_oe m) -> calm (Some (m_e m')) /\ small (m_oe m').
Proof.
  intros m m' s l Hm H He Ho. destruct (command_name s) as [c|] eqn:Ec.
  2:{ destruct (motion_none m m' s l Ec H) as (-> & _). split; assumption. }
  pose proof (read_letter LE m m' s l) as K.
  destruct (motion_some m m' s l c Ec H) as (s1 & l1 & ext & U & _ & X & ->).
  assert (Hu : m_e s1 = m_e m /\ m_oe s1 = m_oe m).
  { split; [apply (update_modes_e _ _ _ _ U)|]. unfold update_modes in U.
    repeat match type of U with
    | (if ?x then _ else _) = _ => destruct x; [injection U as <-; reflexivity|]
    end.
    destruct c as [|d t]; [injection U as <-; reflexivity|].
    destruct (Ascii.eqb d "T") eqn:Ed.
    - apply Ascii.eqb_eq in Ed. subst d. destruct (py_int t); [|discriminate U]. injection U as <-. reflexivity.
    - assert (Hs : Ok m = Ok s1 \/ d = "T"%char) by (clear - U; all_chars d; auto).
      destruct Hs as [Hs| ->]; [injection Hs as <-; reflexivity|discriminate Ed]. }
  destruct Hu as [U1 U2]. destruct (update_position_fixed l1 s1) as (_ & _ & _ & _ & P5 & P6 & _).
  rewrite <- P5 in U1. rewrite <- P6 in U2. unfold update_extrusion in X.
  cbn [largs set_notes get_arg] in K. unfold l_e in X.
  destruct (a_e (largs l1)) as [e|].
  2:{ injection X as _ <-. rewrite U1, U2. split; assumption. }
  specialize (K e Hm H eq_refl).
  destruct (is_move l1).
  - destruct (m_relative_e (update_position l1 s1)); injection X as _ <-; cbn [m_e m_oe set_ext].
    + rewrite U1, U2. split; [apply calm_add; assumption|exact Ho].
    + rewrite U2. split; [apply calm_add; [apply small_calm, K|exact Ho]|exact Ho].
  - destruct (cmd_is (command l1) "G92"); injection X as _ <-; cbn [m_e m_oe set_ext]; rewrite ?U1, ?U2; split; assumption.
Qed.

Lemma trace_calm_e : forall ts ls (m m' : mstate B64), trace m ts ls m' -> Forall modest ts ->
  calm (Some (m_e m)) -> small (m_oe m) -> Forall (good_note fin) ls.
Proof.
  intros ts ls m m' H. induction H as [m|m s l m1 ts ls m' Hs Ht IH]; intros Hm He Ho; [constructor|].
  inversion Hm as [|? ? M1 M2]; subst. destruct (calm_e _ _ _ _ M1 Hs He Ho) as [He' Ho'].
  constructor; [|exact (IH M2 He' Ho')]. intros e E. pose proof (motion_noted _ _ (new_line s) _ eq_refl Hs) as Hn.
  destruct (command l); [|destruct Hn as (_ & Hn & _); congruence]. destruct Hn as [Hn _]. rewrite Hn in E. injection E as <-.
  exact (proj1 He').
Qed.

Lemma arcs_kept_B64 : forall home data (g g' : gcode B64), load_gen false home data = Ok g ->
  Forall modest (program_text data) -> optimize_arcs g = Ok g' ->
  more (fun s => contains "; generated" s = true) (other_texts (all_lines g)) (other_texts (all_lines g')).
Proof.
  intros home data g g' Hl Hm H.
  assert (Hg : Forall (good_note fin) (all_lines g)).
  { rewrite (load_all_lines _ _ _ _ Hl). destruct (load_trace _ _ _ _ Hl) as (ls & Ht & Hls). rewrite (Hls eq_refl).
    assert (S0 : small (n0 (A:=B64))).
    { destruct n0_fin as [F V]. split; [exact F|]. rewrite V, Rabs_R0. apply pow_le. lra. }
    apply (trace_calm_e _ _ _ _ Ht Hm); destruct home as [[? ?] ?]; [apply small_calm, S0|exact S0]. }
  destruct (arcs_made fin fin_sum _ _ _ _ Hl Hg H) as [n Hn]. exact (others_made _ _ _ Hn).
Qed.

(** ** An example *)

From Verif Require Import P_MachineRefuted P_FilterRefuted P_ArcErr P_ArcRefuted P_FloatTempcal.

Lemma ccw_modest : (exists g g' : gcode B64, load_gen false home0 arc_ccw = Ok g /\ optimize_arcs g = Ok g') /\
  Forall modest (program_text arc_ccw).
Proof.
  split; [|apply modest_all; vm_compute; reflexivity].
  eexists _, _. split; [apply loadF_ok; vm_compute; reflexivity|apply arcF_ok; vm_compute; reflexivity].
Qed.

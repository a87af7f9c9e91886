(** * P_Arc: proofs about the arc optimizer (C49-C55) *)
From Coq Require Import List Ascii String ZArith NArith Bool Reals Lra Lia.
From Verif Require Import PyBase Arith ArithR Gcoder Filters Arc SpecText SpecLoad SpecMachine SpecFilter SpecArc.
From Verif Require Import P_Load P_Text P_Filter.
Import ListNotations.
Local Open Scope list_scope.

Section Shape.
Context {A : arith}.
Notation num := (num A).
Notation line := (line A).

Lemma same_line_refl : forall l : line, same_line l l.
Proof. intros l. unfold same_line. auto. Qed.

Lemma carry_same : forall (q : list line) (l : line), same_line l (carry q l).
Proof.
  intros q l. unfold carry. destruct (command l) as [c|] eqn:Ec; [apply same_line_refl|].
  destruct (rev q) as [|p t]; [apply same_line_refl|].
  unfold same_line. cbn. repeat (split; [reflexivity|]). intros H. congruence.
Qed.

Lemma replaced_keeps : forall R n (a b : list line), Forall2 same_line a b ->
  forall ins outs, replaced R n ins outs -> replaced R n (a ++ ins) (b ++ outs).
Proof.
  intros R n a b H. induction H as [|x y a b Hx Hab IH]; intros ins outs Hr; [exact Hr|].
  cbn. constructor; [exact Hx|apply IH, Hr].
Qed.

Lemma replaced_mono : forall (R R' : line -> list line -> list line -> Prop) n ins outs,
  (forall f r g, R f r g -> R' f r g) -> replaced R n ins outs -> replaced R' n ins outs.
Proof.
  intros R R' n ins outs H Hr. induction Hr as [|n l l' ins outs Hs Hr IH|n l l' run run' gen next outs Hs Hrun HR Hn Hr IH].
  - constructor.
  - constructor; assumption.
  - apply rp_run with (run' := run'); auto.
Qed.

(** *** The shape of the generated lines *)

Lemma arc_line_is_arc : forall c e r f n, is_arc (arc_line (A:=A) c e r f n).
Proof. intros c e r f n. unfold is_arc, arc_line. cbn. destruct (n_ltb n0 (c_direction c)); auto. Qed.

Lemma correction_sets_e : forall e r, sets_e (correction_line (A:=A) e r).
Proof. intros e r. split; [reflexivity|]. intros [] H; try reflexivity. congruence. Qed.

Lemma arc_of_shape : forall (first : line) q gen, arc_of first q = Ok gen ->
  exists arc fix_, gen = arc :: fix_ /\ is_arc arc /\ (fix_ = [] \/ exists c, fix_ = [c] /\ sets_e c).
Proof.
  intros first q gen H. unfold arc_of in H.
  destruct (get_circle q) as [[er oc]|ex]; cbn [bind] in H; [|discriminate H].
  destruct (get_distances q) as [[[ss fil] ratio]|ex]; cbn [bind] in H; [|discriminate H].
  destruct oc as [c|]; [|discriminate H].
  destruct (mapM place q) as [ps|ex]; cbn [bind] in H; [|discriminate H].
  destruct (match t_relative_e _ with Some b => b | None => false end).
  - destruct (mapM (arc_term c) _) as [ts|ex]; cbn [bind] in H; [|discriminate H].
    injection H as <-. eexists _, _. split; [reflexivity|]. split; [apply arc_line_is_arc|now left].
  - destruct (need _) as [e0|ex]; cbn [bind] in H; [|discriminate H].
    destruct (py_div _ fil) as [rel|ex]; cbn [bind] in H; [|discriminate H].
    injection H as <-. eexists _, _. split; [reflexivity|]. split; [apply arc_line_is_arc|].
    destruct (n_ltb correction_limit _); [right|now left].
    eexists. split; [reflexivity|apply correction_sets_e].
Qed.

(** *** The queue *)

(** what holds of a run that is replaced: it was found valid, and this is its arc *)
Definition accepted (I : list line -> Prop) (first : line) (run gen : list line) : Prop :=
  8 <= List.length run /\ forallb absorbable run = true /\
  queue_error (first :: run) = Ok false /\ arc_of first (first :: run) = Ok gen /\ I (first :: run).

(** [I q rest]: an invariant of the queue and the lines to come *)
Section Loop.
Variable I : list line -> list line -> Prop.
Hypothesis I_push : forall q l rest, I q (l :: rest) -> I (q ++ [carry q l]) rest.
Hypothesis I_drop : forall a b rest, I (a ++ b) rest -> I b rest.

Definition queue_ok (q : list line) (valid : bool) : Prop :=
  forallb absorbable q = true /\
  (valid = true -> 8 < List.length q /\ queue_error q = Ok false).

Notation R := (accepted (fun q => exists rest, I q rest)).

Lemma absorbable_move : forall l : line, cmd_in (command l) move_gcodes = true -> absorbable l = true.
Proof. intros l H. unfold absorbable, is_motion. destruct (command l); [exact H|reflexivity]. Qed.

Lemma to_gcode_inv : forall q (l : line) r, to_gcode q l = Ok r ->
  exists first run gen, q = first :: run /\ arc_of first q = Ok gen /\ r = (first :: gen) ++ [l].
Proof.
  intros q l r H. unfold to_gcode in H. destruct q as [|first run]; [discriminate H|].
  destruct (arc_of first (first :: run)) as [gen|e] eqn:Ha; cbn [bind] in H; [|discriminate H].
  injection H as <-. exists first, run, gen. repeat split. exact Ha.
Qed.

(** the lines of a replaced queue, next to the originals *)
Lemma run_replaced : forall orig first run gen next n outs,
  Forall2 same_line orig (first :: run) -> R first run gen -> next <> [] ->
  replaced R n next outs -> replaced R (S n) (orig ++ next) ((first :: gen) ++ outs).
Proof.
  intros orig first run gen next n outs Hq HR Hn Hr. inversion Hq as [|o f os fs Ho Hos]; subst.
  cbn. apply rp_run with (run' := run); assumption.
Qed.

Lemma loop_replaced : forall s ins outs s', rewrites arc_opcode s ins outs s' ->
  forall orig, Forall2 same_line orig (fst s) -> queue_ok (fst s) (snd s) -> I (fst s) ins ->
  exists n, replaced R n (orig ++ ins) (List.concat outs ++ fst s').
Proof.
  intros s ins outs s' H. induction H as [s|s l s1 r ins outs s2 Hf Hr IH]; intros orig Ho Hq Hi.
  - exists 0. cbn. rewrite <- (app_nil_r (fst s)). apply replaced_keeps; [exact Ho|constructor].
  - destruct s as [q valid]. cbn [fst snd] in Ho, Hq, Hi. unfold arc_opcode in Hf.
    set (l1 := carry q l) in *.
    pose proof (carry_same q l) as Hl. fold l1 in Hl.
    assert (Ho1 : Forall2 same_line (orig ++ [l]) (q ++ [l1])).
    { apply Forall2_app; [exact Ho|]. constructor; [exact Hl|constructor]. }
    pose proof (I_push _ _ _ Hi) as Hi1. fold l1 in Hi1.
    destruct Hq as [Hq1 Hq2].
    assert (Heq : orig ++ l :: ins = (orig ++ [l]) ++ ins) by (rewrite <- app_assoc; reflexivity).
    destruct (min_segments <? List.length (q ++ [l1])) eqn:Hlen.
    + destruct (cmd_in (command l1) move_gcodes) eqn:Hm; cbn [negb] in Hf.
      * destruct (queue_error (q ++ [l1])) as [error|ex] eqn:He; cbn [bind] in Hf; [|discriminate Hf].
        pose proof (absorbable_move _ Hm) as Hab.
        destruct error.
        -- destruct valid.
           ++ destruct (to_gcode q l1) as [g|ex] eqn:Hg; cbn [bind] in Hf; [|discriminate Hf].
              injection Hf as <- <-. apply to_gcode_inv in Hg as (first & run & gen & -> & Harc & ->).
              rewrite last_last, removelast_last in *. cbn [fst snd] in IH.
              destruct (IH [l]) as [n Hn].
              { constructor; [exact Hl|constructor]. }
              { split; [cbn; rewrite Hab; reflexivity|discriminate]. }
              { apply (I_drop (first :: run)). exact Hi1. }
              destruct (Hq2 eq_refl) as [Hc1 Hc2].
              exists (S n). cbn [replacement List.concat]. rewrite <- app_assoc.
              apply run_replaced with (run := run); [exact Ho| |discriminate|exact Hn].
              cbn in Hq1. apply andb_prop in Hq1 as [_ Hq1].
              split; [cbn in Hc1; lia|]. split; [exact Hq1|]. split; [exact Hc2|]. split; [exact Harc|].
              exists (l :: ins). exact Hi.
           ++ assert (Hq1' : forallb absorbable (q ++ [l1]) = true)
                by (rewrite forallb_app, Hq1; cbn; rewrite Hab; reflexivity).
              destruct (q ++ [l1]) as [|x t] eqn:Et; [discriminate Hf|]. injection Hf as <- <-.
              destruct (orig ++ [l]) as [|x0 t0] eqn:Eo; [inversion Ho1|].
              inversion Ho1 as [|? ? ? ? Hx Ht]; subst. cbn [fst snd] in IH.
              destruct (IH t0 Ht) as [n Hn].
              { cbn in Hq1'. apply andb_prop in Hq1' as [_ Hq1']. split; [exact Hq1'|discriminate]. }
              { apply (I_drop [x]). exact Hi1. }
              exists n. rewrite Heq. cbn. constructor; [exact Hx|exact Hn].
        -- injection Hf as <- <-. cbn [fst snd] in IH.
           destruct (IH (orig ++ [l]) Ho1) as [n Hn].
           { split; [rewrite forallb_app, Hq1; cbn; rewrite Hab; reflexivity|].
             intros _. split; [apply Nat.ltb_lt in Hlen; exact Hlen|exact He]. }
           { exact Hi1. }
           exists n. rewrite Heq. exact Hn.
      * destruct valid.
        -- destruct (to_gcode q l1) as [g|ex] eqn:Hg; cbn [bind] in Hf; [|discriminate Hf].
           injection Hf as <- <-. apply to_gcode_inv in Hg as (first & run & gen & -> & Harc & ->).
           cbn [fst snd] in IH. destruct (IH []) as [n Hn].
           { constructor. } { split; [reflexivity|discriminate]. }
           { apply (I_drop ((first :: run) ++ [l1])). rewrite app_nil_r. exact Hi1. }
           destruct (Hq2 eq_refl) as [Hc1 Hc2].
           exists (S n). cbn [replacement List.concat]. rewrite <- !app_assoc.
           apply run_replaced with (run := run); [exact Ho| |discriminate|].
           ++ cbn in Hq1. apply andb_prop in Hq1 as [_ Hq1].
              split; [cbn in Hc1; lia|]. split; [exact Hq1|]. split; [exact Hc2|]. split; [exact Harc|].
              exists (l :: ins). exact Hi.
           ++ cbn. constructor; [exact Hl|]. exact Hn.
        -- injection Hf as <- <-. cbn [fst snd] in IH. destruct (IH []) as [n Hn].
           { constructor. } { split; [reflexivity|discriminate]. }
           { apply (I_drop (q ++ [l1])). rewrite app_nil_r. exact Hi1. }
           exists n. rewrite Heq. cbn [replacement List.concat]. rewrite <- (app_assoc (q ++ [l1])).
           apply replaced_keeps; [exact Ho1|exact Hn].
    + destruct (cmd_in (command l1) move_gcodes || negb (is_some (command l1))) eqn:Hm.
      * injection Hf as <- <-. cbn [fst snd] in IH.
        destruct (IH (orig ++ [l]) Ho1) as [n Hn].
        { split.
          - rewrite forallb_app, Hq1. cbn. rewrite andb_true_r. apply orb_prop in Hm as [Hm|Hm].
            + apply absorbable_move, Hm.
            + unfold absorbable. destruct (command l1); [discriminate Hm|reflexivity].
          - intros Hv. destruct (Hq2 Hv) as [Hc _]. apply Nat.ltb_ge in Hlen.
            rewrite app_length in Hlen. unfold min_segments in Hlen. cbn in Hlen. lia. }
        { exact Hi1. }
        exists n. rewrite Heq. exact Hn.
      * injection Hf as <- <-. cbn [fst snd] in IH. destruct (IH []) as [n Hn].
        { constructor. } { split; [reflexivity|discriminate]. }
        { apply (I_drop (q ++ [l1])). rewrite app_nil_r. exact Hi1. }
        exists n. rewrite Heq. cbn [replacement List.concat]. rewrite <- (app_assoc (q ++ [l1])).
        apply replaced_keeps; [exact Ho1|exact Hn].
Qed.

End Loop.

Lemma concat_append_last : forall (q : list line) ys, ys <> [] ->
  List.concat (map ly_lines (append_last q ys)) = List.concat (map ly_lines ys) ++ q.
Proof.
  intros q. induction ys as [|y ys IH]; intros H; [congruence|]. destruct ys as [|y2 ys].
  - cbn. rewrite !app_nil_r. reflexivity.
  - cbn [append_last map List.concat] in *. rewrite IH by discriminate. rewrite app_assoc. reflexivity.
Qed.

Lemma concat_concat : forall T (x : list (list (list T))),
  List.concat (map (@List.concat _) x) = List.concat (List.concat x).
Proof. intros T x. induction x as [|a x IH]; [reflexivity|]. cbn. rewrite IH, concat_app. reflexivity. Qed.

Lemma sum_lengths : forall T (bs : list (list T)),
  list_sum (map (@List.length _) bs) = List.length (List.concat bs).
Proof. intros T bs. induction bs as [|b bs IH]; [reflexivity|]. cbn. rewrite app_length. f_equal. exact IH. Qed.

(** the whole filter is the loop over all lines *)
Lemma optimize_loop : forall g g' : gcode A, optimize_arcs g = Ok g' ->
  exists outs s', rewrites arc_opcode arc_init (all_lines g) outs s' /\
    all_lines g' = List.concat outs ++ fst s'.
Proof.
  intros g g' H. unfold optimize_arcs in H.
  destruct (filter_gcode arc_opcode arc_init g) as [[s g1]|e] eqn:Hf; cbn [bind] in H; [|discriminate H].
  apply filter_ok in Hf as (outs & Hr & Hb & Hfr). exists outs, s. split; [exact Hr|].
  assert (Hall : all_lines g1 = List.concat outs).
  { unfold all_lines. rewrite Hb, concat_concat, concat_chop; [reflexivity|]. rewrite (rewrites_length _ _ _ _ _ Hr).
    apply sum_lengths. }
  destruct (fst s) as [|x t] eqn:Es.
  - injection H as <-. rewrite app_nil_r. exact Hall.
  - injection H as <-. rewrite <- Hall. unfold all_lines, blocks at 1. cbn [g_layers set_layers set_lines_layers].
    apply concat_append_last. intros Hn.
    assert (Hz : g_layers g = []).
    { destruct Hfr as (Hz & _). rewrite Hn in Hz. cbn in Hz. destruct (g_layers g); [reflexivity|discriminate Hz]. }
    unfold all_lines, blocks in Hr. rewrite Hz in Hr. cbn in Hr. inversion Hr; subst. discriminate Es.
Qed.

Lemma optimize_replaced : forall (I : list line -> list line -> Prop) (g g' : gcode A),
  (forall q l rest, I q (l :: rest) -> I (q ++ [carry q l]) rest) ->
  (forall a b rest, I (a ++ b) rest -> I b rest) ->
  I [] (all_lines g) -> optimize_arcs g = Ok g' ->
  exists n, replaced (accepted (fun q => exists rest, I q rest)) n (all_lines g) (all_lines g').
Proof.
  intros I g g' Hpush Hdrop H0 H. destruct (optimize_loop _ _ H) as (outs & s' & Hr & ->).
  apply (loop_replaced I Hpush Hdrop _ _ _ _ Hr []); [constructor|split; [reflexivity|discriminate]|exact H0].
Qed.

(** C49 *)
Lemma arcs_shape : forall g g' : gcode A, optimize_arcs g = Ok g' ->
  exists n, replaced arc_for n (all_lines g) (all_lines g').
Proof.
  intros g g' H. destruct (optimize_replaced (fun _ _ => True) g g') as [n Hn]; auto.
  exists n. eapply replaced_mono; [|exact Hn]. intros first run gen (H1 & H2 & _ & H4 & _).
  destruct (arc_of_shape _ _ _ H4) as (arc & fix_ & -> & H5 & H6).
  split; [exact H1|]. split; [exact H2|]. exists arc, fix_. auto.
Qed.

Lemma replaced_zero : forall R (ins outs : list line), replaced R 0 ins outs -> Forall2 same_line ins outs.
Proof.
  intros R ins outs H. remember 0 as n eqn:En. induction H; [constructor|constructor; auto|discriminate En].
Qed.

Lemma same_raw : forall a b : list line, Forall2 same_line a b -> map raw b = map raw a.
Proof. intros a b H. induction H as [|x y a b Hx Hab IH]; cbn; [reflexivity|]. destruct Hx as [-> _]. now rewrite IH. Qed.

Lemma no_arc_same_text : forall g g' : gcode A, replaced arc_for 0 (all_lines g) (all_lines g') ->
  write g' = write g.
Proof. intros g g' H. apply replaced_zero, same_raw in H. exact H. Qed.

(** C50 *)
Lemma same_other : forall l l' : line, same_line l l' -> other_command l' = other_command l.
Proof. intros l l' (_ & H & _). unfold other_command, absorbable, is_motion. rewrite H. reflexivity. Qed.

Lemma other_is_same : forall l l' : line, same_line l l' -> other_command l = true -> l' = l.
Proof.
  intros l l' (_ & _ & _ & _ & H) Ho. apply H. intros Hc. unfold other_command, absorbable in Ho.
  rewrite Hc in Ho. discriminate Ho.
Qed.

Lemma more_new_all : forall T (P : T -> Prop) (zs xs ys : list T), Forall P zs -> more P xs ys -> more P xs (zs ++ ys).
Proof. intros T P zs xs ys H. induction H; intros Hm; [exact Hm|]. cbn. apply more_new; auto. Qed.

Lemma filter_none : forall T (p : T -> bool) l, forallb (fun x => negb (p x)) l = true -> filter p l = [].
Proof.
  intros T p l. induction l as [|x l IH]; intros H; [reflexivity|]. cbn in *.
  apply andb_prop in H as [H1 H2]. destruct (p x); [discriminate H1|]. apply IH, H2.
Qed.

Lemma replaced_others : forall n (ins outs : list line), replaced arc_for n ins outs ->
  more sets_e (filter other_command ins) (filter other_command outs).
Proof.
  intros n ins outs H. induction H as [|n l l' ins outs Hs Hr IH|n l l' run run' gen next outs Hs Hrun HR Hn Hr IH].
  - constructor.
  - cbn. rewrite (same_other _ _ Hs). destruct (other_command l) eqn:El; [|exact IH].
    rewrite (other_is_same _ _ Hs El). constructor. exact IH.
  - destruct HR as (_ & Hab & arc & fix_ & -> & Harc & Hfix).
    assert (Hnone : filter other_command run = []).
    { assert (Hab' : forallb absorbable run = true).
      { clear - Hab Hrun. induction Hrun as [|a b r r' Hab1 Hr IH]; [reflexivity|]. cbn in *.
        apply andb_prop in Hab as [H1 H2]. rewrite (IH H2), andb_true_r.
        destruct Hab1 as (_ & Hc & _). unfold absorbable, is_motion in *. rewrite <- Hc. exact H1. }
      apply filter_none. rewrite <- Hab'. clear. induction run as [|x t IH]; [reflexivity|]. cbn. rewrite IH.
      unfold other_command. rewrite negb_involutive. reflexivity. }
    cbn [filter app]. rewrite (same_other _ _ Hs), !filter_app, Hnone. cbn [app].
    assert (Ha : other_command arc = false).
    { unfold other_command, absorbable, is_motion. destruct Harc as [->| ->]; reflexivity. }
    rewrite Ha.
    assert (Hg : more sets_e (filter other_command next) (filter other_command fix_ ++ filter other_command outs)).
    { apply more_new_all; [|exact IH]. destruct Hfix as [->|(c & -> & Hc)]; [constructor|].
      cbn. destruct (other_command c); [constructor; [exact Hc|constructor]|constructor]. }
    destruct (other_command l) eqn:El; [|exact Hg].
    rewrite (other_is_same _ _ Hs El). constructor. exact Hg.
Qed.

Lemma arcs_others : forall g g' : gcode A, optimize_arcs g = Ok g' ->
  more sets_e (filter other_command (all_lines g)) (filter other_command (all_lines g')).
Proof. intros g g' H. destruct (arcs_shape _ _ H) as [n Hn]. apply (replaced_others n), Hn. Qed.

End Shape.

(** * P_Free: free text in a program (C11) *)
From Coq Require Import List Ascii String ZArith NArith Bool Lia.
From Verif Require Import PyBase Arith Gcoder SpecText SpecLoad SpecFree P_Load P_Text P_Report P_Wf.
Import ListNotations.
Local Open Scope list_scope.

(** ** The letters of the words occur in the text *)

Lemma lacks_split : forall k a b, lacks k (a ++ b) = true -> lacks k b = true.
Proof. intros k a b H. rewrite lacks_app in H. apply andb_prop in H. apply H. Qed.

Lemma lacks_tail : forall k c t, lacks k (String c t) = true -> lacks k t = true.
Proof. intros k c t H. unfold lacks in *. cbn in H. apply andb_prop in H. apply H. Qed.

Lemma lacks_paren : forall k s r, scan_paren s = Some r -> lacks k s = true -> lacks k r = true.
Proof.
  intros k. induction s as [|c s IH]; intros r H Hk; cbn in H; [discriminate H|].
  pose proof (lacks_tail _ _ _ Hk) as Ht.
  destruct (Ascii.eqb c ")"); [injection H as <-; exact Ht|].
  destruct (Ascii.eqb c "("); [discriminate H|]. eapply IH; eassumption.
Qed.

Lemma lacks_span : forall k p s, lacks k s = true -> lacks k (snd (span p s)) = true.
Proof.
  intros k p s H. destruct (span p s) as [a b] eqn:E. apply span_app_eq in E. subst s.
  eapply lacks_split, H.
Qed.

Lemma match_at_lacks : forall k st s tok r, match_at st s = Some (tok, r) -> lacks k s = true ->
  lacks k r = true /\ fst tok <> String k "".
Proof.
  intros k st s tok r H Hk. unfold match_at in H. destruct s as [|c t]; [discriminate H|].
  pose proof (lacks_tail _ _ _ Hk) as Ht.
  assert (Hc : c <> k).
  { unfold lacks in Hk. cbn in Hk. apply andb_prop in Hk as [H1 _].
    apply negb_true_iff, Ascii.eqb_neq in H1. exact H1. }
  destruct (Ascii.eqb c "(").
  { destruct (scan_paren t) as [r1|] eqn:E.
    - injection H as <- <-. split; [eapply lacks_paren; eassumption|discriminate].
    - destruct st; [|discriminate H].
      unfold scan_paren_line in H. pose proof (lacks_span k not_nl t Ht) as Hl.
      destruct (span not_nl t) as [seg rest]. cbn in Hl.
      destruct (ends_paren seg && _); [|discriminate H]. injection H as <- <-.
      split; [exact Hl|discriminate]. }
  destruct (Ascii.eqb c ";").
  { injection H as <- <-. split; [apply lacks_span, Ht|discriminate]. }
  destruct (Ascii.eqb c "/" || Ascii.eqb c "*").
  { unfold scan_past_nl in H. pose proof (lacks_span k not_nl t Ht) as Hl.
    destruct (snd (span not_nl t)) as [|d u]; [discriminate H|].
    injection H as <- <-. split; [eapply lacks_tail, Hl|discriminate]. }
  destruct (is_word_letter c); [|discriminate H].
  destruct (scan_number t) as [n r1] eqn:E. apply scan_number_shorter in E.
  injection H as <- <-. split; [rewrite E in Ht; eapply lacks_split, Ht|].
  cbn. intros H. injection H as H. contradiction.
Qed.

Lemma findall_lacks : forall k s, lacks k s = true ->
  Forall (fun w : token => fst w <> String k "") (findall s).
Proof.
  intros k s. rewrite findall_is_from.
  cut (forall n s, n = String.length s -> forall st, lacks k s = true ->
         Forall (fun w : token => fst w <> String k "") (findall_from st s)).
  { intros H. eapply H. reflexivity. }
  clear s. induction n as [n IH] using (well_founded_induction lt_wf). intros s Hn st Hk. subst n.
  destruct s as [|c t]; [constructor|]. rewrite findall_from_step.
  destruct (match_at st (String c t)) as [[tok r]|] eqn:E.
  - destruct (match_at_lacks k _ _ _ _ E Hk) as [Hr Ht]. constructor; [exact Ht|].
    pose proof (match_at_shorter _ _ _ _ E). eapply IH; [eassumption|reflexivity|exact Hr].
  - eapply IH; [|reflexivity|eapply lacks_tail, Hk]. cbn. lia.
Qed.

Lemma words_lacks : forall k s, lacks k (lower s) = true ->
  Forall (fun w : token => fst w <> String k "") (words s).
Proof.
  intros k s H. apply findall_lacks in H. unfold words.
  destruct (findall (lower s)) as [|[c v] t]; [constructor|].
  destruct (String.eqb c "n"); [inversion H; assumption|exact H].
Qed.

Lemma words_shape : forall s, Forall tok_shape (words s).
Proof.
  intros s. pose proof (findall_shape (lower s)) as H. unfold words.
  destruct (findall (lower s)) as [|[c v] t]; [constructor|].
  destruct (String.eqb c "n"); [inversion H; assumption|exact H].
Qed.

Section Free.
Context {A : arith}.

(** ** One line of free text *)

Lemma plain_step : forall (m : mstate A) s, plain s = true ->
  exists l : line A, motion_step m (new_line s) = Ok (m, l) /\ largs l = no_args /\ is_move l = false /\
    cmd_in (command l) linear_move_gcodes = false /\ cmd_is (command l) "G4" = false.
Proof.
  intros m s H. unfold plain in H. apply andb_prop in H as [H Hm]. apply andb_prop in H as [Hg Ht].
  apply words_lacks in Hg, Ht, Hm. pose proof (words_shape s) as Hs.
  destruct (words s) as [|[c v] w] eqn:Ew.
  { assert (Hr : recognised s = false) by (unfold recognised; rewrite Ew; reflexivity).
    destruct (unrecognised_step (A:=A) m s Hr) as (l & E & Ha & Hv & Hc).
    exists l. repeat split; try assumption; rewrite Hc; cbn.
    all: destruct s as [|d t]; [reflexivity|];
      destruct (upper_lower_cases d (unrecognised_head _ d t Hr eq_refl)) as (HG & _ & _);
      apply Ascii.eqb_neq in HG; cbn [String.eqb]; rewrite ?HG; reflexivity. }
  inversion Hg as [|? ? Hg1 _]; inversion Ht as [|? ? Ht1 _]; inversion Hm as [|? ? Hm1 _];
    inversion Hs as [|? ? Hs1 _]; subst. cbn in Hg1, Ht1, Hm1.
  destruct Hs1 as [Hs1 | (d & x & Hd & Hw & _)].
  { injection Hs1 as -> ->. exists (new_line s). rewrite (no_command_step m s w Ew).
    repeat split. }
  cbn in Hd. subst c. rewrite motion_step_rest, split_new, Ew.
  assert (Hk : exists u, upper (String d "") = String u "" /\ (u <> "G" /\ u <> "T" /\ u <> "M")%char).
  { eexists. split; [reflexivity|].
    clear - Hw Hg1 Ht1 Hm1. all_chars d; try discriminate Hw; try congruence;
      cbn; repeat split; discriminate. }
  destruct Hk as (u & Hu & HG & HT & HM). cbn [read_words].
  change (String.eqb (String d "") "") with false. cbn [andb]. rewrite Hu. cbn [String.append].
  apply Ascii.eqb_neq in HG, HM.
  assert (HmG : cmd_in (Some (String u v)) move_gcodes = false).
  { cbn. rewrite HG. reflexivity. }
  rewrite HmG. unfold motion_rest. cbn [command set_command is_move].
  assert (Hu' : update_modes (String u v) false m = Ok m).
  { unfold update_modes. cbn [String.eqb]. rewrite HG, HM.
    clear - HT. all_chars u; try reflexivity; congruence. }
  rewrite Hu'. cbn [bind]. unfold parse_coordinates. cbn [command set_command].
  assert (HfG : first_is "G" (String u v) = false) by (cbn; rewrite HG; reflexivity).
  rewrite HfG. cbn [bind]. unfold update_position.
  cbn [is_move set_command command cmd_is String.eqb]. rewrite HG.
  unfold update_extrusion. cbn [set_command new_line l_e largs].
  eexists. split; [reflexivity|]. repeat split; cbn; rewrite HG; reflexivity.
Qed.

Lemma plain_reads : forall (m : mstate A) s, plain s = true ->
  exists l : line A, motion_step m (new_line s) = Ok (m, l).
Proof. intros m s H. destruct (plain_step m s H) as (l & E & _). exists l. exact E. Qed.

(** ** Programs with and without free text *)

Definition core (ls : lstate A) := (ls_bb ls, ls_bbe ls, ls_d ls).

Lemma update_layers_core : forall s : lstate A, core (update_layers s) = core s.
Proof.
  intros s. unfold update_layers. destruct (opt_eqb _ _); [reflexivity|].
  destruct (compute_base_z s). destruct (match ls_prev_base s with Some _ => _ | None => _ end); reflexivity.
Qed.

Lemma layer_body_core : forall (l : line A) mx s1 s2, core s1 = core s2 ->
  match layer_body l mx s1, layer_body l mx s2 with
  | Ok r1, Ok r2 => core r1 = core r2
  | Err e1, Err e2 => e1 = e2
  | _, _ => False
  end.
Proof.
  intros l mx s1 s2 H. unfold core in H. injection H as Hb He Hd. unfold layer_body, update_bbox.
  rewrite Hb, He, Hd.
  destruct (if is_move l then _ else (ls_bb s2, ls_bbe s2)) as [bb bbe].
  destruct (update_duration l (ls_d s2)) as [d|e]; cbn [bind]; [|reflexivity].
  rewrite !update_layers_core. reflexivity.
Qed.

Lemma layer_body_plain : forall (l : line A) mx s, is_move l = false ->
  cmd_in (command l) linear_move_gcodes = false -> cmd_is (command l) "G4" = false ->
  exists s', layer_body l mx s = Ok s' /\ core s' = core s.
Proof.
  intros l mx s Hm Hl H4. unfold layer_body, update_bbox, update_duration. rewrite Hm, Hl, H4. cbn [bind].
  eexists. split; [reflexivity|]. rewrite update_layers_core. reflexivity.
Qed.

Definition same_end (r1 r2 : res (mstate A * lstate A * list (line A))) : Prop :=
  match r1, r2 with
  | Ok (m1, s1, _), Ok (m2, s2, _) => m1 = m2 /\ core s1 = core s2
  | Err e1, Err e2 => e1 = e2
  | _, _ => False
  end.

Lemma build_plain : forall light ts (m : mstate A) s1 s2 o1 o2, core s1 = core s2 ->
  same_end (foldM (build_step light) (map new_line (filter (fun s => negb (plain s)) ts)) (m, s1, o1))
           (foldM (build_step light) (map new_line ts) (m, s2, o2)).
Proof.
  intros light ts. induction ts as [|t ts IH]; intros m s1 s2 o1 o2 H; cbn [map filter foldM].
  { split; [reflexivity|exact H]. }
  destruct (plain t) eqn:Hp; cbn [negb].
  - destruct (plain_step m t Hp) as (l & E & _ & Hm & Hl & H4).
    unfold build_step at 2. rewrite E. cbn [bind].
    destruct (command l) as [c|] eqn:Ec; cbn [bind].
    + rewrite <- Ec in Hl, H4.
      destruct (layer_body_plain l (m_max m) s2 Hm Hl H4) as (s' & -> & Hs'). cbn [bind].
      apply IH. rewrite H, <- Hs'. reflexivity.
    + apply IH. exact H.
  - cbn [map foldM]. unfold build_step at 1 3.
    destruct (motion_step m (new_line t)) as [[m' l]|e]; cbn [bind]; [|reflexivity].
    destruct (command l) as [c|]; cbn [bind].
    + pose proof (layer_body_core l (m_max m') s1 s2 H) as Hb.
      destruct (layer_body l (m_max m') s1) as [r1|e1], (layer_body l (m_max m') s2) as [r2|e2];
        try contradiction; cbn [bind].
      * apply IH. exact Hb.
      * exact Hb.
    + apply IH. exact H.
Qed.

Lemma finalize_same : forall light (m : mstate A) s1 s2 o1 o2, core s1 = core s2 ->
  same_run (finalize light m s1 o1) (finalize light m s2 o2).
Proof.
  intros light m s1 s2 o1 o2 H. unfold core in H. injection H as Hb He Hd.
  unfold finalize. rewrite Hb, He, Hd.
  destruct (match ls_cur s1 with [] => _ | _ => _ end) as [y1 z1].
  destruct (match ls_cur s2 with [] => _ | _ => _ end) as [y2 z2]. repeat split.
Qed.

Lemma load_plain : forall light home d1 d2,
  program_text d1 = filter (fun s => negb (plain s)) (program_text d2) ->
  match load_gen (A:=A) light home d1, load_gen (A:=A) light home d2 with
  | Ok g1, Ok g2 => same_run g1 g2
  | Err e1, Err e2 => e1 = e2
  | _, _ => False
  end.
Proof.
  intros light home d1 d2 H.
  assert (Hn : forall d, match load_gen (A:=A) light home d with
            | Ok g => exists r, foldM (build_step light) (map new_line (program_text d))
                (init_mstate home, init_lstate, []) = Ok r /\
                same_run g (finalize light (fst (fst r)) (snd (fst r)) (snd r))
            | Err e => foldM (build_step light) (map new_line (program_text d))
                (init_mstate home, init_lstate, []) = Err e end).
  { intros d. unfold load_gen. destruct d as [|s d].
    - eexists. split; [reflexivity|]. cbn [fst snd]. unfold finalize. cbn.
      destruct home as [[hx hy] hz]. cbn. destruct (n_ltb n0 n0); repeat split.
    - rewrite clean_lines_text. destruct (foldM _ _ _) as [[[m ls] out]|e]; cbn [bind]; [|reflexivity].
      eexists. split; [reflexivity|]. repeat split. }
  pose proof (build_plain light (program_text d2) (init_mstate home) init_lstate init_lstate [] []
                eq_refl) as Hb.
  rewrite <- H in Hb. pose proof (Hn d1) as H1. pose proof (Hn d2) as H2.
  destruct (load_gen light home d1) as [g1|e1], (load_gen light home d2) as [g2|e2].
  - destruct H1 as ([[m1 s1] o1] & E1 & R1), H2 as ([[m2 s2] o2] & E2 & R2).
    rewrite E1, E2 in Hb. destruct Hb as [<- Hc]. cbn [fst snd] in R1, R2.
    pose proof (finalize_same light m1 s1 s2 o1 o2 Hc) as R.
    destruct R1 as (?&?&?&?&?&?&?), R2 as (?&?&?&?&?&?&?), R as (?&?&?&?&?&?&?).
    repeat split; congruence.
  - destruct H1 as (r1 & E1 & _). rewrite E1, H2 in Hb. destruct r1 as [[? ?] ?]. exact Hb.
  - destruct H2 as (r2 & E2 & _). rewrite H1, E2 in Hb. exact Hb.
  - rewrite H1, H2 in Hb. exact Hb.
Qed.

End Free.

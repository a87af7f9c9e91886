(** * P_Report: programs whose lines differ in text only give the same report *)
From Coq Require Import List Ascii String ZArith NArith Bool Lia.
From Verif Require Import PyBase Arith Gcoder SpecText SpecLoad P_Load P_Text.
Import ListNotations.
Local Open Scope list_scope.

(** ** find_code ignores a trailing comment *)

Lemma find_code_fuel_enough : forall f1 f2 code s,
  String.length s <= f1 -> String.length s <= f2 ->
  find_code_fuel f1 code s = find_code_fuel f2 code s.
Proof.
  induction f1 as [|f1 IH]; intros f2 code s H1 H2.
  - destruct s; [|cbn in H1; lia]. destruct f2; reflexivity.
  - destruct f2 as [|f2]; [destruct s; [reflexivity|cbn in H2; lia]|].
    cbn [find_code_fuel]. destruct s as [|c t]; [reflexivity|]. cbn in H1, H2.
    destruct (Ascii.eqb c "(").
    { destruct (scan_paren t) as [r|] eqn:E; [apply scan_paren_shorter in E|]; apply IH; lia. }
    destruct (Ascii.eqb c ";").
    { unfold scan_to_nl. pose proof (span_snd_length not_nl t). apply IH; lia. }
    destruct (Ascii.eqb c "/" || Ascii.eqb c "*").
    { unfold scan_past_nl. pose proof (span_snd_length not_nl t) as Hl.
      destruct (snd (span not_nl t)); cbn in Hl; apply IH; lia. }
    destruct (Ascii.eqb c code); [reflexivity|]. apply IH; lia.
Qed.

Lemma find_code_step : forall code c t,
  find_code code (String c t) =
          if Ascii.eqb c "(" then
            match scan_paren t with
            | Some r => find_code code r
            | None => find_code code t
            end
          else if Ascii.eqb c ";" then find_code code (scan_to_nl t)
          else if Ascii.eqb c "/" || Ascii.eqb c "*" then
            match scan_past_nl t with
            | Some r => find_code code r
            | None => find_code code t
            end
          else if Ascii.eqb c code then Some (fst (scan_number t))
          else find_code code t.
Proof.
  intros code c t. unfold find_code at 1. cbn [String.length find_code_fuel].
  destruct (Ascii.eqb c "(").
  { destruct (scan_paren t) as [r|] eqn:E; [|reflexivity].
    apply scan_paren_shorter in E. apply find_code_fuel_enough; lia. }
  destruct (Ascii.eqb c ";").
  { unfold scan_to_nl. pose proof (span_snd_length not_nl t).
    apply find_code_fuel_enough; lia. }
  destruct (Ascii.eqb c "/" || Ascii.eqb c "*").
  { unfold scan_past_nl. pose proof (span_snd_length not_nl t) as Hl.
    destruct (snd (span not_nl t)) as [|d u]; cbn in Hl; [reflexivity|].
    apply find_code_fuel_enough; lia. }
  destruct (Ascii.eqb c code); reflexivity.
Qed.

Lemma find_code_tail : forall code b c, in_chars code [";"; "("; "/"; "*"]%char = false ->
  is_space code = false -> str_all is_space b = true -> lacks nl c = true ->
  find_code code (b ++ String ";" c) = None.
Proof.
  intros code b c Hcode Hsp Hb Hc. induction b as [|d b IH].
  - cbn [String.append]. rewrite find_code_step.
    change (Ascii.eqb ";" "(") with false. change (Ascii.eqb ";" ";") with true. cbv iota.
    unfold scan_to_nl. rewrite (not_nl_full c Hc). reflexivity.
  - cbn [String.append]. cbn in Hb. apply andb_prop in Hb as [Hd Hb].
    destruct (space_facts d Hd) as (_ & _ & H2 & H3 & H4 & _).
    rewrite find_code_step, H2, H3, H4.
    assert (Hne : Ascii.eqb d code = false).
    { apply Ascii.eqb_neq. intros ->. congruence. }
    rewrite Hne. apply IH, Hb.
Qed.

Lemma find_code_comment : forall code s x, in_chars code [";"; "("; "/"; "*"]%char = false ->
  is_space code = false -> lacks nl s = true -> comment_tail x ->
  find_code code (s ++ x) = find_code code s.
Proof.
  intros code s x Hcode Hsp Hs Htail.
  destruct (comment_tail_facts x Htail) as (Hstop & _ & Hx & Hxp & _).
  destruct Htail as (b0 & c0 & Ex & Hb0 & _ & Hc0 & _).
  remember (String.length s) as n eqn:Hn. revert s Hn Hs.
  induction n as [n IH] using (well_founded_induction lt_wf). intros s Hn Hs. subst n.
  destruct s as [|d t].
  - cbn [String.append]. rewrite Ex. rewrite find_code_tail by assumption. reflexivity.
  - cbn [String.append]. rewrite !find_code_step.
    unfold lacks in Hs. cbn in Hs. apply andb_prop in Hs as [Hd Hs].
    assert (Happ : lacks nl (t ++ x) = true).
    { rewrite lacks_app, Hx, andb_true_r. exact Hs. }
    assert (IHt : forall a r, t = (a ++ r)%string -> find_code code (r ++ x) = find_code code r).
    { intros a r E. apply (IH (String.length r)); [|reflexivity|].
      - rewrite E. cbn. rewrite str_length_app. lia.
      - change (lacks nl t = true) in Hs. rewrite E, lacks_app in Hs. apply andb_prop in Hs. apply Hs. }
    destruct (Ascii.eqb d "(").
    { destruct (scan_paren t) as [r|] eqn:E.
      - rewrite (scan_paren_ext _ _ x E).
        assert (Ha : exists a, t = (a ++ r)%string).
        { clear - E. revert r E. induction t as [|e t IHt]; intros r E; cbn in E; [discriminate E|].
          destruct (Ascii.eqb e ")").
          - injection E as <-. exists (String e ""). reflexivity.
          - destruct (Ascii.eqb e "("); [discriminate E|].
            destruct (IHt r E) as [a Ha]. exists (String e a). cbn. congruence. }
        destruct Ha as [a Ha]. apply (IHt a r Ha).
      - rewrite (scan_paren_ext_none _ x E Hxp). apply (IHt ""%string t eq_refl). }
    destruct (Ascii.eqb d ";").
    { unfold scan_to_nl. rewrite (not_nl_full t Hs), (not_nl_full _ Happ). reflexivity. }
    destruct (Ascii.eqb d "/" || Ascii.eqb d "*").
    { unfold scan_past_nl. rewrite (not_nl_full t Hs), (not_nl_full _ Happ). cbn [snd].
      apply (IHt ""%string t eq_refl). }
    destruct (Ascii.eqb d code).
    { rewrite (scan_number_ext t x Hstop). reflexivity. }
    apply (IHt ""%string t eq_refl).
Qed.

Lemma Forall2_len : forall X Y (R : X -> Y -> Prop) a b, Forall2 R a b ->
  List.length a = List.length b.
Proof. intros X Y R a b H. induction H; cbn; congruence. Qed.

Section Report.
Context {A : arith}.

(** ** Erasing the text of the stored lines *)

Definition blank_out (ls : list (line A)) : list (line A) := map (fun _ => new_line ""%string) ls.

Definition erase_layer (y : layer A) : layer A := set_ly_lines (blank_out (ly_lines y)) y.

Definition erase (s : lstate A) : lstate A :=
  LState (ls_bb s) (ls_bbe s) (ls_d s) (ls_begin s) (map erase_layer (ls_layers s)) (ls_zs s)
         (ls_lidx s) (ls_kidx s) (ls_layer_id s) (ls_layer_line s)
         (ls_last_z s) (ls_prev_z s) (ls_prev_base s) (ls_cur_z s)
         (blank_out (ls_cur s)) (ls_has_ext s) (ls_est s).

Lemma erase_zs : forall ys : list (layer A), map ly_z (map erase_layer ys) = map ly_z ys.
Proof. intros ys. rewrite map_map. apply map_ext. intros y. reflexivity. Qed.

Lemma erase_base_z : forall s : lstate A, compute_base_z (erase s) = compute_base_z s.
Proof.
  intros s. unfold compute_base_z. cbn [ls_prev_z ls_last_z ls_est erase ls_layers].
  unfold estimate_layer_height. rewrite erase_zs. reflexivity.
Qed.

Lemma erase_update_layers : forall s : lstate A,
  erase (update_layers s) = update_layers (erase s).
Proof.
  intros s. unfold update_layers. rewrite erase_base_z. cbn [ls_cur_z ls_prev_z erase].
  destruct (opt_eqb (ls_cur_z s) (ls_prev_z s)); [reflexivity|].
  destruct (compute_base_z s) as [base est]. cbn [ls_prev_base erase].
  destruct (match ls_prev_base s with Some b => opt_eqb base b | None => false end); [reflexivity|].
  unfold erase. cbn. rewrite map_app. reflexivity.
Qed.

Lemma erase_layer_body : forall l mx (s : lstate A),
  bind (layer_body l mx s) (fun s' => Ok (erase s')) = layer_body l mx (erase s).
Proof.
  intros l mx s. unfold layer_body.
  change (update_bbox l mx (erase s)) with (update_bbox l mx s).
  destruct (update_bbox l mx s) as [bb bbe].
  change (ls_d (erase s)) with (ls_d s).
  destruct (update_duration l (ls_d s)) as [d|e]; cbn [bind]; [|reflexivity].
  rewrite erase_update_layers. reflexivity.
Qed.

Lemma layer_body_raw : forall s0 (l : line A) mx s, find_code "P" s0 = find_code "P" (raw l) ->
  layer_body (set_raw s0 l) mx s = layer_body l mx s.
Proof.
  intros s0 l mx s H. unfold layer_body.
  change (update_bbox (set_raw s0 l) mx s) with (update_bbox l mx s).
  change (lnotes (set_raw s0 l)) with (lnotes l).
  change (update_cur_z (set_raw s0 l)) with (update_cur_z l).
  assert (Hd : update_duration (set_raw s0 l) (ls_d s) = update_duration l (ls_d s)).
  { unfold update_duration. cbn [command set_raw].
    destruct (cmd_in (command l) linear_move_gcodes); [reflexivity|].
    destruct (cmd_is (command l) "G4"); [|reflexivity].
    unfold find_specific_code. cbn [raw set_raw]. rewrite H. reflexivity. }
  rewrite Hd. reflexivity.
Qed.

Lemma erase_push_line : forall (l : line A) s,
  erase (push_line l s) = push_line (new_line "") (erase s).
Proof.
  intros l s. unfold push_line, erase. cbn. unfold blank_out. rewrite map_app. reflexivity.
Qed.

(** ** Pairs of lines that read the same *)

(** [s2] has the words of [s1], up to a trailing comment, and the same dwell
    time *)
Definition reads_as (s1 s2 : string) : Prop :=
  recognised s1 = true /\
  (exists suf, words s2 = words s1 ++ suf /\ (suf = [] \/ suf = [(""%string, ""%string)])) /\
  find_code "P" s2 = find_code "P" s1.

Lemma reads_as_step : forall s1 s2 (m : mstate A), reads_as s1 s2 ->
  motion_step m (new_line s2) =
  bind (motion_step m (new_line s1)) (fun p => Ok (fst p, set_raw s2 (snd p))).
Proof.
  intros s1 s2 m (Hr & (suf & Hw & Hsuf) & _).
  rewrite !motion_step_rest, !split_new, Hw.
  destruct (words s1) as [|[c v] w] eqn:E; [unfold recognised in Hr; rewrite E in Hr; discriminate Hr|].
  cbn [read_words app].
  set (cmd := if String.eqb c "" && String.eqb v "" then None else Some (upper c ++ v)%string).
  change ((c, v) :: w ++ suf) with (((c, v) :: w) ++ suf).
  rewrite motion_rest_suf by exact Hsuf.
  change (set_command cmd (cmd_in cmd move_gcodes) (new_line s2))
    with (set_raw s2 (set_command cmd (cmd_in cmd move_gcodes) (new_line (A:=A) s1))).
  apply motion_rest_raw.
Qed.

Lemma motion_step_keeps_raw : forall (m m' : mstate A) t l,
  motion_step m t = Ok (m', l) -> raw l = raw t.
Proof. intros. eapply motion_step_raw. eassumption. Qed.

(** state of the loading loop up to texts *)
Definition same_state (a b : res (mstate A * lstate A * list (line A))) : Prop :=
  match a, b with
  | Ok (m1, s1, o1), Ok (m2, s2, o2) =>
      m1 = m2 /\ erase s1 = erase s2 /\ Forall2 same_reading o1 o2
  | Err e1, Err e2 => e1 = e2
  | _, _ => False
  end.

Lemma same_reading_set_raw : forall s (l : line A), same_reading l (set_raw s l).
Proof. intros s l. repeat split. Qed.

Lemma same_reading_new : forall s1 s2, same_reading (A:=A) (new_line s1) (new_line s2).
Proof. intros. repeat split. Qed.

Lemma build_step_same : forall light m s1 s2 o1 o2 t1 t2,
  reads_as t1 t2 -> erase s1 = erase s2 -> Forall2 same_reading o1 o2 ->
  same_state (build_step (A:=A) light (m, s1, o1) (new_line t1))
             (build_step light (m, s2, o2) (new_line t2)).
Proof.
  intros light m s1 s2 o1 o2 t1 t2 Ht Hs Ho. unfold build_step.
  rewrite (reads_as_step _ _ m Ht). destruct Ht as (_ & _ & HP).
  destruct (motion_step m (new_line t1)) as [[m' l]|e] eqn:E; cbn [bind]; [|reflexivity].
  cbn [fst snd].
  apply motion_step_keeps_raw in E. cbn [raw new_line] in E.
  assert (Hbody :
    match (match command l with Some _ => layer_body l (m_max m') s1 | None => Ok s1 end),
          (match command (set_raw t2 l) with Some _ => layer_body (set_raw t2 l) (m_max m') s2
           | None => Ok s2 end) with
    | Ok a, Ok b => erase a = erase b
    | Err a, Err b => a = b
    | _, _ => False
    end).
  { cbn [command set_raw]. destruct (command l); [|exact Hs].
    rewrite layer_body_raw by congruence.
    pose proof (erase_layer_body l (m_max m') s1) as H1.
    pose proof (erase_layer_body l (m_max m') s2) as H2. rewrite Hs in H1. rewrite <- H2 in H1.
    destruct (layer_body l (m_max m') s1), (layer_body l (m_max m') s2); cbn in H1; congruence. }
  destruct (match command l with Some _ => layer_body l (m_max m') s1 | None => Ok s1 end) as [a|a];
  destruct (match command (set_raw t2 l) with Some _ => layer_body (set_raw t2 l) (m_max m') s2
            | None => Ok s2 end) as [b|b]; cbn [bind]; try contradiction; [|exact Hbody].
  cbn [same_state]. split; [reflexivity|]. rewrite !erase_push_line, Hbody.
  split; [reflexivity|]. apply Forall2_app; [exact Ho|]. constructor; [|constructor].
  destruct light; [apply same_reading_new|apply same_reading_set_raw].
Qed.

Lemma build_same : forall light ts1 ts2, Forall2 reads_as ts1 ts2 ->
  forall m s1 s2 o1 o2, erase s1 = erase s2 -> Forall2 same_reading o1 o2 ->
  same_state (foldM (build_step (A:=A) light) (map new_line ts1) (m, s1, o1))
             (foldM (build_step light) (map new_line ts2) (m, s2, o2)).
Proof.
  intros light ts1 ts2 H. induction H as [|t1 t2 ts1 ts2 Ht H IH]; intros m s1 s2 o1 o2 Hs Ho.
  - cbn. auto.
  - cbn [map foldM]. pose proof (build_step_same light m s1 s2 o1 o2 t1 t2 Ht Hs Ho) as Hb.
    destruct (build_step light (m, s1, o1) (new_line t1)) as [[[m1 a1] b1]|e1];
    destruct (build_step light (m, s2, o2) (new_line t2)) as [[[m2 a2] b2]|e2];
      cbn [bind] in *; try contradiction; [|exact Hb].
    destruct Hb as (-> & Ha & Hb). apply IH; assumption.
Qed.

Lemma erase_layers_rel : forall ys zs : list (layer A), map erase_layer ys = map erase_layer zs ->
  Forall2 (fun y z => ly_z y = ly_z z /\ ly_dur y = ly_dur z /\
                      List.length (ly_lines y) = List.length (ly_lines z)) ys zs.
Proof.
  induction ys as [|y ys IH]; intros [|z zs] H; cbn in H; try discriminate H; constructor.
  - injection H as Hl Hz Hd _. repeat split; try assumption.
    apply (f_equal (@List.length _)) in Hl. unfold blank_out in Hl.
    rewrite !map_length in Hl. exact Hl.
  - apply IH. congruence.
Qed.

Lemma finalize_same : forall light m s1 s2 o1 o2, erase s1 = erase s2 ->
  Forall2 same_reading o1 o2 ->
  same_report (finalize light m s1 o1) (finalize light m s2 o2).
Proof.
  intros light m s1 s2 o1 o2 H Ho.
  pose proof (f_equal (fun s => ls_bb s) H) as H1. pose proof (f_equal (fun s => ls_bbe s) H) as H2.
  pose proof (f_equal (fun s => ls_d s) H) as H3. pose proof (f_equal (fun s => ls_begin s) H) as H4.
  pose proof (f_equal (fun s => ls_layers s) H) as H5. pose proof (f_equal (fun s => ls_zs s) H) as H6.
  pose proof (f_equal (fun s => ls_lidx s) H) as H7. pose proof (f_equal (fun s => ls_kidx s) H) as H8.
  pose proof (f_equal (fun s => ls_prev_z s) H) as H9. pose proof (f_equal (fun s => ls_cur s) H) as H10.
  pose proof (f_equal (fun s => ls_has_ext s) H) as H11.
  cbn in H1, H2, H3, H4, H5, H6, H7, H8, H9, H10, H11. clear H.
  assert (HL : Forall2 (fun y z => ly_z y = ly_z z /\ ly_dur y = ly_dur z /\
                      List.length (ly_lines y) = List.length (ly_lines z)) (ls_layers s1) (ls_layers s2))
    by (apply erase_layers_rel; exact H5).
  unfold finalize. rewrite H1, H2, H3, H4, H6, H7, H8, H9, H11.
  assert (Hc : List.length (ls_cur s1) = List.length (ls_cur s2)).
  { apply (f_equal (@List.length _)) in H10. unfold blank_out in H10.
    rewrite !map_length in H10. exact H10. }
  assert (HLn : List.length (ls_layers s1) = List.length (ls_layers s2))
    by (eapply Forall2_len; exact HL).
  destruct (ls_cur s1) as [|c1 u1] eqn:E1, (ls_cur s2) as [|c2 u2] eqn:E2; try discriminate Hc.
  - repeat split; cbn; try assumption.
    apply Forall2_app; [exact HL|]. repeat constructor.
  - repeat split; cbn; try assumption.
    + apply Forall2_app; [|repeat constructor]. apply Forall2_app; [exact HL|].
      constructor; [|constructor]. cbn. repeat split. exact Hc.
    + rewrite !app_length, HLn. reflexivity.
Qed.

Lemma load_same : forall light home d1 d2,
  Forall2 reads_as (program_text d1) (program_text d2) -> (d1 = [] <-> d2 = []) ->
  same_outcome (load_gen light home d1) (load_gen (A:=A) light home d2).
Proof.
  intros light home d1 d2 H Hd. unfold load_gen.
  destruct d1 as [|x d1], d2 as [|y d2].
  - cbn. unfold same_report. cbn. repeat split; repeat constructor.
  - destruct Hd as [Hd _]. discriminate (Hd eq_refl).
  - destruct Hd as [_ Hd]. discriminate (Hd eq_refl).
  - rewrite !clean_lines_text.
    pose proof (build_same light _ _ H (init_mstate home) init_lstate init_lstate [] [] eq_refl
                  (Forall2_nil _)) as Hb.
    destruct (foldM (build_step light) (map new_line (program_text (x :: d1))) _) as [[[m1 a1] b1]|e1];
    destruct (foldM (build_step light) (map new_line (program_text (y :: d2))) _) as [[[m2 a2] b2]|e2];
      cbn in Hb; try contradiction; cbn [bind same_outcome]; [|exact Hb].
    destruct Hb as (-> & Ha & Hb). apply finalize_same; assumption.
Qed.

End Report.

(** ** Programs that differ in comments or letter case only *)

Lemma commented_reads : forall s t, commented s t -> recognised s = true -> reads_as s t.
Proof.
  intros s t [-> | (H1 & H2 & x & Hx & ->)] Hr; split; try exact Hr; split.
  - exists []. rewrite app_nil_r. auto.
  - reflexivity.
  - apply words_comment; assumption.
  - apply find_code_comment; try assumption; reflexivity.
Qed.

Lemma load_commented : forall (A : arith) light home d1 d2,
  Forall2 (fun s t => commented s t /\ recognised s = true) (program_text d1) (program_text d2) ->
  (d1 = [] <-> d2 = []) ->
  same_outcome (load_gen light home d1) (load_gen (A:=A) light home d2).
Proof.
  intros A light home d1 d2 H Hd. apply load_same; [|exact Hd].
  induction H as [|s t l1 l2 [H1 H2] H IH]; constructor; [|exact IH]. apply commented_reads; assumption.
Qed.

Lemma load_case : forall (A : arith) light home d1 d2,
  Forall2 (fun s t => lower s = lower t /\ recognised s = true /\
                      find_code "P" s = find_code "P" t) (program_text d1) (program_text d2) ->
  (d1 = [] <-> d2 = []) ->
  same_outcome (load_gen light home d1) (load_gen (A:=A) light home d2).
Proof.
  intros A light home d1 d2 H Hd. apply load_same; [|exact Hd].
  induction H as [|s t l1 l2 (H1 & H2 & H3) H IH]; constructor; [|exact IH].
  split; [exact H2|]. split; [|symmetry; exact H3]. exists []. split; [|now left].
  rewrite app_nil_r. unfold words. rewrite H1. reflexivity.
Qed.

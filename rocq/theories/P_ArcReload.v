(** * P_ArcReload: what the arc optimizer writes can be read (C119) *)
From Coq Require Import List Ascii String ZArith NArith Bool Reals Lra Lia.
From Verif Require Import PyBase Arith ArithR Gcoder Filters Arc SpecText SpecLoad SpecMachine SpecFilter SpecArc.
From Verif Require Import P_Load P_Text P_Wf P_Machine P_Format P_Filter P_FilterMotion P_Compose P_Reload P_Arc P_ArcFit P_ArcPath.
Import ListNotations.
Local Open Scope list_scope.
Local Open Scope R_scope.

(** ** Feed rates *)

Definition note_nonneg (o : option (num RA)) : Prop := match o with Some f => 0 <= (f : R) | None => True end.

Lemma motion_rate : forall (m m' : mstate RA) s l, feed_ok s = true -> motion_step m (new_line s) = Ok (m', l) ->
  0 <= (m_f m : R) -> 0 <= (m_f m' : R) /\ note_nonneg (t_f (lnotes l)).
Proof.
  intros m m' s l Hf H Hm. pose proof (motion_feed exactR m m' s l Hf H) as Hn.
  assert (Hm' : 0 <= (m_f m' : R)).
  { destruct (command_name s) as [c|] eqn:Hc.
    - destruct (motion_some _ _ _ _ _ Hc H) as (s1 & l1 & ext & H1 & H2 & H3 & ->).
      destruct (update_modes_modes _ _ _ _ Hc H1) as (_ & _ & _ & M4 & _).
      destruct (update_extrusion_fixed _ _ _ _ H3) as (_ & _ & _ & _ & F5 & _).
      rewrite F5. unfold update_position. unfold l_f in *. cbn [largs set_notes] in Hn.
      destruct (is_move l1).
      + destruct (a_f (largs l1)) as [y|]; [exact Hn|]. cbn [m_f set_pos]. rewrite M4. exact Hm.
      + rewrite <- M4 in Hm. destruct (cmd_is (command l1) "G28").
        * unfold axis_home.
          destruct (_ || is_some (l_x l1)), (_ || is_some (l_y l1)), (_ || is_some (l_z l1)); exact Hm.
        * destruct (cmd_is (command l1) "G92"); exact Hm.
    - destruct (motion_none _ _ _ _ Hc H) as (-> & _). exact Hm. }
  split; [exact Hm'|].
  assert (Hd : command l <> None \/ lnotes l = no_notes).
  { rewrite motion_step_rest in H. destruct (split_args (A:=RA) (new_line s)) as [Hs Hs'].
    destruct (split (new_line s)) as [l1 toks]. cbn [fst] in Hs, Hs'. unfold motion_rest in H.
    destruct (command l1) as [c|] eqn:Ec.
    - destruct (update_modes c (is_move l1) m) as [s1|ex]; cbn [bind] in H; [|discriminate H].
      destruct (parse_coordinates (m_imperial s1) toks l1) as [l2|ex] eqn:Ep; cbn [bind] in H; [|discriminate H].
      destruct (update_extrusion l2 (update_position l2 s1)) as [ext s3]. injection H as _ <-. left. cbn [command set_notes].
      unfold parse_coordinates in Ep. rewrite Ec in Ep. destruct (first_is "G" c).
      + destruct (parse_words_fixed _ _ _ _ Ep) as (_ & E2 & _). congruence.
      + injection Ep as <-. congruence.
    - injection H as _ <-. right. rewrite Hs'. reflexivity. }
  destruct Hd as [Hd| ->]; [|exact I].
  destruct (motion_notes _ _ _ _ H Hd) as (_ & _ & _ & F & _). rewrite F. exact Hm'.
Qed.

Lemma load_rates : forall home data (g : gcode RA), load_gen false home data = Ok g ->
  Forall (fun s => feed_ok s = true) (program_text data) ->
  Forall (fun l => note_nonneg (t_f (lnotes l))) (g_lines g).
Proof.
  intros home data g H Hf. apply load_trace in H as (ls & T & L). rewrite (L eq_refl). clear L.
  assert (Hm : 0 <= (m_f (init_mstate (A:=RA) home) : R)).
  { destruct home as [[hx hy] hz]. cbn [init_mstate m_f]. right. symmetry. exact (val_n0 exactR). }
  revert Hm Hf. induction T as [|m s l m1 ts ls m' Hs T IH]; intros Hm Hf; [constructor|].
  inversion Hf as [|? ? F1 F2]; subst. destruct (motion_rate _ _ _ _ F1 Hs Hm) as [R1 R2].
  constructor; [exact R2|]. apply IH; assumption.
Qed.

(** ** The generated lines *)

Definition readable (s : string) : Prop := tight s /\ line_ok s = true /\ feed_ok s = true.

Lemma comment_readable : forall s x, lacks nl s = true -> comment_tail x -> no_outer_paren s = true ->
  rstrip x = x -> x <> ""%string -> words s <> [] ->
  (match words s with (c, v) :: _ => c = "g"%string /\ String.eqb v "4" = false | [] => True end) ->
  readable s -> readable (s ++ x).
Proof.
  intros s x H1 H2 H3 Hr Hx Hw Hg ((T1 & T2) & L & F).
  destruct (words_comment s x H1 H2 H3) as (suf & Hws & Hsuf).
  split; [|split].
  - destruct s as [|c s]; [cbn in Hw; congruence|]. split.
    + unfold blank in *. cbn [String.append str_all] in *. rewrite str_all_app.
      destruct (is_space c); [|reflexivity]. cbn [andb] in *. rewrite T1. reflexivity.
    + unfold strip in *. cbn [String.append]. cbn [lstrip] in *. destruct (is_space c) eqn:Ec.
      * exfalso. assert (Hlen : forall t, (String.length (rstrip t) <= String.length t)%nat).
        { induction t as [|d t IH]; [cbn; lia|]. cbn [rstrip]. destruct (rstrip t); [destruct (is_space d)|]; cbn in *; lia. }
        assert (Hlen' : forall t, (String.length (lstrip t) <= String.length t)%nat).
        { induction t as [|d t IH]; [cbn; lia|]. cbn [lstrip]. destruct (is_space d); cbn in *; lia. }
        apply (f_equal String.length) in T2. pose proof (Hlen (lstrip s)). pose proof (Hlen' s). cbn in T2. lia.
      * exact (rstrip_end_solid (String c s) x Hx Hr).
  - unfold line_ok in *. rewrite Hws. destruct (words s) as [|[c v] t]; [congruence|].
    cbn [app]. destruct Hg as [-> H4]. change (String.eqb "g" "g") with true in *. cbv iota in *.
    rewrite H4 in *. cbn [negb orb] in *. rewrite andb_true_r in *.
    change (("g"%string, v) :: t ++ suf) with ((("g"%string, v) :: t) ++ suf). rewrite forallb_app.
    apply andb_true_intro. split; [exact L|]. destruct Hsuf as [-> | ->]; reflexivity.
  - unfold feed_ok in *. rewrite Hws, forallb_app. apply andb_true_intro. split; [exact F|].
    destruct Hsuf as [-> | ->]; reflexivity.
Qed.

Lemma gen_readable : forall v (a : args RA) x, In v ["2"; "3"; "92"]%string -> note_nonneg (a_f a) ->
  comment_tail x -> rstrip x = x -> x <> ""%string -> readable (unsplit_text (String "G" v) a ++ x).
Proof.
  intros v a x Hv Hf Hx Hr Hn.
  assert (Hs : num_shape v "" v "" "" /\ String.eqb v "4" = false /\ lacks nl (String "G" v) = true /\
    rstrip (String "G" v) = String "G" v).
  { cbn [In] in Hv. repeat (destruct Hv as [<-|Hv]; [split; [constructor; cbn; auto|repeat split]|]). destruct Hv. }
  destruct Hs as (S1 & S2 & S3 & S4).
  pose proof (words_unsplit _ _ _ _ _ a S1 (exact_finite exactR a)) as Hw.
  apply comment_readable.
  - apply unsplit_lacks, S3.
  - exact Hx.
  - apply unsplit_no_paren.
  - exact Hr.
  - exact Hn.
  - rewrite Hw. discriminate.
  - rewrite Hw. split; [reflexivity|exact S2].
  - split; [apply unsplit_tight; [exact S4|reflexivity]|].
    apply written_ok; [|apply (exact_finite exactR)|apply (exact_plain exactR); destruct (a_f a); [exact Hf|exact I]].
    cbn [In] in *. repeat (destruct Hv as [<-|Hv]; [auto 10|]). destruct Hv.
Qed.

Lemma arc_readable : forall c e rel f n, note_nonneg f -> readable (raw (arc_line (A:=RA) c e rel f n)).
Proof.
  intros c e rel f n Hf. unfold arc_line. cbn [raw].
  set (a := Args _ _ _ _ _ _ _).
  assert (Ht : comment_tail ("; generated from " ++ nat_to_string (n - 1) ++ " segments")%string).
  { exists ""%string, (" generated from " ++ nat_to_string (n - 1) ++ " segments")%string.
    split; [reflexivity|]. split; [reflexivity|]. split; [reflexivity|].
    rewrite !lacks_app. unfold nat_to_string.
    rewrite !(digits_lack _ (N_to_string _)) by (reflexivity || apply N_to_string_digits).
    split; reflexivity. }
  assert (Hr : rstrip ("; generated from " ++ nat_to_string (n - 1) ++ " segments") =
    ("; generated from " ++ nat_to_string (n - 1) ++ " segments")%string).
  { rewrite <- str_app_assoc. apply rstrip_end_solid; [discriminate|reflexivity]. }
  destruct (n_ltb n0 (c_direction c)); apply gen_readable; try assumption; try discriminate; cbn; auto.
Qed.

Lemma fix_readable : forall e r, readable (raw (correction_line (A:=RA) e r)).
Proof.
  intros e r. unfold correction_line. cbn [raw]. apply gen_readable; try discriminate.
  - cbn. auto.
  - exact I.
  - exists ""%string, (" generated as arc to path relation is " ++ fmt (A:=RA) 6 r)%string.
    split; [reflexivity|]. split; [reflexivity|]. split; [reflexivity|].
    rewrite !lacks_app. destruct (fmt_lacks 5 r) as [-> ->]. split; reflexivity.
  - destruct (fmt_solid (A:=RA) 6 r) as [N S]. apply rstrip_end_solid; assumption.
Qed.

(** ** The whole program *)

Lemma all_readable : forall n ins outs, replaced produced n ins outs ->
  Forall (fun l => readable (raw l) /\ note_nonneg (t_f (lnotes l))) ins -> Forall readable (map raw outs).
Proof.
  intros n ins outs H.
  induction H as [|n l l' ins outs Hs H IH|n l l' mv mv' gen next outs Hs Hrun HR Hn H IH]; intros Hf.
  - constructor.
  - inversion Hf as [|? ? [F1 _] F2]; subst. cbn [map]. constructor; [|apply IH, F2].
    rewrite (proj1 Hs). exact F1.
  - inversion Hf as [|? ? [F1 _] F2]; subst. apply Forall_app in F2 as [F2 F3]. cbn [map]. rewrite map_app.
    constructor; [rewrite (proj1 Hs); exact F1|]. apply Forall_app. split; [|apply IH, F3].
    destruct HR as [(Hlen & Hmv & (f & z & Hfz & Hfa) & _) Hsh].
    pose proof (same_run _ _ Hrun Hmv) as Hsame. subst mv'.
    destruct Hsh as (c & e & rel & f1 & k & fix_ & -> & Hfix).
    assert (Hf1 : note_nonneg f1).
    { destruct mv as [|x mv]; [cbn in Hlen; lia|]. inversion F2 as [|? ? [_ X1] _].
      inversion Hfz as [|? ? [X2 _] _]. change (f1 = f) in Hfa. rewrite Hfa, <- X2. exact X1. }
    cbn [map]. constructor; [apply arc_readable, Hf1|].
    destruct Hfix as [-> |(r & ->)]; [constructor|]. cbn [map]. constructor; [apply fix_readable|constructor].
Qed.

Lemma arcs_readable : forall home data (g g' : gcode RA), load_gen false home data = Ok g ->
  Forall (fun s => feed_ok s = true) (program_text data) -> optimize_arcs g = Ok g' ->
  Forall readable (write g').
Proof.
  intros home data g g' Hl Hf H. destruct (arcs_produced _ _ _ _ Hl H) as [n Hn].
  apply (all_readable _ _ _ Hn). rewrite (load_all_lines _ _ _ _ Hl).
  pose proof (loaded_texts _ _ _ Hl Hf) as H1. pose proof (load_rates _ _ _ Hl Hf) as H2.
  assert (H3 : Forall (fun l : line RA => tight (raw l)) (g_lines g)).
  { apply Forall_map. pose proof (program_tight data) as Ht.
    apply load_trace in Hl as (ls & T & L). rewrite (L eq_refl). clear - T Ht. revert Ht.
    induction T as [|m s l m1 ts ls m' Hs T IH]; intros Ht; [constructor|]. inversion Ht; subst. cbn [map].
    constructor; [rewrite (motion_step_raw _ _ _ _ Hs); assumption|now apply IH]. }
  rewrite Forall_forall in *. intros l Hin. unfold readable. auto.
Qed.

Lemma arcs_reload : forall light home home' data (g g' : gcode RA), load_gen false home data = Ok g ->
  Forall (fun s => feed_ok s = true) (program_text data) -> optimize_arcs g = Ok g' ->
  program_text (write g') = write g' /\ exists h, load_gen (A:=RA) light home' (write g') = Ok h.
Proof.
  intros light home home' data g g' Hl Hf H. pose proof (arcs_readable _ _ _ _ Hl Hf H) as Hr.
  assert (Ht : program_text (write g') = write g').
  { apply tight_text. eapply Forall_impl; [|exact Hr]. intros s Hs. apply Hs. }
  split; [exact Ht|]. apply (load_well_formed exactR). rewrite Ht. eapply Forall_impl; [|exact Hr].
  intros s Hs. split; apply Hs.
Qed.

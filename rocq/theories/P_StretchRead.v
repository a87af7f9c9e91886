(** * P_StretchRead: reading a line again after stretching *)
From Coq Require Import List Ascii String ZArith NArith Bool Lia Reals Lra.
From Verif Require Import PyBase Arith ArithR Gcoder Filters SpecText SpecLoad SpecMachine SpecMeasure SpecEqual SpecFilter Stretch
  SpecStretch P_Load P_Text P_Wf P_Machine P_Measure P_Format P_Filter P_FilterMotion P_Stretch.
Import ListNotations.
Local Open Scope list_scope.

(** ** Marks are comments *)

Lemma remark_facts : forall r, In r remarks -> lacks nl r = true /\ lacks ")" r = true.
Proof.
  intros r H. unfold remarks in H. cbn in H.
  repeat (destruct H as [<-|H]; [split; reflexivity|]). destruct H.
Qed.

Lemma marked_comment : forall s t, marked s t ->
  t = s \/ exists x, comment_tail x /\ t = (s ++ x)%string.
Proof.
  intros s t H. induction H as [|s t sep r H IH Hs Hr]; [now left|]. right.
  destruct (remark_facts r Hr) as [F1 F2].
  assert (Hsep : exists b, str_all is_space b = true /\ lacks nl b = true /\ sep = (b ++ String ";" " ")%string).
  { cbn in Hs. destruct Hs as [<-|[<-|[]]]; [exists " "%string|exists ""%string]; repeat split. }
  destruct Hsep as (b & B1 & B2 & ->).
  destruct IH as [-> |(x & (b' & c & -> & X1 & X2 & X3 & X4) & ->)].
  - exists ((b ++ String ";" " ") ++ r)%string. split; [|reflexivity].
    exists b, (" " ++ r)%string. split; [now rewrite str_app_assoc|]. repeat split; auto.
  - exists ((b' ++ String ";" c) ++ (b ++ String ";" " ") ++ r)%string. split; [|now rewrite str_app_assoc].
    exists b', (c ++ (b ++ String ";" " ") ++ r)%string.
    split; [rewrite str_app_assoc; reflexivity|]. split; [exact X1|]. split; [exact X2|].
    assert (Hb : lacks ")" b = true) by (apply lacks_space, B1).
    rewrite !lacks_app, X3, X4, F1, F2, B2, Hb. split; reflexivity.
Qed.

Lemma scan_paren_flat : forall c x, lacks "(" c = true -> lacks ")" c = true ->
  scan_paren (c ++ String ")" x) = Some x.
Proof.
  induction c as [|d c IH]; intros x H1 H2; cbn [String.append scan_paren].
  - reflexivity.
  - cbn in H1, H2. apply andb_prop in H1 as [H1 G1]. apply andb_prop in H2 as [H2 G2].
    apply negb_true_iff in H1, H2. rewrite H1, H2. apply IH; assumption.
Qed.

Lemma paren_words : forall c x, lacks "(" c = true -> lacks ")" c = true ->
  words (String "(" (c ++ String ")" x)) = (""%string, ""%string) :: findall_from false (lower x).
Proof.
  intros c x H1 H2. unfold words.
  assert (E : lower (String "(" (c ++ String ")" x)) = String "(" (lower c ++ String ")" (lower x))).
  { change (lower (String "(" (c ++ String ")" x))) with (String "(" (lower (c ++ String ")" x))).
    rewrite lower_app. reflexivity. }
  rewrite E, findall_is_from, findall_from_step. unfold match_at.
  change (Ascii.eqb "(" "(") with true. cbv iota.
  rewrite scan_paren_flat by (apply lacks_lower; [reflexivity|reflexivity|assumption]). reflexivity.
Qed.

Lemma words_marked : forall s t, markable s -> marked s t ->
  exists suf, words t = words s ++ suf /\ (suf = [] \/ suf = [(""%string, ""%string)]).
Proof.
  intros s t (Hnl & Hp) Hm. destruct (marked_comment _ _ Hm) as [-> |(x & Hx & ->)].
  { exists []. rewrite app_nil_r. auto. }
  destruct Hp as [Hp|(c & -> & C1 & C2)].
  - apply words_comment; assumption.
  - assert (E : (String "(" (c ++ ")") ++ x)%string = String "(" (c ++ String ")" x)).
    { cbn [String.append]. rewrite str_app_assoc. reflexivity. }
    rewrite E, !paren_words by assumption.
    destruct (comment_tail_facts _ (comment_tail_lower x Hx)) as (_ & _ & _ & _ & H5). rewrite H5.
    eexists. split; [reflexivity|]. now right.
Qed.

Section P.
Context {A : arith}.
Implicit Types l m : line A.

Lemma reparse_raw : forall l l', reparse l = Ok l' -> raw l' = raw l.
Proof.
  intros l l' H. unfold reparse in H. pose proof (split_raw l) as Hs.
  destruct (split l) as [l1 toks]. cbn [fst] in Hs. apply parse_coordinates_raw in H. congruence.
Qed.

(** reading the words of a line into it *)
Definition read_into (l : line A) (ws : list token) : res (line A) :=
  match ws with
  | [] => parse_coordinates false [] (set_command (Some (raw l)) false l)
  | (c, v) :: _ =>
      let cmd := if String.eqb c "" && String.eqb v "" then command l else Some (upper c ++ v)%string in
      parse_coordinates false ws (set_command cmd (cmd_in cmd move_gcodes) l)
  end.

Lemma reparse_read : forall l, reparse l = read_into l (words (raw l)).
Proof.
  intros l. unfold reparse, split, words, read_into.
  destruct (findall (lower (raw l))) as [|[c v] t]; [reflexivity|].
  destruct (String.eqb c "n"); [destruct t as [|[c' v'] t]|]; reflexivity.
Qed.

(** lines that agree but for their text *)
Lemma same_set_raw : forall l l', same_but_text l l' -> l' = set_raw (raw l') l.
Proof. intros l l' (H1 & H2 & H3 & H4). destruct l, l'. cbn in *. unfold set_raw. cbn. congruence. Qed.

Lemma parse_coordinates_suf : forall ws l suf, (suf = [] \/ suf = [(""%string, ""%string)]) ->
  parse_coordinates false (ws ++ suf) l = parse_coordinates (A:=A) false ws l.
Proof.
  intros ws l suf H. unfold parse_coordinates. destruct (command l) as [c|]; [|reflexivity].
  destruct (first_is "G" c); [|reflexivity]. apply foldM_parse_suf. exact H.
Qed.

Lemma parse_coordinates_set_raw : forall ws l s,
  parse_coordinates false ws (set_raw s l) =
  bind (parse_coordinates false ws l) (fun l' => Ok (set_raw s l')).
Proof.
  intros ws l s. unfold parse_coordinates. cbn [command set_raw]. destruct (command l) as [c|]; [|reflexivity].
  destruct (first_is "G" c); [|reflexivity]. apply foldM_parse_raw_indep.
Qed.

(** a line that reads as its text says *)
Definition settled (l : line A) : Prop := reparse l = Ok l.

Lemma no_command : forall s, words s = [] -> cmd_in (Some s) move_gcodes = false /\ first_is "G" s = false.
Proof.
  intros s H. assert (Hr : recognised s = false) by (unfold recognised; rewrite H; reflexivity).
  destruct s as [|c t]; [split; reflexivity|].
  destruct (upper_lower_cases c (unrecognised_head _ c t Hr eq_refl)) as (HG & HM & HT).
  apply Ascii.eqb_neq in HG. split; [|cbn; exact HG].
  cbn [cmd_in existsb move_gcodes]. unfold cmd_in. cbn. rewrite HG. reflexivity.
Qed.

Lemma settled_marked : forall l m l', settled l -> markable (raw l) -> same_but_text l m ->
  marked (raw l) (raw m) -> reparse m = Ok l' -> reads_alike l l'.
Proof.
  intros l m l' Hs Hk Hm Hmk H. pose proof (same_set_raw _ _ Hm) as Em.
  destruct (words_marked _ _ Hk Hmk) as (suf & W & Hsuf).
  unfold settled in Hs. rewrite reparse_read in Hs, H. rewrite W in H. clear W.
  destruct (words (raw l)) as [|[c v] t] eqn:Ew.
  - assert (Hr : recognised (raw l) = false) by (unfold recognised; rewrite Ew; reflexivity).
    destruct (no_command _ Ew) as [N1 N2]. cbn [read_into] in Hs.
    assert (Hl : command l = Some (raw l) /\ is_move l = false).
    { unfold parse_coordinates in Hs. cbn [command set_command] in Hs. rewrite N2 in Hs.
      injection Hs as Hs. split; rewrite <- Hs; reflexivity. }
    destruct Hl as [L1 L2].
    assert (Hg : first_is "G" (raw m) = false /\ command m = Some (raw l) /\ is_move m = false /\
              largs m = largs l /\ lnotes m = lnotes l).
    { split; [|destruct Hm as (M1 & M2 & M3 & M4); repeat split; congruence].
      destruct (marked_comment _ _ Hmk) as [-> |(x & (b & k & -> & B1 & _) & ->)]; [exact N2|].
      destruct (raw l) as [|d r]; [|exact N2].
      destruct b as [|d b]; [reflexivity|]. cbn in B1. apply andb_prop in B1 as [B1 _].
      cbn. destruct d as [[] [] [] [] [] [] [] []]; try reflexivity; discriminate B1. }
    destruct Hg as (G1 & G2 & G3 & G4 & G5).
    split; [intros C; congruence|].
    destruct Hsuf as [-> | ->]; cbn [app read_into] in H.
    + unfold parse_coordinates in H. cbn [command set_command] in H. rewrite G1 in H.
      injection H as <-. cbn. repeat split; congruence.
    + change (String.eqb "" "" && String.eqb "" "") with true in H. cbv iota in H.
      rewrite G2, N1 in H. unfold parse_coordinates in H. cbn [command set_command] in H. rewrite N2 in H.
      injection H as <-. cbn [is_move largs lnotes set_command]. repeat split; congruence.
  - cbn [read_into app] in Hs, H.
    rewrite Em in H. cbn [command set_raw] in H.
    set (cmd := if String.eqb c "" && String.eqb v "" then command l else Some (upper c ++ v)%string) in *.
    change ((c, v) :: t ++ suf) with (((c, v) :: t) ++ suf) in H.
    rewrite parse_coordinates_suf in H by exact Hsuf.
    change (set_command cmd (cmd_in cmd move_gcodes) (set_raw (raw m) l))
      with (set_raw (raw m) (set_command cmd (cmd_in cmd move_gcodes) l)) in H.
    rewrite parse_coordinates_set_raw in H.
    pose proof (eq_trans (eq_sym (f_equal (fun r => bind r (fun x => Ok (set_raw (raw m) x))) Hs)) H) as Hq.
    cbn [bind] in Hq. injection Hq as <-. repeat split.
Qed.

(** ** Loaded lines read as their text says *)

Lemma args_ext : forall a b : args A, (forall k, get_arg k a = get_arg k b) -> a = b.
Proof.
  intros a b H. pose proof (H LX) as H1. pose proof (H LY) as H2. pose proof (H LZ) as H3.
  pose proof (H LE) as H4. pose proof (H LF) as H5. pose proof (H LI) as H6. pose proof (H LJ) as H7.
  destruct a, b. cbn in *. congruence.
Qed.

Lemma parse_last : forall imp ws (a b : line A), foldM (parse_word imp) ws a = Ok b ->
  exists f : letter -> option (num A), forall c : line A, exists c', foldM (parse_word imp) ws c = Ok c' /\
    forall k, get_arg k (largs c') = match f k with Some v => Some v | None => get_arg k (largs c) end.
Proof.
  intros imp. induction ws as [|[c0 v0] ws IH]; intros a b H; cbn [foldM] in H.
  { exists (fun _ => None). intros c. exists c. split; [reflexivity|auto]. }
  destruct (parse_word imp a (c0, v0)) as [a1|e] eqn:E1; cbn [bind] in H; [|discriminate H].
  destruct (IH _ _ H) as (f & Hf). unfold parse_word in E1.
  assert (Hskip : (forall c : line A, parse_word imp c (c0, v0) = Ok c) ->
    exists f0 : letter -> option (num A), forall c : line A, exists c', foldM (parse_word imp) ((c0, v0) :: ws) c = Ok c' /\
      forall k, get_arg k (largs c') = match f0 k with Some v => Some v | None => get_arg k (largs c) end).
  { intros Hp. exists f. intros c. cbn [foldM]. rewrite Hp. cbn [bind]. apply Hf. }
  destruct (letter_of_code c0) as [j|] eqn:Ej.
  2:{ apply Hskip. intros c. unfold parse_word. rewrite Ej. reflexivity. }
  destruct (is_empty v0) eqn:Ee.
  { apply Hskip. intros c. unfold parse_word. rewrite Ej, Ee. reflexivity. }
  destruct (py_float v0) as [x|] eqn:Ex; [|discriminate E1]. clear E1 Hskip.
  set (v := if imp then n_mul (lit 254 1) x else x).
  exists (fun k => match f k with Some u => Some u | None => if letter_eq_dec k j then Some v else None end).
  intros c. destruct (Hf (set_arg j v c)) as (c' & E & Hk). exists c'. split.
  - cbn [foldM]. unfold parse_word at 1. rewrite Ej, Ee, Ex. cbn [bind]. exact E.
  - intros k. rewrite Hk. destruct (f k); [reflexivity|]. cbn [largs set_arg set_args].
    destruct (letter_eq_dec k j) as [->|Hne]; [apply get_put_same|apply get_put_other, Hne].
Qed.

Lemma parse_again : forall imp ws (a b : line A), foldM (parse_word imp) ws a = Ok b ->
  forall c, largs c = largs b -> foldM (parse_word imp) ws c = Ok c.
Proof.
  intros imp ws a b H c Hc. destruct (parse_last _ _ _ _ H) as (f & Hf).
  destruct (Hf a) as (b' & Eb & Hb). rewrite H in Eb. apply ok_inj in Eb. subst b'.
  destruct (Hf c) as (c' & Ec & Hc'). rewrite Ec. f_equal.
  destruct (parse_words_fixed _ _ _ _ Ec) as (F1 & F2 & F3 & F4).
  assert (Ha : largs c' = largs c).
  { apply args_ext. intros k. rewrite Hc', Hc, Hb. destruct (f k); reflexivity. }
  destruct c, c'. cbn in *. congruence.
Qed.

Lemma upper_code : forall d v, (upper (String d "") ++ v)%string = String (upper_char d) v.
Proof. reflexivity. Qed.

Lemma step_settled : forall (m m' : mstate A) s l, motion_step m (new_line s) = Ok (m', l) ->
  m_imperial m = false -> command_name s <> Some "G20"%string ->
  raw l = s /\ settled l /\ m_imperial m' = false.
Proof.
  intros m m' s l H Hi Hg. unfold settled. rewrite reparse_read.
  destruct (command_name s) as [c|] eqn:Ec.
  - destruct (motion_some _ _ _ _ _ Ec H) as (s1 & l1 & ext & H1 & (P1 & P2 & P3 & P4 & P5) & H3 & ->).
    assert (Hi1 : m_imperial s1 = false).
    { clear - H1 Hi Hg. unfold update_modes in H1. destruct (str_mem c move_gcodes); [injection H1 as <-; exact Hi|].
      destruct (String.eqb c "G20") eqn:E20; [apply String.eqb_eq in E20; subst c; congruence|].
      repeat match type of H1 with context [if String.eqb c ?x then _ else _] =>
        destruct (String.eqb c x); [injection H1 as <-; first [reflexivity|exact Hi]|] end.
      repeat match type of H1 with context [match ?x with _ => _ end] => destruct x; try discriminate H1 end;
        injection H1 as <-; exact Hi. }
    assert (Hr : raw (set_notes (position_notes l1 s1 m' ext) l1) = s) by exact P1.
    split; [exact Hr|]. split.
    2:{ destruct (update_extrusion_fixed _ _ _ _ H3) as (I1 & _). rewrite I1.
        destruct (update_position_fixed l1 s1) as (J1 & _). rewrite J1. exact Hi1. }
    rewrite Hr. destruct (command_name_some s c Ec) as (d & v & t & Hw & Hd & Hc). rewrite Hw. cbn [read_into].
    change (String.eqb (String d "") "" && String.eqb v "") with false. cbv iota. rewrite upper_code, <- Hc.
    assert (Es : set_command (Some c) (cmd_in (Some c) move_gcodes) (set_notes (position_notes l1 s1 m' ext) l1) =
                 set_notes (position_notes l1 s1 m' ext) l1).
    { clear - P2 P3. destruct l1. cbn in *. subst. reflexivity. }
    rewrite Es. unfold parse_coordinates.
    assert (Hcm : command (set_notes (position_notes l1 s1 m' ext) l1) = Some c) by exact P2. rewrite Hcm.
    rewrite <- Hw. destruct (first_is "G" c); [|reflexivity]. rewrite Hi1 in P5.
    eapply parse_again; [exact P5|reflexivity].
  - destruct (command_name_none s Ec) as [Hw|[t Hw]].
    + assert (Hr : recognised s = false) by (unfold recognised; rewrite Hw; reflexivity).
      destruct (no_command _ Hw) as [N1 N2].
      pose proof (motion_none _ _ _ _ Ec H) as (-> & _).
      rewrite motion_step_rest, split_new, Hw in H. cbn [read_words] in H. unfold motion_rest in H.
      cbn [command set_command is_move] in H.
      destruct (update_modes s false m) as [s1|e]; cbn [bind] in H; [|discriminate H].
      unfold parse_coordinates in H. cbn [command set_command] in H. rewrite N2 in H. cbn [bind] in H.
      match type of H with context [update_extrusion ?l ?s] => destruct (update_extrusion l s) as [ext s3] end.
      injection H as _ <-. cbn [raw set_notes set_command new_line]. split; [reflexivity|]. split; [|exact Hi].
      rewrite Hw. cbn [read_into raw set_notes set_command new_line]. unfold parse_coordinates.
      cbn [command set_command]. rewrite N2. reflexivity.
    + rewrite (no_command_step m s t Hw) in H. injection H as <- <-. cbn [raw new_line].
      split; [reflexivity|]. split; [|exact Hi]. rewrite Hw. reflexivity.
Qed.

Lemma trace_settled : forall (m m' : mstate A) ts ls, trace m ts ls m' -> m_imperial m = false ->
  Forall (fun s => command_name s <> Some "G20"%string) ts ->
  Forall2 (fun s l => raw l = s /\ settled l) ts ls.
Proof.
  intros m m' ts ls H. induction H as [|m m1 m' s l ts ls H Ht IH]; intros Hi Hf; [constructor|].
  apply Forall_cons_iff in Hf as [Hf0 Hf]. destruct (step_settled _ _ _ _ H Hi Hf0) as (H1 & H2 & H3).
  constructor; [auto|]. apply IH; assumption.
Qed.

Lemma load_settled : forall home data (g : gcode A), load_gen false home data = Ok g ->
  Forall (fun s => command_name s <> Some "G20"%string) (program_text data) ->
  Forall settled (all_lines g) /\ map raw (all_lines g) = program_text data.
Proof.
  intros home data g H Hf. rewrite (load_all_lines _ _ _ _ H). apply load_trace in H as (ls & Ht & Hl). rewrite (Hl eq_refl).
  assert (Hi : m_imperial (init_mstate (A:=A) home) = false) by (destruct home as [[? ?] ?]; reflexivity).
  pose proof (trace_settled _ _ _ _ Ht Hi Hf) as H. clear - H.
  induction H as [|s l ts ls [H1 H2] H [IH1 IH2]]; [split; [constructor|reflexivity]|].
  split; [constructor; assumption|]. cbn. congruence.
Qed.

(** ** A stretched line *)

Definition moved_args (m : line A) (p move : num A * num A) (feed : num A) : args A :=
  Args (Some (n_add (fst p) (fst move))) (Some (n_add (snd p) (snd move))) (l_z m)
    (match l_e m with Some e => Some (n_mul e (n_sub n1 (n_hypot (fst move) (snd move)))) | None => None end)
    (Some feed) None None.

Lemma linear_command : forall m : line A, xy_move m = true ->
  exists v sg ip pt fp, command m = Some (String "G" v) /\ num_shape v sg ip pt fp /\
    str_mem (String "G" v) move_gcodes = true.
Proof.
  intros m H. unfold xy_move in H. apply andb_prop in H as [H _]. apply orb_prop in H.
  unfold is_command, cmd_is in H.
  destruct (command m) as [c|]; [|destruct H; discriminate].
  destruct H as [H|H]; apply String.eqb_eq in H; subst c.
  - exists "0"%string, ""%string, "0"%string, ""%string, ""%string. repeat split; auto.
  - exists "1"%string, ""%string, "1"%string, ""%string, ""%string. repeat split; auto.
Qed.

Lemma stretched_reads : forall (m : line A) p move feed l', xy_move m = true ->
  finite_args (moved_args m p move feed) ->
  reparse (stretched_line m p move feed) = Ok l' ->
  command l' = command m /\ is_move l' = true /\
  largs l' = rounded_args (moved_args m p move feed).
Proof.
  intros m p move feed l' Hm Hf H.
  destruct (linear_command m Hm) as (v & sg & ip & pt & fp & Hc & Hv & Hmv).
  rewrite reparse_read in H. unfold stretched_line, unsplit in H. rewrite Hc in H.
  cbn [command largs raw set_raw] in H.
  change (Args (Some (fst (c_add p move))) _ _ _ _ _ _) with (moved_args m p move feed) in H.
  rewrite (words_unsplit _ _ _ _ _ _ Hv Hf) in H. cbn [read_into] in H.
  change (String.eqb "g" "" && String.eqb v "") with false in H. cbv iota in H.
  change (upper "g" ++ v)%string with (String "G" v) in H.
  unfold parse_coordinates in H. cbn [command set_command first_is] in H.
  change (Ascii.eqb "G" "G") with true in H. cbv iota in H.
  change (("g"%string, v) :: flat_map (word_of (moved_args m p move feed)) all_letters)
    with ([("g"%string, v)] ++ flat_map (word_of (moved_args m p move feed)) all_letters) in H.
  rewrite foldM_app in H. cbn [foldM] in H. unfold parse_word at 1 in H.
  change (letter_of_code "g") with (@None letter) in H. cbn [bind] in H.
  rewrite parse_tail in H by exact Hf. apply ok_inj in H. subst l'.
  split; [symmetry; exact Hc|]. split; [cbn [is_move set_args set_command cmd_in]; exact Hmv|].
  cbn [largs set_args set_command set_raw].
  unfold rounded_args, moved_args, all_letters. cbn [fold_left get_arg decimals a_x a_y a_z a_e a_f a_i a_j].
  destruct (l_z m), (l_e m); reflexivity.
Qed.
End P.

(** * P_Wf: which programs load (C10, C11) *)
From Coq Require Import List Ascii String ZArith NArith Bool Lia Reals Lra.
From Verif Require Import PyBase Arith Gcoder SpecText SpecLoad P_Load P_Text P_Report.
Import ListNotations.
Local Open Scope list_scope.

(** ** Shape of number texts *)

Record num_shape (v sg ip pt fp : string) : Prop := {
  ns_eq : v = (sg ++ ip ++ pt ++ fp)%string;
  ns_sg : sg = ""%string \/ sg = "-"%string \/ sg = "+"%string;
  ns_ip : str_all is_digit ip = true;
  ns_fp : str_all is_digit fp = true;
  ns_pt : pt = "."%string \/ (pt = ""%string /\ fp = ""%string) }.

Lemma scan_number_shape : forall s, exists sg ip pt fp,
  num_shape (fst (scan_number s)) sg ip pt fp.
Proof.
  intros s. unfold scan_number.
  assert (Hs : exists sg s1, (sg = ""%string \/ sg = "-"%string \/ sg = "+"%string) /\
    match s with String "-" t => ("-"%string, t) | String "+" t => ("+"%string, t)
               | _ => (""%string, s) end = (sg, s1)).
  { destruct s as [|c t]; [exists ""%string, ""%string; split; [tauto|reflexivity]|].
    all_chars c; first [exists "-"%string, t; split; [tauto|reflexivity]
                       |exists "+"%string, t; split; [tauto|reflexivity]
                       |eexists ""%string, _; split; [tauto|reflexivity]]. }
  destruct Hs as (sg & s1 & Hsg & E). rewrite E. clear E.
  destruct (span is_digit s1) as [ip s2] eqn:E1.
  pose proof (span_all _ _ _ _ E1) as Hip.
  pose proof (fun c t => span_stop _ _ _ _ c t E1) as Hstop.
  destruct s2 as [|c t].
  { cbn. exists sg, ip, ""%string, ""%string. constructor; auto. }
  destruct (Ascii.eqb c ".") eqn:Ec.
  - apply Ascii.eqb_eq in Ec. subst c.
    destruct (span is_digit t) as [fp s4] eqn:E2. cbn [fst].
    exists sg, ip, "."%string, fp. constructor; auto. eapply span_all, E2.
  - assert (Hp : match String c t with String "." t' => ("."%string, t')
                 | _ => (""%string, String c t) end = (""%string, String c t)).
    { all_chars c; try reflexivity. discriminate Ec. }
    rewrite Hp. specialize (Hstop c t eq_refl).
    assert (E2 : span is_digit (String c t) = (""%string, String c t)) by (cbn; now rewrite Hstop).
    rewrite E2. cbn [fst]. exists sg, ip, ""%string, ""%string. constructor; auto.
Qed.

Lemma str_any_app : forall p a b, str_any p (a ++ b) = str_any p a || str_any p b.
Proof.
  intros p. induction a as [|c a IH]; intros b; cbn; [reflexivity|]. now rewrite IH, orb_assoc.
Qed.

Lemma str_any_digits : forall a, str_all is_digit a = true -> str_any is_digit a = negb (is_empty a).
Proof.
  intros [|c a] H; cbn in *; [reflexivity|]. apply andb_prop in H as [-> _]. reflexivity.
Qed.

Lemma has_digit_shape : forall v sg ip pt fp, num_shape v sg ip pt fp ->
  has_digit v = negb (is_empty ip && is_empty fp).
Proof.
  intros v sg ip pt fp [E Hsg Hip Hfp Hpt]. unfold has_digit. rewrite E, !str_any_app.
  rewrite (str_any_digits ip Hip), (str_any_digits fp Hfp).
  assert (H1 : str_any is_digit sg = false) by (destruct Hsg as [-> | [-> | ->]]; reflexivity).
  assert (H2 : str_any is_digit pt = false) by (destruct Hpt as [-> | [-> _]]; reflexivity).
  rewrite H1, H2. destruct (is_empty ip), (is_empty fp); reflexivity.
Qed.

Lemma digit_not_sign : forall c, is_digit c = true -> c <> "-"%char /\ c <> "+"%char /\ c <> "."%char.
Proof. intros c. all_chars c; vm_compute; intros H; try discriminate H; repeat split; discriminate. Qed.

Lemma str_app_inv_empty : forall a b, (a ++ b)%string = ""%string -> a = ""%string /\ b = ""%string.
Proof. intros [|c a] b H; cbn in H; [split; [reflexivity|exact H]|discriminate H]. Qed.

Section Wf.
Context {A : arith}.

Lemma py_float_shape : forall v sg ip pt fp, num_shape v sg ip pt fp ->
  py_float (A:=A) v =
  if negb (is_empty ip && is_empty fp)
  then Some (n_of_dec (String.eqb sg "-") (digits_val (ip ++ fp)) (String.length fp))
  else None.
Proof.
  intros v sg ip pt fp [E Hsg Hip Hfp Hpt]. unfold py_float.
  set (body := (ip ++ pt ++ fp)%string) in *.
  assert (Hs : match v with String "-" t => (true, t) | String "+" t => (false, t)
               | _ => (false, v) end = (String.eqb sg "-", body)).
  { destruct Hsg as [-> | [-> | ->]]; cbn [String.append] in E; subst v; try reflexivity.
    change (String.eqb "" "-") with false.
    assert (Hb : body = ""%string \/ exists c t, body = String c t /\ (c <> "-" /\ c <> "+")%char).
    { unfold body. destruct ip as [|c ip]; cbn [String.append].
      - destruct Hpt as [-> | [-> ->]]; [|now left].
        right. eexists _, _. split; [reflexivity|]. split; discriminate.
      - right. eexists _, _. split; [reflexivity|]. cbn in Hip. apply andb_prop in Hip as [Hc _].
        destruct (digit_not_sign c Hc) as (H1 & H2 & _). split; assumption. }
    destruct Hb as [-> | (c & t & -> & H1 & H2)]; [reflexivity|].
    all_chars c; try reflexivity; congruence. }
  rewrite Hs. clear Hs.
  assert (Hspan : span is_digit body = (ip, (pt ++ fp)%string)).
  { unfold body. apply span_ext_all; [exact Hip|].
    intros c t Ec. destruct Hpt as [-> | [-> ->]]; cbn in Ec; [|discriminate Ec].
    injection Ec as <- _. reflexivity. }
  rewrite Hspan.
  destruct Hpt as [-> | [-> ->]]; cbn [String.append].
  - rewrite (span_full is_digit fp Hfp). cbn [is_empty andb]. reflexivity.
  - cbn [is_empty andb]. reflexivity.
Qed.

Lemma py_float_none : forall s,
  py_float (A:=A) (fst (scan_number s)) = None <-> has_digit (fst (scan_number s)) = false.
Proof.
  intros s. destruct (scan_number_shape s) as (sg & ip & pt & fp & H).
  rewrite (py_float_shape _ _ _ _ _ H), (has_digit_shape _ _ _ _ _ H).
  destruct (negb _); split; intros; congruence.
Qed.

(** ** Shape of tokens *)

Definition tok_shape (w : token) : Prop :=
  w = (""%string, ""%string) \/
  exists d x, fst w = String d "" /\ is_word_letter d = true /\ snd w = fst (scan_number x).

Lemma match_at_shape : forall st s tok r, match_at st s = Some (tok, r) -> tok_shape tok.
Proof.
  intros st s tok r H. unfold match_at in H. destruct s as [|c t]; [discriminate H|].
  destruct (Ascii.eqb c "(").
  { destruct (scan_paren t); [injection H as <- _; now left|].
    destruct st; [|discriminate H]. destruct (scan_paren_line t); [|discriminate H].
    injection H as <- _; now left. }
  destruct (Ascii.eqb c ";"); [injection H as <- _; now left|].
  destruct (Ascii.eqb c "/" || Ascii.eqb c "*").
  { destruct (scan_past_nl t); [|discriminate H]. injection H as <- _; now left. }
  destruct (is_word_letter c) eqn:E; [|discriminate H].
  destruct (scan_number t) as [n q] eqn:En. injection H as <- _. right.
  exists c, t. cbn. rewrite En. auto.
Qed.

Lemma findall_shape : forall s, Forall tok_shape (findall s).
Proof.
  intros s. rewrite findall_is_from. generalize true as st.
  remember (String.length s) as n eqn:Hn. revert s Hn.
  induction n as [n IH] using (well_founded_induction lt_wf). intros s Hn st. subst n.
  destruct s as [|c t]; [constructor|]. rewrite findall_from_step.
  destruct (match_at st (String c t)) as [[tok r]|] eqn:E.
  - constructor; [eapply match_at_shape, E|]. apply match_at_shorter in E.
    eapply IH; [exact E|reflexivity].
  - eapply IH; [|reflexivity]. cbn. lia.
Qed.

Lemma words_shape : forall s, Forall tok_shape (words s).
Proof.
  intros s. unfold words. pose proof (findall_shape (lower s)) as H.
  destruct (findall (lower s)) as [|[c v] t]; [constructor|].
  destruct (String.eqb c "n"); [|exact H]. inversion H; assumption.
Qed.

(** ** Integers *)

Lemma py_int_ok : forall s, is_some (py_int s) = is_integer s.
Proof.
  intros s. unfold py_int, is_integer. destruct s as [|c t]; [reflexivity|].
  all_chars c;
    match goal with |- context [if ?b then Some _ else None] => destruct b end; reflexivity.
Qed.

(** ** Parsing the words of a line *)

Lemma letter_of_code_word : forall d, is_word_letter d = true ->
  (letter_of_code (String d "") = None <-> str_mem (String d "") ["g"; "t"; "m"; "n"]%string = true).
Proof. intros d. all_chars d; vm_compute; intros H; try discriminate H; split; congruence. Qed.

Lemma parse_word_ok : forall imp (l : line A) w, tok_shape w ->
  word_ok w || str_mem (fst w) ["g"; "t"; "m"; "n"]%string = true ->
  exists l', parse_word imp l w = Ok l'.
Proof.
  intros imp l [c v] Hs H. unfold parse_word.
  destruct (letter_of_code c) as [k|] eqn:Ek; [|eauto].
  destruct (is_empty v) eqn:Ev; [eauto|].
  destruct Hs as [Hs|(d & x & H1 & H2 & H3)]; [injection Hs as -> ->; discriminate Ek|].
  cbn in H1, H3. subst c v.
  assert (Hm : str_mem (String d "") ["g"; "t"; "m"; "n"]%string = false).
  { destruct (str_mem _ _) eqn:E; [|reflexivity]. apply (letter_of_code_word d H2) in E. congruence. }
  cbn [fst] in H. rewrite Hm, orb_false_r in H. unfold word_ok in H. cbn [snd] in H.
  rewrite Ev in H. cbn in H.
  destruct (py_float (fst (scan_number x))) as [y|] eqn:Ef; [eauto|].
  apply py_float_none in Ef. congruence.
Qed.

Lemma parse_word_err : forall imp (l : line A) w, tok_shape w ->
  word_ok w || str_mem (fst w) ["g"; "t"; "m"; "n"]%string = false ->
  parse_word imp l w = Err ValueError.
Proof.
  intros imp l [c v] Hs H. apply orb_false_iff in H as [H Hm]. unfold word_ok in H.
  cbn [snd fst] in *. apply orb_false_iff in H as [Hv Hd].
  destruct Hs as [Hs|(d & x & H1 & H2 & H3)]; [injection Hs as -> ->; discriminate Hv|].
  cbn in H1, H3. subst c v. unfold parse_word.
  destruct (letter_of_code (String d "")) as [k|] eqn:Ek.
  - rewrite Hv. apply py_float_none in Hd. rewrite Hd. reflexivity.
  - apply (letter_of_code_word d H2) in Ek. congruence.
Qed.

Lemma parse_words_total : forall imp ws (l : line A), Forall tok_shape ws ->
  match foldM (parse_word imp) ws l with
  | Ok _ => forallb (fun w => word_ok w || str_mem (fst w) ["g"; "t"; "m"; "n"]%string) ws = true
  | Err e => e = ValueError /\
      forallb (fun w => word_ok w || str_mem (fst w) ["g"; "t"; "m"; "n"]%string) ws = false
  end.
Proof.
  intros imp. induction ws as [|w ws IH]; intros l H; cbn [foldM forallb]; [reflexivity|].
  inversion H as [|? ? Hw Hws]; subst.
  destruct (word_ok w || str_mem (fst w) ["g"; "t"; "m"; "n"]%string) eqn:E.
  - destruct (parse_word_ok imp l w Hw E) as [l' ->]. cbn [bind andb]. apply IH, Hws.
  - rewrite (parse_word_err imp l w Hw E). cbn. split; reflexivity.
Qed.

(** ** Machine part *)

(** the part of [line_ok] that concerns the machine *)
Definition motion_ok (s : string) : bool :=
  match words s with
  | [] => true
  | (c, v) :: _ =>
      if String.eqb c "g" then
        forallb (fun w => word_ok w || str_mem (fst w) ["g"; "t"; "m"; "n"]%string) (words s)
      else if String.eqb c "t" then is_integer v
      else true
  end.

Lemma update_modes_other : forall c mv (s : mstate A),
  (forall n, c <> String "T" n) -> exists s', update_modes c mv s = Ok s'.
Proof.
  intros c mv s H. unfold update_modes. destruct mv; [eauto|].
  repeat match goal with |- context [if String.eqb c ?x then _ else _] =>
    destruct (String.eqb c x); [eauto|] end.
  destruct c as [|d t]; [eauto|].
  all_chars d; eauto. exfalso. eapply H. reflexivity.
Qed.

Lemma update_modes_tool : forall n (s : mstate A),
  update_modes (String "T" n) false s =
  match py_int n with Some t => Ok (set_tool t s) | None => Err ValueError end.
Proof. reflexivity. Qed.

Lemma upper_letter : forall d, is_word_letter d = true ->
  (String.eqb (String d "") "t" = true <-> upper (String d "") = "T"%string) /\
  (String.eqb (String d "") "g" = true <-> upper (String d "") = "G"%string).
Proof. intros d. all_chars d; vm_compute; intros H; try discriminate H; repeat split; congruence. Qed.

Lemma motion_total : forall (m : mstate A) s,
  match motion_step m (new_line s) with
  | Ok _ => motion_ok s = true
  | Err e => e = ValueError /\ motion_ok s = false
  end.
Proof.
  intros m s. destruct (recognised s) eqn:Hr.
  2:{ destruct (unrecognised_step m s Hr) as (l & -> & _). unfold motion_ok.
      unfold recognised in Hr. destruct (words s); [reflexivity|discriminate Hr]. }
  rewrite motion_step_rest, split_new. unfold motion_ok.
  pose proof (words_shape s) as Hsh.
  destruct (words s) as [|[c v] ws] eqn:Ew; [unfold recognised in Hr; rewrite Ew in Hr; discriminate Hr|].
  cbn [read_words]. inversion Hsh as [|? ? Hw _]; subst.
  destruct Hw as [Hw|(d & x & H1 & H2 & H3)].
  { injection Hw as -> ->. reflexivity. }
  cbn in H1, H3. subst c v.
  change (String.eqb (String d "") "" && String.eqb (fst (scan_number x)) "") with false. cbv iota.
  set (v := fst (scan_number x)) in *.
  set (cmd := (upper (String d "") ++ v)%string).
  set (mv := cmd_in (Some cmd) move_gcodes).
  unfold motion_rest. cbn [command set_command is_move].
  destruct (upper_letter d H2) as (HT & HG).
  destruct (String.eqb (String d "") "g") eqn:Eg.
  - destruct HG as [HG _]. specialize (HG eq_refl).
    assert (Hcmd : cmd = String "G" v) by (unfold cmd; rewrite HG; reflexivity).
    destruct (update_modes_other cmd mv m) as [s1 E1]; [intros n En; congruence|].
    rewrite E1. cbn [bind]. unfold parse_coordinates. cbn [command set_command].
    rewrite Hcmd. cbn [first_is]. rewrite Ascii.eqb_refl.
    pose proof (parse_words_total (m_imperial s1) ((String d "", v) :: ws)
                  (set_command (Some (String "G" v)) mv (new_line s)) Hsh) as Hp.
    destruct (foldM _ _ _) as [l1|e]; cbn [bind].
    + destruct (update_extrusion l1 (update_position l1 s1)). exact Hp.
    + exact Hp.
  - assert (Hfirst : first_is "G" cmd = false).
    { unfold cmd. destruct HG as [_ HG]. cbn. apply Ascii.eqb_neq. intros E.
      assert (Hu : upper (String d "") = "G"%string) by (cbn; rewrite E; reflexivity).
      apply HG in Hu. discriminate Hu. }
    destruct (String.eqb (String d "") "t") eqn:Et.
    + destruct HT as [HT _]. specialize (HT eq_refl).
      assert (Hcmd : cmd = String "T" v) by (unfold cmd; rewrite HT; reflexivity).
      assert (Hmv : mv = false) by (unfold mv; rewrite Hcmd; reflexivity).
      rewrite Hmv, Hcmd, update_modes_tool.
      rewrite <- (py_int_ok v). destruct (py_int v) as [t|]; cbn [bind is_some]; [|auto].
      unfold parse_coordinates. cbn [command set_command first_is].
      change (Ascii.eqb "T" "G") with false. cbv iota. cbn [bind].
      destruct (update_extrusion _ _). reflexivity.
    + assert (HnT : forall n, cmd <> String "T" n).
      { intros n En. destruct HT as [_ HT]. unfold cmd in En. cbn in En. injection En as En _.
        assert (Hu : upper (String d "") = "T"%string) by (cbn; rewrite En; reflexivity).
        apply HT in Hu. discriminate Hu. }
      destruct (update_modes_other cmd mv m HnT) as [s1 E1]. rewrite E1. cbn [bind].
      unfold parse_coordinates. cbn [command set_command]. rewrite Hfirst. cbn [bind].
      destruct (update_extrusion _ _). reflexivity.
Qed.

(** what a successful step leaves of the command *)
Lemma motion_command : forall (m m' : mstate A) s l, motion_step m (new_line s) = Ok (m', l) ->
  command l = command (raw_to_line (A:=A) s).
Proof.
  intros m m' s l H. unfold raw_to_line. rewrite motion_step_rest in H.
  destruct (split (new_line s)) as [l0 toks]. cbn [fst]. unfold motion_rest in H.
  destruct (command l0) as [c|] eqn:Ec; [|congruence].
  destruct (update_modes c (is_move l0) m) as [s1|e]; cbn [bind] in H; [|discriminate H].
  unfold parse_coordinates in H. rewrite Ec in H. destruct (first_is "G" c).
  - assert (Hp : forall ws (a b : line A), foldM (parse_word (m_imperial s1)) ws a = Ok b ->
      command b = command a).
    { induction ws as [|w ws IH]; intros a b Hb; cbn in Hb; [congruence|].
      destruct (parse_word (m_imperial s1) a w) as [a1|e1] eqn:E1; cbn in Hb; [|discriminate Hb].
      rewrite (IH _ _ Hb). unfold parse_word in E1. destruct w as [c' v'].
      destruct (letter_of_code c'); [|congruence]. destruct (is_empty v'); [congruence|].
      destruct (py_float v'); [|discriminate E1]. injection E1 as <-. reflexivity. }
    destruct (foldM (parse_word (m_imperial s1)) toks l0) as [l1|e] eqn:El; cbn [bind] in H; [|discriminate H].
    destruct (update_extrusion _ _). injection H as _ <-. cbn. rewrite (Hp _ _ _ El). exact Ec.
  - cbn [bind] in H. destruct (update_extrusion _ _). injection H as _ <-. exact Ec.
Qed.

Lemma command_is_word : forall s k v, words s <> [] ->
  command (raw_to_line (A:=A) s) = Some (String k v) ->
  (is_word_letter (lower_char k) = true -> lower_char k <> k -> upper_char (lower_char k) = k ->
   exists ws, words s = (String (lower_char k) "", v) :: ws).
Proof.
  intros s k v Hne H Hk Hlk Huk. unfold raw_to_line in H. rewrite split_new in H.
  pose proof (words_shape s) as Hsh. destruct (words s) as [|[c w] ws]; [congruence|].
  cbn [read_words fst] in H. inversion Hsh as [|? ? Hw _]; subst.
  destruct Hw as [Hw|(d & x & H1 & H2 & H3)]; [injection Hw as -> ->; discriminate H|].
  cbn in H1, H3. subst c w.
  change (String.eqb (String d "") "" && String.eqb (fst (scan_number x)) "") with false in H.
  cbn in H. injection H as Hd Hv. rewrite <- Hd. exists ws.
  assert (E : lower_char (upper_char d) = d).
  { clear - H2. revert H2. all_chars d; vm_compute; intros H; try discriminate H; reflexivity. }
  rewrite E, <- Hv. reflexivity.
Qed.

(** ** Dwell times *)

Lemma find_code_shape : forall code s v, find_code code s = Some v ->
  exists x, v = fst (scan_number x).
Proof.
  intros code s. remember (String.length s) as n eqn:Hn. revert s Hn.
  induction n as [n IH] using (well_founded_induction lt_wf). intros s Hn v H. subst n.
  destruct s as [|c t]; [discriminate H|]. rewrite find_code_step in H.
  assert (IHt : forall r, String.length r <= String.length t -> find_code code r = Some v ->
    exists x, v = fst (scan_number x)).
  { intros r Hr E. eapply IH; [|reflexivity|exact E]. cbn. lia. }
  destruct (Ascii.eqb c "(").
  { destruct (scan_paren t) as [r|] eqn:E; [apply scan_paren_shorter in E|]; eapply IHt; try exact H; lia. }
  destruct (Ascii.eqb c ";").
  { unfold scan_to_nl in H. pose proof (span_snd_length not_nl t). eapply IHt; try exact H; lia. }
  destruct (Ascii.eqb c "/" || Ascii.eqb c "*").
  { unfold scan_past_nl in H. pose proof (span_snd_length not_nl t) as Hl.
    destruct (snd (span not_nl t)); cbn in Hl; eapply IHt; try exact H; lia. }
  destruct (Ascii.eqb c code); [|eapply IHt; try exact H; lia].
  injection H as <-. eauto.
Qed.

Definition dwell_ok (s : string) : bool :=
  match find_code "P" s with Some p => has_digit p | None => true end.

Lemma find_specific_total : forall (l : line A),
  match find_specific_code l "P" with
  | Ok _ => dwell_ok (raw l) = true
  | Err e => e = ValueError /\ dwell_ok (raw l) = false
  end.
Proof.
  intros l. unfold find_specific_code, dwell_ok.
  destruct (find_code "P" (raw l)) as [v|] eqn:E; [|reflexivity].
  apply find_code_shape in E as [x ->].
  destruct (py_float (fst (scan_number x))) as [y|] eqn:Ef.
  - destruct (has_digit _) eqn:Eh; [reflexivity|]. apply py_float_none in Eh. congruence.
  - apply py_float_none in Ef. auto.
Qed.

Lemma cmd_in_linear_not_g4 : forall o, cmd_is o "G4" = true -> cmd_in o linear_move_gcodes = false.
Proof.
  intros [c|] H; [|discriminate H]. cbn in H. apply String.eqb_eq in H. subst c. reflexivity.
Qed.

(** ** One line of the loading loop *)

Lemma line_ok_split : forall s, line_ok s =
  motion_ok s && (negb (cmd_is (command (raw_to_line (A:=A) s)) "G4") || dwell_ok s).
Proof.
  intros s. unfold line_ok, motion_ok.
  destruct (words s) as [|[c v] ws] eqn:Ew.
  - unfold raw_to_line. rewrite split_new, Ew. cbn [read_words fst command set_command cmd_is].
    destruct (String.eqb s "G4") eqn:E; [|reflexivity].
    apply String.eqb_eq in E. subst s. discriminate Ew.
  - assert (Hc : command (raw_to_line (A:=A) s) =
                 if String.eqb c "" && String.eqb v "" then None else Some (upper c ++ v)%string).
    { unfold raw_to_line. rewrite split_new, Ew. reflexivity. }
    rewrite Hc. clear Hc.
    pose proof (words_shape s) as Hsh. rewrite Ew in Hsh. inversion Hsh as [|? ? Hw _]; subst.
    destruct Hw as [Hw|(d & x & H1 & H2 & H3)]; [injection Hw as -> ->; reflexivity|].
    cbn in H1, H3. subst c v. set (v := fst (scan_number x)).
    change (String.eqb (String d "") "" && String.eqb v "") with false. cbv iota.
    unfold dwell_ok. destruct (upper_letter d H2) as (HT & HG).
    destruct (String.eqb (String d "") "g") eqn:Eg.
    + destruct HG as [HG _]. rewrite (HG eq_refl). cbn [cmd_is String.append].
      change (String.eqb (String "G" v) "G4") with (String.eqb v "4"). reflexivity.
    + assert (Hn : cmd_is (Some (upper (String d "") ++ v)%string) "G4" = false).
      { cbn. destruct (Ascii.eqb (upper_char d) "G") eqn:E; [|reflexivity].
        apply Ascii.eqb_eq in E. destruct HG as [_ HG].
        assert (Hu : upper (String d "") = "G"%string) by (cbn; rewrite E; reflexivity).
        apply HG in Hu. discriminate Hu. }
      rewrite Hn. cbn [negb orb]. rewrite andb_true_r. reflexivity.
Qed.

Lemma build_step_total : forall light (m : mstate A) ls out s,
  match build_step light (m, ls, out) (new_line s) with
  | Ok _ => line_ok s = true
  | Err e => (e = ValueError /\ line_ok s = false) \/ (e = ZeroDivisionError /\ line_ok s = true)
  end.
Proof.
  intros light m ls out s. unfold build_step. rewrite line_ok_split.
  pose proof (motion_total m s) as Hm.
  destruct (motion_step m (new_line s)) as [[m' l]|e] eqn:E; cbn [bind].
  2:{ destruct Hm as [-> ->]. left. split; reflexivity. }
  rewrite Hm. cbn [andb]. pose proof (motion_command _ _ _ _ E) as Hc.
  apply motion_step_keeps_raw in E. cbn [raw new_line] in E.
  rewrite <- Hc.
  destruct (command l) as [c|] eqn:Ec; cbn [bind]; [|reflexivity].
  unfold layer_body. destruct (update_bbox l (m_max m') ls) as [bb bbe].
  unfold update_duration. rewrite Ec.
  destruct (cmd_in (Some c) linear_move_gcodes) eqn:El.
  - destruct (cmd_is (Some c) "G4") eqn:E4; [apply cmd_in_linear_not_g4 in E4; congruence|].
    cbn [negb orb].
    destruct (move_duration l (ls_d ls)) as [d|e] eqn:Ed; cbn [bind]; [reflexivity|].
    right. split; [|reflexivity]. unfold move_duration in Ed.
    repeat match type of Ed with
    | context [if ?b then _ else _] => destruct b eqn:?; cbn [bind] in Ed; try discriminate Ed
    end.
    all: unfold py_div in Ed;
      repeat match type of Ed with
      | context [if ?b then _ else _] => destruct b eqn:?; cbn [bind] in Ed; try discriminate Ed
      end; congruence.
  - destruct (cmd_is (Some c) "G4") eqn:E4; cbn [negb orb]; [|reflexivity].
    pose proof (find_specific_total l) as Hp. rewrite E in Hp.
    destruct (find_specific_code l "P") as [p|e]; cbn [bind].
    + rewrite Hp. destruct p as [t|]; [destruct (truthy t)|]; reflexivity.
    + left. exact Hp.
Qed.

Lemma build_total : forall light ts (m : mstate A) ls out,
  match foldM (build_step light) (map new_line ts) (m, ls, out) with
  | Ok _ => Forall (fun s => line_ok s = true) ts
  | Err e => e = ZeroDivisionError \/ (e = ValueError /\ Exists (fun s => line_ok s = false) ts)
  end.
Proof.
  intros light. induction ts as [|t ts IH]; intros m ls out; cbn [map foldM]; [constructor|].
  pose proof (build_step_total light m ls out t) as Ht.
  destruct (build_step light (m, ls, out) (new_line t)) as [[[m' ls'] out']|e]; cbn [bind].
  - specialize (IH m' ls' out').
    destruct (foldM _ _ _) as [[[m2 ls2] out2]|e].
    + constructor; assumption.
    + destruct IH as [IH|[IH1 IH2]]; [left; exact IH|right; split; [exact IH1|]].
      apply Exists_cons_tl, IH2.
  - destruct Ht as [[-> Ht]|[-> Ht]]; [right|left; reflexivity].
    split; [reflexivity|]. apply Exists_cons_hd, Ht.
Qed.

Lemma load_total : forall light home data,
  match load_gen (A:=A) light home data with
  | Ok _ => Forall (fun s => line_ok s = true) (program_text data)
  | Err e => e = ZeroDivisionError \/
             (e = ValueError /\ Exists (fun s => line_ok s = false) (program_text data))
  end.
Proof.
  intros light home data. unfold load_gen. destruct data as [|s data]; [constructor|].
  rewrite clean_lines_text.
  pose proof (build_total light (program_text (s :: data)) (init_mstate home) init_lstate []) as H.
  destruct (foldM _ _ _) as [[[m ls] out]|e]; cbn [bind]; exact H.
Qed.

Lemma load_errors : forall light home data e, load_gen (A:=A) light home data = Err e ->
  e = ValueError \/ e = ZeroDivisionError.
Proof.
  intros light home data e H. pose proof (load_total light home data) as Ht. rewrite H in Ht. tauto.
Qed.

Lemma load_value_error : forall light home data, load_gen (A:=A) light home data = Err ValueError ->
  exists s, In s (program_text data) /\ line_ok s = false.
Proof.
  intros light home data H. pose proof (load_total light home data) as Ht. rewrite H in Ht.
  destruct Ht as [Ht|[_ Ht]]; [discriminate Ht|]. apply Exists_exists in Ht. exact Ht.
Qed.

Lemma load_malformed : forall light home data s,
  In s (program_text data) -> line_ok s = false ->
  exists e, load_gen (A:=A) light home data = Err e.
Proof.
  intros light home data s Hin Hs. pose proof (load_total light home data) as Ht.
  destruct (load_gen light home data) as [g|e]; [|eauto].
  rewrite Forall_forall in Ht. rewrite (Ht s Hin) in Hs. discriminate Hs.
Qed.

(** ** Exact arithmetic: no division by zero with non-negative feedrates *)

Section ExactWf.
Variable X : exact A.
Notation val := (val X).
Local Open Scope R_scope.

Lemma val_lit : forall m k, val (lit m k) = IZR (Z.of_N m) / 10 ^ k.
Proof. intros m k. unfold lit. rewrite (val_of_dec A X). rewrite Rmult_1_l. reflexivity. Qed.

Lemma val_n0 : val n0 = 0.
Proof. unfold n0. rewrite val_lit. cbn. lra. Qed.
Lemma val_n1 : val n1 = 1.
Proof. unfold n1. rewrite val_lit. cbn. lra. Qed.
Lemma val_n2 : val n2 = 2.
Proof. unfold n2. rewrite val_lit. cbn. lra. Qed.

Lemma val_lit_nonneg : forall m k, 0 <= val (lit m k).
Proof.
  intros m k. rewrite val_lit. unfold Rdiv. apply Rmult_le_pos.
  - apply IZR_le. lia.
  - apply Rlt_le, Rinv_0_lt_compat, pow_lt. lra.
Qed.

Definition feed_nonneg (o : option (num A)) : Prop :=
  match o with Some f => 0 <= val f | None => True end.

Lemma py_float_nonneg : forall s x, py_float (fst (scan_number s)) = Some x ->
  startswith "-" (fst (scan_number s)) = false -> 0 <= val x.
Proof.
  intros s x H Hn. destruct (scan_number_shape s) as (sg & ip & pt & fp & Hs).
  rewrite (py_float_shape _ _ _ _ _ Hs) in H.
  destruct (negb _); [|discriminate H]. injection H as <-.
  assert (Hsg : String.eqb sg "-" = false).
  { destruct Hs as [E Hsg _ _ _]. destruct Hsg as [-> | [-> | ->]]; try reflexivity.
    rewrite E in Hn. cbn [String.append] in Hn. rewrite startswith1 in Hn. discriminate Hn. }
  rewrite Hsg. apply val_lit_nonneg.
Qed.

Lemma parse_words_feed : forall imp ws (l l' : line A), Forall tok_shape ws ->
  forallb (fun w => negb (String.eqb (fst w) "f" && startswith "-" (snd w))) ws = true ->
  feed_nonneg (l_f l) -> foldM (parse_word imp) ws l = Ok l' -> feed_nonneg (l_f l').
Proof.
  intros imp. induction ws as [|[c v] ws IH]; intros l l' Hsh Hf Hl H; cbn [foldM] in H.
  { injection H as <-. exact Hl. }
  inversion Hsh as [|? ? Hw Hws]; subst. cbn [forallb fst snd] in Hf. apply andb_prop in Hf as [Hf1 Hf2].
  destruct (parse_word imp l (c, v)) as [l1|e] eqn:E; cbn [bind] in H; [|discriminate H].
  apply (IH l1 l' Hws Hf2); [|exact H]. unfold parse_word in E.
  destruct (letter_of_code c) as [k|] eqn:Ek; [|congruence].
  destruct (is_empty v); [congruence|].
  destruct (py_float v) as [x|] eqn:Ev; [|discriminate E]. injection E as <-.
  destruct k; try exact Hl. unfold set_arg. cbn.
  assert (Hc : c = "f"%string).
  { unfold letter_of_code in Ek. apply find_some in Ek as [_ Ek]. apply String.eqb_eq in Ek. symmetry. exact Ek. }
  subst c. cbn in Hf1.
  destruct Hw as [Hw|(d & y & H1 & H2 & H3)]; [discriminate Hw|]. cbn in H3. subst v.
  apply negb_true_iff in Hf1. pose proof (py_float_nonneg _ _ Ev Hf1) as Hx.
  destruct imp; [|exact Hx]. rewrite (val_mul A X). apply Rmult_le_pos; [apply val_lit_nonneg|exact Hx].
Qed.

Lemma motion_feed : forall (m m' : mstate A) s l, feed_ok s = true ->
  motion_step m (new_line s) = Ok (m', l) -> feed_nonneg (l_f l).
Proof.
  intros m m' s l Hf H. rewrite motion_step_rest, split_new in H.
  pose proof (words_shape s) as Hsh. unfold feed_ok in Hf.
  destruct (read_words s (words s)) as [l0 toks] eqn:E.
  assert (Ht : (toks = words s \/ toks = []) /\ l_f l0 = None).
  { unfold read_words in E. destruct (words s) as [|[c v] ws]; injection E as <- <-; split; auto. }
  destruct Ht as [Ht Hl0]. unfold motion_rest in H.
  destruct (command l0) as [c|] eqn:Ec.
  2:{ injection H as _ <-. rewrite Hl0. exact I. }
  destruct (update_modes c (is_move l0) m) as [s1|e]; cbn [bind] in H; [|discriminate H].
  unfold parse_coordinates in H. rewrite Ec in H. destruct (first_is "G" c).
  - destruct (foldM (parse_word (m_imperial s1)) toks l0) as [l1|e] eqn:Ep; cbn [bind] in H; [|discriminate H].
    assert (Hn : feed_nonneg (l_f l1)).
    { destruct Ht as [-> | ->].
      - eapply parse_words_feed; [exact Hsh|exact Hf| |exact Ep]. rewrite Hl0. exact I.
      - cbn in Ep. injection Ep as <-. rewrite Hl0. exact I. }
    destruct (update_extrusion _ _). injection H as _ <-. exact Hn.
  - cbn [bind] in H. destruct (update_extrusion _ _). injection H as _ <-.
    change (l_f (set_notes _ l0)) with (l_f l0). rewrite Hl0. exact I.
Qed.

Lemma eqb_false : forall a b : num A, n_eqb a b = false -> val a <> val b.
Proof. intros a b H E. apply (val_eqb A X) in E. congruence. Qed.

Lemma move_duration_ok : forall (l : line A) d, feed_nonneg (l_f l) -> 0 <= val (d_f d) ->
  exists d', move_duration l d = Ok d' /\ 0 <= val (d_f d').
Proof.
  intros l d Hl Hd. unfold move_duration.
  set (f := match l_f l with Some f => n_div f (lit 60 0) | None => d_f d end).
  set (dx := n_sub _ (d_x d)). set (dy := n_sub _ (d_y d)).
  set (lastf := if n_leb _ n0 then n0 else d_f d).
  assert (Hf : 0 <= val f).
  { unfold f. destruct (l_f l) as [g|]; [|exact Hd].
    assert (H60 : val (lit 60 0) = 60) by (rewrite val_lit; cbn; lra).
    rewrite (val_div A X) by lra. rewrite H60. cbn in Hl. lra. }
  assert (Hlf : 0 <= val lastf).
  { unfold lastf. destruct (n_leb _ n0); [rewrite val_n0; lra|exact Hd]. }
  set (travel := if n_eqb (n_hypot dx dy) n0 then _ else _).
  clearbody travel lastf f dx dy.
  destruct (n_eqb f lastf) eqn:E1.
  { destruct (n_eqb f n0); cbn [bind]; eexists; split; try reflexivity; exact Hf. }
  match goal with |- context [if ?b then _ else _] => destruct b end; cbn [bind].
  { eexists; split; [reflexivity|exact Hf]. }
  unfold py_div. destruct (n_eqb (n_add lastf f) n0) eqn:E2; cbn [bind].
  - exfalso. apply (val_eqb A X) in E2. rewrite (val_add A X), val_n0 in E2.
    apply eqb_false in E1. lra.
  - eexists; split; [reflexivity|exact Hf].
Qed.

Lemma update_layers_d : forall s : lstate A, ls_d (update_layers s) = ls_d s.
Proof.
  intros s. unfold update_layers. destruct (opt_eqb _ _); [reflexivity|].
  destruct (compute_base_z s). destruct (match ls_prev_base s with Some _ => _ | None => _ end); reflexivity.
Qed.

Lemma build_feed : forall light ts, Forall (fun s => feed_ok s = true) ts ->
  forall (m : mstate A) ls out e, 0 <= val (d_f (ls_d ls)) ->
  foldM (build_step light) (map new_line ts) (m, ls, out) = Err e -> e <> ZeroDivisionError.
Proof.
  intros light ts H. induction H as [|t ts Ht H IH]; intros m ls out e Hd Hf; cbn [map foldM] in Hf.
  { discriminate Hf. }
  unfold build_step at 1 in Hf.
  pose proof (motion_total m t) as Hm.
  destruct (motion_step m (new_line t)) as [[m' l]|e1] eqn:E; cbn [bind] in Hf.
  2:{ destruct Hm as [-> _]. injection Hf as <-. discriminate. }
  pose proof (motion_feed _ _ _ _ Ht E) as Hl.
  assert (Hb : match (match command l with Some _ => layer_body l (m_max m') ls | None => Ok ls end) with
    | Ok ls' => 0 <= val (d_f (ls_d ls')) | Err e2 => e2 <> ZeroDivisionError end).
  { destruct (command l) as [c|] eqn:Ec; [|exact Hd].
    unfold layer_body. destruct (update_bbox l (m_max m') ls) as [bb bbe].
    unfold update_duration. destruct (cmd_in (command l) linear_move_gcodes).
    - destruct (move_duration_ok l (ls_d ls) Hl Hd) as (d' & -> & Hd'). cbn [bind].
      rewrite update_layers_d. exact Hd'.
    - destruct (cmd_is (command l) "G4"); cbn [bind]; [|rewrite update_layers_d; exact Hd].
      pose proof (find_specific_total l) as Hp.
      destruct (find_specific_code l "P") as [[p|]|e2]; cbn [bind].
      + destruct (truthy p); cbn [bind]; rewrite update_layers_d; exact Hd.
      + rewrite update_layers_d; exact Hd.
      + destruct Hp as [-> _]. discriminate. }
  destruct (match command l with Some _ => layer_body l (m_max m') ls | None => Ok ls end) as [ls'|e2];
    cbn [bind] in Hf.
  - eapply IH; [|exact Hf]. exact Hb.
  - injection Hf as <-. exact Hb.
Qed.

Lemma load_no_zero_div : forall light home data,
  Forall (fun s => feed_ok s = true) (program_text data) ->
  load_gen (A:=A) light home data <> Err ZeroDivisionError.
Proof.
  intros light home data H E. unfold load_gen in E. destruct data as [|s data]; [discriminate E|].
  rewrite clean_lines_text in E.
  destruct (foldM _ _ _) as [[[m ls] out]|e] eqn:Ef; cbn [bind] in E; [discriminate E|].
  injection E as ->. eapply build_feed in Ef; [apply Ef; reflexivity|exact H|].
  cbn. rewrite val_n0. apply Rle_refl.
Qed.

Lemma load_well_formed : forall light home data,
  Forall (fun s => line_ok s = true /\ feed_ok s = true) (program_text data) ->
  exists g, load_gen (A:=A) light home data = Ok g.
Proof.
  intros light home data H. destruct (load_gen light home data) as [g|e] eqn:E; [eauto|].
  exfalso. pose proof (load_errors _ _ _ _ E) as [-> | ->].
  - apply load_value_error in E as (s & Hin & Hs). rewrite Forall_forall in H.
    destruct (H s Hin) as [H1 _]. congruence.
  - eapply load_no_zero_div; [|exact E]. eapply Forall_impl; [|exact H]. intros s Hs. apply Hs.
Qed.

End ExactWf.
End Wf.

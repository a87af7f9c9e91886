(** * P_Text: lemmas about the tokenizer *)
From Coq Require Import List Ascii String ZArith NArith Bool Lia.
From Verif Require Import PyBase Arith Gcoder SpecText SpecLoad P_Load.
Import ListNotations.
Local Open Scope list_scope.

(** ** Characters *)

Ltac all_chars c := destruct c as [[|] [|] [|] [|] [|] [|] [|] [|]].

Lemma lower_char_fix : forall c d, lower_char d = d -> upper_char d = d ->
  lower_char c = d -> c = d.
Proof. intros c d. all_chars c; intros H1 H2 H3; vm_compute in H3; subst d; try reflexivity;
  vm_compute in H2; discriminate H2. Qed.

Lemma lower_char_idem : forall c, lower_char (lower_char c) = lower_char c.
Proof. intros c. all_chars c; reflexivity. Qed.

Lemma lower_app : forall a b, lower (a ++ b) = (lower a ++ lower b)%string.
Proof. induction a as [|c a IH]; intros b; cbn; [reflexivity|]. now rewrite IH. Qed.

Lemma lower_length : forall s, String.length (lower s) = String.length s.
Proof. induction s as [|c s IH]; cbn; [reflexivity|]. now rewrite IH. Qed.

Lemma str_length_app : forall a b, String.length (a ++ b) = String.length a + String.length b.
Proof. induction a as [|c a IH]; intros b; cbn; [reflexivity|]. now rewrite IH. Qed.

Lemma lacks_app : forall c a b, lacks c (a ++ b) = lacks c a && lacks c b.
Proof.
  intros c. unfold lacks. induction a as [|d a IH]; intros b; cbn; [reflexivity|].
  rewrite IH. now rewrite andb_assoc.
Qed.

Lemma lacks_lower : forall d s, lower_char d = d -> upper_char d = d ->
  lacks d s = true -> lacks d (lower s) = true.
Proof.
  intros d s H1 H2. unfold lacks, lower. induction s as [|c s IH]; cbn; [reflexivity|].
  intros H. apply andb_prop in H as [Hc Hs]. rewrite (IH Hs), andb_true_r.
  apply negb_true_iff, Ascii.eqb_neq. apply negb_true_iff, Ascii.eqb_neq in Hc.
  intros E. apply Hc. apply lower_char_fix; assumption.
Qed.

(** ** span *)

Lemma span_app_eq : forall p s a b, span p s = (a, b) -> s = (a ++ b)%string.
Proof.
  intros p. induction s as [|c s IH]; intros a b H; cbn in H.
  - injection H as <- <-. reflexivity.
  - destruct (p c).
    + destruct (span p s) as [a' b'] eqn:E. injection H as <- <-. cbn.
      f_equal. apply IH. reflexivity.
    + injection H as <- <-. reflexivity.
Qed.

Lemma span_all : forall p s a b, span p s = (a, b) -> str_all p a = true.
Proof.
  intros p. induction s as [|c s IH]; intros a b H; cbn in H.
  - injection H as <- <-. reflexivity.
  - destruct (p c) eqn:Ec.
    + destruct (span p s) as [a' b'] eqn:E. injection H as <- <-. cbn. rewrite Ec.
      apply (IH a' b'). reflexivity.
    + injection H as <- <-. reflexivity.
Qed.

Lemma span_stop : forall p s a b c t, span p s = (a, b) -> b = String c t -> p c = false.
Proof.
  intros p. induction s as [|d s IH]; intros a b c t H Hb; cbn in H.
  - injection H as <- <-. discriminate Hb.
  - destruct (p d) eqn:Ed.
    + destruct (span p s) as [a' b'] eqn:E. injection H as <- <-. eapply IH; [reflexivity|exact Hb].
    + injection H as <- <-. congruence.
Qed.

(** everything satisfies [p]: the rest is empty *)
Lemma span_full : forall p s, str_all p s = true -> span p s = (s, ""%string).
Proof.
  intros p. induction s as [|c s IH]; cbn; [reflexivity|].
  intros H. apply andb_prop in H as [Hc Hs]. rewrite Hc, (IH Hs). reflexivity.
Qed.

(** appending text that does not start with a [p] character *)
Lemma span_ext : forall p s x, (forall c t, x = String c t -> p c = false) ->
  span p (s ++ x) = (fst (span p s), (snd (span p s) ++ x)%string).
Proof.
  intros p s x Hx. induction s as [|c s IH]; cbn.
  - destruct x as [|d x]; cbn; [reflexivity|]. rewrite (Hx d x eq_refl). reflexivity.
  - destruct (p c); [|reflexivity]. rewrite IH. destruct (span p s); reflexivity.
Qed.

Lemma span_ext_all : forall p a x, str_all p a = true ->
  (forall c t, x = String c t -> p c = false) -> span p (a ++ x) = (a, x).
Proof.
  intros p a x Ha Hx. rewrite span_ext by exact Hx. rewrite (span_full p a Ha). reflexivity.
Qed.

Lemma not_nl_full : forall s, lacks nl s = true -> span not_nl s = (s, ""%string).
Proof. intros s H. apply span_full. exact H. Qed.

(** ** Numbers *)

(** a character that cannot continue a number *)
Definition num_stop (c : ascii) : bool :=
  negb (is_digit c) && negb (in_chars c ["-"; "+"; "."]%char).

Lemma scan_number_shorter : forall s n r, scan_number s = (n, r) ->
  s = (n ++ r)%string.
Proof.
  intros s n r H. unfold scan_number in H.
  assert (Hs : exists sg s1, s = (sg ++ s1)%string /\
    match s with String "-" t => ("-"%string, t) | String "+" t => ("+"%string, t)
               | _ => (""%string, s) end = (sg, s1)).
  { destruct s as [|c t]; [exists ""%string, ""%string; split; reflexivity|].
    all_chars c; first [exists "-"%string, t; split; reflexivity
                       |exists "+"%string, t; split; reflexivity
                       |eexists ""%string, _; split; reflexivity]. }
  destruct Hs as (sg & s1 & Hs & E). rewrite E in H. clear E.
  destruct (span is_digit s1) as [ip s2] eqn:E1. apply span_app_eq in E1.
  assert (Hp : exists pt s3, s2 = (pt ++ s3)%string /\
    match s2 with String "." t => ("."%string, t) | _ => (""%string, s2) end = (pt, s3)).
  { destruct s2 as [|c t]; [exists ""%string, ""%string; split; reflexivity|].
    all_chars c; first [exists "."%string, t; split; reflexivity
                       |eexists ""%string, _; split; reflexivity]. }
  destruct Hp as (pt & s3 & Hp & E). rewrite E in H. clear E.
  destruct (span is_digit s3) as [fp s4] eqn:E2. apply span_app_eq in E2.
  injection H as <- <-. rewrite Hs, E1, Hp, E2. rewrite !str_app_assoc. reflexivity.
Qed.

Lemma num_stop_facts : forall c, num_stop c = true ->
  is_digit c = false /\ c <> "-"%char /\ c <> "+"%char /\ c <> "."%char.
Proof.
  intros c H. unfold num_stop in H. apply andb_prop in H as [H1 H2].
  apply negb_true_iff in H1, H2. cbn in H2.
  repeat (apply orb_false_iff in H2 as [? H2]).
  repeat split; try exact H1; apply Ascii.eqb_neq; assumption.
Qed.

Lemma scan_number_ext : forall s x, (forall c t, x = String c t -> num_stop c = true) ->
  scan_number (s ++ x) = (fst (scan_number s), (snd (scan_number s) ++ x)%string).
Proof.
  intros s x Hx.
  assert (Hd : forall c t, x = String c t -> is_digit c = false)
    by (intros c t E; apply (num_stop_facts c (Hx c t E))).
  unfold scan_number.
  assert (Hs :
    (match (s ++ x)%string with String "-" t => ("-"%string, t) | String "+" t => ("+"%string, t)
               | _ => (""%string, (s ++ x)%string) end) =
    let '(a, b) := match s with String "-" t => ("-"%string, t) | String "+" t => ("+"%string, t)
               | _ => (""%string, s) end in (a, (b ++ x)%string)).
  { destruct s as [|c t].
    - cbn [String.append]. destruct x as [|c t]; [reflexivity|].
      destruct (num_stop_facts c (Hx c t eq_refl)) as (_ & H1 & H2 & _).
      all_chars c; cbn; try reflexivity; congruence.
    - all_chars c; reflexivity. }
  rewrite Hs. clear Hs.
  destruct (match s with String "-" t => ("-"%string, t) | String "+" t => ("+"%string, t)
               | _ => (""%string, s) end) as [sg s1].
  rewrite (span_ext is_digit s1 x Hd).
  destruct (span is_digit s1) as [ip s2]. cbn [fst snd].
  assert (Hp :
    (match (s2 ++ x)%string with String "." t => ("."%string, t) | _ => (""%string, (s2 ++ x)%string) end) =
    let '(a, b) := match s2 with String "." t => ("."%string, t) | _ => (""%string, s2) end
    in (a, (b ++ x)%string)).
  { destruct s2 as [|c t].
    - cbn [String.append]. destruct x as [|c t]; [reflexivity|].
      destruct (num_stop_facts c (Hx c t eq_refl)) as (_ & _ & _ & H3).
      all_chars c; cbn; try reflexivity; congruence.
    - all_chars c; reflexivity. }
  rewrite Hp. clear Hp.
  destruct (match s2 with String "." t => ("."%string, t) | _ => (""%string, s2) end) as [pt s3].
  rewrite (span_ext is_digit s3 x Hd).
  destruct (span is_digit s3) as [fp s4]. reflexivity.
Qed.

(** ** findall *)

Lemma scan_paren_shorter : forall s r, scan_paren s = Some r -> String.length r < String.length s.
Proof.
  induction s as [|c s IH]; intros r H; cbn in H; [discriminate H|].
  destruct (Ascii.eqb c ")"); [injection H as <-; cbn; lia|].
  destruct (Ascii.eqb c "("); [discriminate H|].
  apply IH in H. cbn. lia.
Qed.

Lemma span_snd_length : forall p s, String.length (snd (span p s)) <= String.length s.
Proof.
  intros p s. destruct (span p s) as [a b] eqn:E. apply span_app_eq in E.
  rewrite E, str_length_app. cbn. lia.
Qed.

Lemma match_at_shorter : forall st s tok r, match_at st s = Some (tok, r) ->
  String.length r < String.length s.
Proof.
  intros st s tok r H. unfold match_at in H. destruct s as [|c t]; [discriminate H|].
  cbn [String.length].
  destruct (Ascii.eqb c "(").
  { destruct (scan_paren t) as [r1|] eqn:E.
    - injection H as _ <-. apply scan_paren_shorter in E. lia.
    - destruct st; [|discriminate H].
      unfold scan_paren_line in H. pose proof (span_snd_length not_nl t) as Hl.
      destruct (span not_nl t) as [seg rest]. cbn in Hl.
      destruct (ends_paren seg && _); [|discriminate H]. injection H as _ <-. lia. }
  destruct (Ascii.eqb c ";").
  { injection H as _ <-. unfold scan_to_nl. pose proof (span_snd_length not_nl t). lia. }
  destruct (Ascii.eqb c "/" || Ascii.eqb c "*").
  { unfold scan_past_nl in H. pose proof (span_snd_length not_nl t) as Hl.
    destruct (snd (span not_nl t)) as [|d u]; [discriminate H|].
    injection H as _ <-. cbn in Hl. lia. }
  destruct (is_word_letter c); [|discriminate H].
  destruct (scan_number t) as [n r1] eqn:E. apply scan_number_shorter in E.
  injection H as _ <-. rewrite E, str_length_app. lia.
Qed.

Lemma findall_fuel_enough : forall f1 f2 st s,
  String.length s <= f1 -> String.length s <= f2 ->
  findall_fuel f1 st s = findall_fuel f2 st s.
Proof.
  induction f1 as [|f1 IH]; intros f2 st s H1 H2.
  - destruct s; [|cbn in H1; lia]. destruct f2; reflexivity.
  - destruct f2 as [|f2]; [destruct s; [reflexivity|cbn in H2; lia]|].
    cbn [findall_fuel]. destruct s as [|c t]; [reflexivity|].
    destruct (match_at st (String c t)) as [[tok r]|] eqn:E.
    + apply match_at_shorter in E. f_equal. apply IH; cbn in *; lia.
    + apply IH; cbn in *; lia.
Qed.

(** findall with just enough fuel, from any position *)
Definition findall_from (st : bool) (s : string) : list token :=
  findall_fuel (String.length s) st s.

Lemma findall_from_step : forall st c t,
  findall_from st (String c t) =
  match match_at st (String c t) with
  | Some (tok, r) => tok :: findall_from false r
  | None => findall_from false t
  end.
Proof.
  intros st c t. unfold findall_from. cbn [String.length findall_fuel].
  destruct (match_at st (String c t)) as [[tok r]|] eqn:E; [|reflexivity].
  f_equal. apply match_at_shorter in E. apply findall_fuel_enough; cbn in *; lia.
Qed.

Lemma findall_from_nil : forall st, findall_from st "" = [].
Proof. reflexivity. Qed.

(** ** Trailing comments *)

Lemma scan_paren_ext : forall s r x, scan_paren s = Some r -> scan_paren (s ++ x) = Some (r ++ x)%string.
Proof.
  induction s as [|c s IH]; intros r x H; cbn in *; [discriminate H|].
  destruct (Ascii.eqb c ")"); [congruence|].
  destruct (Ascii.eqb c "("); [discriminate H|]. apply IH, H.
Qed.

Lemma scan_paren_lacks : forall x, lacks ")" x = true -> scan_paren x = None.
Proof.
  induction x as [|c x IH]; cbn; [reflexivity|].
  intros H. apply andb_prop in H as [Hc Hx]. apply negb_true_iff in Hc. rewrite Hc.
  destruct (Ascii.eqb c "("); [reflexivity|]. apply IH, Hx.
Qed.

Lemma scan_paren_ext_none : forall s x, scan_paren s = None -> lacks ")" x = true ->
  scan_paren (s ++ x) = None.
Proof.
  induction s as [|c s IH]; intros x H Hx; cbn in *; [apply scan_paren_lacks, Hx|].
  destruct (Ascii.eqb c ")"); [discriminate H|].
  destruct (Ascii.eqb c "("); [reflexivity|]. apply IH; assumption.
Qed.

Lemma ends_paren_ext : forall s x, x <> ""%string -> lacks ")" x = true -> ends_paren (s ++ x) = false.
Proof.
  intros s x Hne Hx. induction s as [|c s IH].
  - cbn [String.append]. induction x as [|d x IHx]; [congruence|].
    unfold lacks in Hx. cbn in Hx. apply andb_prop in Hx as [Hd Hx].
    destruct x as [|e x]; cbn [ends_paren]; [apply negb_true_iff in Hd; exact Hd|].
    apply IHx; [discriminate|exact Hx].
  - change (String c s ++ x)%string with (String c (s ++ x)).
    destruct (s ++ x)%string as [|d u] eqn:E.
    + destruct s; cbn in E; [congruence|discriminate E].
    + exact IH.
Qed.

Lemma startswith1 : forall d c s, startswith (String d "") (String c s) = Ascii.eqb d c.
Proof.
  intros d c s. unfold startswith, prefix. destruct (ascii_dec d c) as [E|E].
  - subst. rewrite Ascii.eqb_refl. destruct s; reflexivity.
  - symmetry. apply Ascii.eqb_neq. exact E.
Qed.

Lemma starts_paren : forall t, startswith "(" (String "(" t) = true.
Proof. intros t. unfold startswith. cbn. destruct t; reflexivity. Qed.

Lemma findall_comment : forall suf0 x s st,
  (forall c t, x = String c t -> num_stop c = true) ->
  (forall st', findall_from st' x = suf0) -> x <> ""%string ->
  lacks nl x = true -> lacks ")" x = true -> lacks nl s = true ->
  (st = true -> no_outer_paren s = true) ->
  exists suf, findall_from st (s ++ x) = findall_from st s ++ suf /\
    (suf = [] \/ suf = suf0).
Proof.
  intros suf0 x s st Hstop Hbase Hne Hnl Hpar.
  remember (String.length s) as n eqn:Hn. revert s st Hn.
  induction n as [n IH] using (well_founded_induction lt_wf). intros s st Hn Hs Hst. subst n.
  destruct s as [|c t].
  - cbn [String.append]. rewrite Hbase, findall_from_nil. eexists. split; [reflexivity|].
    now right.
  - cbn [String.append]. rewrite !findall_from_step. unfold match_at.
    unfold lacks in Hs. cbn in Hs. apply andb_prop in Hs as [Hc Hs].
    assert (IHt : forall s' , String.length s' <= String.length t -> lacks nl s' = true ->
      exists suf, findall_from false (s' ++ x) = findall_from false s' ++ suf /\
                  (suf = [] \/ suf = suf0)).
    { intros s' Hl Hs'. apply (IH (String.length s')); [cbn; lia|reflexivity|exact Hs'|discriminate]. }
    assert (Hsuf : forall a r, t = (a ++ r)%string -> lacks nl r = true).
    { intros a r E. change (lacks nl t = true) in Hs. rewrite E, lacks_app in Hs.
      apply andb_prop in Hs. apply Hs. }
    assert (Hcons : forall tok s', String.length s' <= String.length t -> lacks nl s' = true ->
      exists suf, tok :: findall_from false (s' ++ x) = (tok :: findall_from false s') ++ suf /\
                  (suf = [] \/ suf = suf0)).
    { intros tok s' Hl Hs'. destruct (IHt s' Hl Hs') as (suf & E & H).
      exists suf. cbn. rewrite E. split; [reflexivity|exact H]. }
    destruct (Ascii.eqb c "(") eqn:Ep.
    { destruct (scan_paren t) as [r|] eqn:E.
      - rewrite (scan_paren_ext _ _ x E). apply Hcons.
        + apply scan_paren_shorter in E. lia.
        + assert (Ha : exists a, t = (a ++ r)%string).
          { clear - E. revert r E. induction t as [|d t IHt]; intros r E; cbn in E; [discriminate E|].
            destruct (Ascii.eqb d ")").
            - injection E as <-. exists (String d ""). reflexivity.
            - destruct (Ascii.eqb d "("); [discriminate E|].
              destruct (IHt r E) as [a Ha]. exists (String d a). cbn. congruence. }
          destruct Ha as [a Ha]. apply (Hsuf a r Ha).
      - rewrite (scan_paren_ext_none _ x E Hpar).
        destruct st; [|apply IHt; [lia|exact Hs]].
        apply Ascii.eqb_eq in Ep. subst c. specialize (Hst eq_refl).
        unfold no_outer_paren in Hst. rewrite starts_paren in Hst. cbn [andb] in Hst.
        apply negb_true_iff in Hst.
        assert (Hl1 : scan_paren_line t = None).
        { unfold scan_paren_line. rewrite (not_nl_full t Hs).
          assert (Ht : ends_paren t = false \/ t = ""%string).
          { destruct t; [now right|left; exact Hst]. }
          destruct Ht as [Ht|Ht]; [rewrite Ht; reflexivity|subst t; reflexivity]. }
        assert (Hl2 : scan_paren_line (t ++ x) = None).
        { unfold scan_paren_line. rewrite (not_nl_full (t ++ x)).
          - rewrite (ends_paren_ext t x Hne Hpar). reflexivity.
          - rewrite lacks_app, Hnl. rewrite andb_true_r. exact Hs. }
        rewrite Hl1, Hl2. apply IHt; [lia|exact Hs]. }
    destruct (Ascii.eqb c ";") eqn:Es.
    { unfold scan_to_nl. rewrite (not_nl_full t Hs), (not_nl_full (t ++ x)).
      - cbn [snd]. rewrite !findall_from_nil. exists []. split; [reflexivity|now left].
      - rewrite lacks_app, Hnl. rewrite andb_true_r. exact Hs. }
    destruct (Ascii.eqb c "/" || Ascii.eqb c "*").
    { unfold scan_past_nl. rewrite (not_nl_full t Hs), (not_nl_full (t ++ x)).
      - cbn [snd]. apply IHt; [lia|exact Hs].
      - rewrite lacks_app, Hnl. rewrite andb_true_r. exact Hs. }
    destruct (is_word_letter c).
    { rewrite (scan_number_ext t x Hstop). destruct (scan_number t) as [nn r] eqn:E. cbn [fst snd].
      apply scan_number_shorter in E. apply Hcons.
      - rewrite E, str_length_app. lia.
      - apply (Hsuf nn r E). }
    apply IHt; [lia|exact Hs].
Qed.

Lemma findall_is_from : forall s, findall s = findall_from true s.
Proof. reflexivity. Qed.

(** deletion of the line number *)
Definition drop_n (toks : list token) : list token :=
  match toks with
  | (c, v) :: t => if String.eqb c "n" then t else (c, v) :: t
  | [] => []
  end.

Lemma drop_n_app : forall a suf, (suf = [] \/ suf = [(""%string, ""%string)]) ->
  drop_n (a ++ suf) = drop_n a ++ suf.
Proof.
  intros [|[c v] a] suf H.
  - destruct H as [-> | ->]; reflexivity.
  - cbn. destruct (String.eqb c "n"); reflexivity.
Qed.

(** the line does not start with "(" and end with ")" *)
Lemma no_outer_paren_lower : forall s, no_outer_paren s = true -> no_outer_paren (lower s) = true.
Proof.
  intros s. unfold no_outer_paren. rewrite !negb_true_iff, !andb_false_iff.
  intros [H|H].
  - left. destruct s as [|c s]; [reflexivity|].
    change (lower (String c s)) with (String (lower_char c) (lower s)).
    rewrite startswith1 in *. apply Ascii.eqb_neq in H. apply Ascii.eqb_neq.
    intros E. apply H. symmetry. apply lower_char_fix; [reflexivity|reflexivity|congruence].
  - right. induction s as [|c s IH]; [reflexivity|].
    destruct s as [|d s].
    + cbn in *. apply Ascii.eqb_neq. apply Ascii.eqb_neq in H. intros E. apply H.
      apply lower_char_fix; [reflexivity|reflexivity|exact E].
    + cbn [ends_paren] in H. specialize (IH H). exact IH.
Qed.

Lemma space_facts : forall c, is_space c = true ->
  num_stop c = true /\ is_word_letter c = false /\ Ascii.eqb c "(" = false /\
  Ascii.eqb c ";" = false /\ Ascii.eqb c "/" || Ascii.eqb c "*" = false /\ Ascii.eqb c ")" = false /\
  lower_char c = c.
Proof. intros c. all_chars c; vm_compute; intros H; try discriminate H; repeat split. Qed.

Lemma lower_space : forall b, str_all is_space b = true -> lower b = b.
Proof.
  induction b as [|c b IH]; [reflexivity|]. intros H. cbn in H. apply andb_prop in H as [Hc Hb].
  change (lower (String c b)) with (String (lower_char c) (lower b)). rewrite (IH Hb). f_equal.
  apply space_facts in Hc. apply Hc.
Qed.

Lemma lacks_space : forall b, str_all is_space b = true -> lacks ")" b = true.
Proof.
  unfold lacks. induction b as [|c b IH]; cbn; [reflexivity|]. intros H. apply andb_prop in H as [Hc Hb].
  destruct (space_facts c Hc) as (_ & _ & _ & _ & _ & -> & _). apply IH, Hb.
Qed.

Lemma findall_tail : forall b c st, str_all is_space b = true -> lacks nl c = true ->
  findall_from st (b ++ String ";" c) = [(""%string, ""%string)].
Proof.
  induction b as [|d b IH]; intros c st Hb Hc.
  - cbn [String.append]. rewrite findall_from_step. unfold match_at.
    change (Ascii.eqb ";" "(") with false. change (Ascii.eqb ";" ";") with true. cbv iota.
    unfold scan_to_nl. rewrite (not_nl_full c Hc). reflexivity.
  - cbn [String.append]. cbn in Hb. apply andb_prop in Hb as [Hd Hb].
    destruct (space_facts d Hd) as (_ & H1 & H2 & H3 & H4 & _).
    rewrite findall_from_step. unfold match_at. rewrite H1, H2, H3, H4. apply IH; assumption.
Qed.

(** facts about a lower-cased comment tail *)
Lemma comment_tail_lower : forall x, comment_tail x -> comment_tail (lower x).
Proof.
  intros x (b & c & -> & H1 & H2 & H3 & H4). exists (lower b), (lower c). rewrite lower_app.
  rewrite (lower_space b H1). repeat split; try assumption;
    (apply lacks_lower; [reflexivity|reflexivity|assumption]).
Qed.

Lemma comment_tail_facts : forall x, comment_tail x ->
  (forall c t, x = String c t -> num_stop c = true) /\ x <> ""%string /\
  lacks nl x = true /\ lacks ")" x = true /\
  (forall st, findall_from st x = [(""%string, ""%string)]).
Proof.
  intros x (b & c & -> & H1 & H2 & H3 & H4). repeat split.
  - intros d t E. destruct b as [|e b]; cbn in E; injection E as <- _; [reflexivity|].
    cbn in H1. apply andb_prop in H1 as [H1 _]. apply space_facts in H1. apply H1.
  - destruct b; discriminate.
  - rewrite lacks_app, H2. exact H3.
  - rewrite lacks_app, (lacks_space b H1). exact H4.
  - intros st. apply findall_tail; assumption.
Qed.

Lemma words_comment : forall s x,
  lacks nl s = true -> comment_tail x -> no_outer_paren s = true ->
  exists suf, words (s ++ x) = words s ++ suf /\
    (suf = [] \/ suf = [(""%string, ""%string)]).
Proof.
  intros s x Hs Hx Ho. unfold words. rewrite lower_app.
  destruct (comment_tail_facts _ (comment_tail_lower x Hx)) as (H1 & H2 & H3 & H4 & H5).
  destruct (findall_comment _ (lower x) (lower s) true H1 H5 H2 H3 H4) as (suf & E & H).
  - apply lacks_lower; [reflexivity|reflexivity|]. exact Hs.
  - intros _. apply no_outer_paren_lower, Ho.
  - exists suf. split; [|exact H]. rewrite !findall_is_from, E. apply drop_n_app. exact H.
Qed.

(** ** Line numbers and checksums *)

Lemma digit_stop : forall c, is_digit c = true ->
  lower_char c = c /\ is_word_letter c = false /\ Ascii.eqb c "(" = false /\
  Ascii.eqb c ";" = false /\ Ascii.eqb c "/" || Ascii.eqb c "*" = false /\ Ascii.eqb c ")" = false /\
  Ascii.eqb c nl = false /\ Ascii.eqb c "-" = false /\ Ascii.eqb c "+" = false.
Proof. intros c. all_chars c; vm_compute; intros H; try discriminate H; repeat split. Qed.

Lemma digits_lower : forall k, str_all is_digit k = true -> lower k = k.
Proof.
  induction k as [|c k IH]; [reflexivity|]. intros H. cbn in H. apply andb_prop in H as [Hc Hk].
  change (lower (String c k)) with (String (lower_char c) (lower k)). rewrite (IH Hk). f_equal.
  apply digit_stop in Hc. apply Hc.
Qed.

Lemma digits_lack : forall d k, is_digit d = false -> str_all is_digit k = true -> lacks d k = true.
Proof.
  intros d k Hd. unfold lacks. induction k as [|c k IH]; cbn; [reflexivity|]. intros H.
  apply andb_prop in H as [Hc Hk]. rewrite (IH Hk), andb_true_r. apply negb_true_iff, Ascii.eqb_neq.
  intros ->. congruence.
Qed.

Lemma findall_digits : forall k st, str_all is_digit k = true -> findall_from st k = [].
Proof.
  induction k as [|c k IH]; intros st H; [reflexivity|]. cbn in H. apply andb_prop in H as [Hc Hk].
  destruct (digit_stop c Hc) as (_ & H1 & H2 & H3 & H4 & _).
  rewrite findall_from_step. unfold match_at. rewrite H1, H2, H3, H4. apply IH, Hk.
Qed.

Lemma findall_start : forall s, no_outer_paren s = true -> lacks nl s = true ->
  findall_from true s = findall_from false s.
Proof.
  intros [|c t] Ho Hl; [reflexivity|]. rewrite !findall_from_step. unfold match_at.
  destruct (Ascii.eqb c "(") eqn:E; [|reflexivity].
  destruct (scan_paren t) as [r|]; [reflexivity|].
  apply Ascii.eqb_eq in E. subst c. unfold no_outer_paren in Ho. rewrite starts_paren in Ho.
  cbn [andb] in Ho. apply negb_true_iff in Ho. unfold lacks in Hl. cbn in Hl.
  unfold scan_paren_line. rewrite (not_nl_full t Hl).
  assert (Ht : ends_paren t = false) by (destruct t; [reflexivity|exact Ho]).
  rewrite Ht. reflexivity.
Qed.

Lemma words_framed : forall s t, framed s t -> unnumbered s -> lacks nl s = true ->
  no_outer_paren s = true -> words t = words s.
Proof.
  intros s t (n & k & Hn & Hk & ->) Hu Hl Ho. unfold words.
  change (lower (String "N" (n ++ String " " (s ++ String "*" k))))
    with (String "n" (lower (n ++ String " " (s ++ String "*" k)))).
  rewrite lower_app, (digits_lower n Hn).
  change (lower (String " " (s ++ String "*" k))) with (String " " (lower (s ++ String "*" k))).
  rewrite lower_app. change (lower (String "*" k)) with (String "*" (lower k)).
  rewrite (digits_lower k Hk).
  rewrite findall_is_from, findall_from_step. unfold match_at.
  change (Ascii.eqb "n" "(") with false. change (Ascii.eqb "n" ";") with false.
  change (Ascii.eqb "n" "/" || Ascii.eqb "n" "*") with false.
  change (is_word_letter "n") with true. cbv iota.
  set (u := (lower s ++ String "*" k)%string).
  assert (Hsn : scan_number (n ++ String " " u) = (n, String " " u)).
  { rewrite scan_number_ext by (intros c w E; injection E as <- _; reflexivity).
    assert (E : scan_number n = (n, ""%string)).
    { unfold scan_number. destruct n as [|c n]; [reflexivity|].
      pose proof Hn as Hn'. cbn in Hn'. apply andb_prop in Hn' as [Hc _].
      destruct (digit_stop c Hc) as (_ & _ & _ & _ & _ & _ & _ & E1 & E2).
      assert (Em : match String c n with String "-" w => ("-"%string, w) | String "+" w => ("+"%string, w)
               | _ => (""%string, String c n) end = (""%string, String c n)).
      { apply Ascii.eqb_neq in E1, E2. all_chars c; try reflexivity; congruence. }
      rewrite Em. rewrite (span_full is_digit _ Hn). cbn. rewrite str_app_nil. reflexivity. }
    rewrite E. reflexivity. }
  rewrite Hsn. change (String.eqb "n" "n") with true. cbv iota.
  rewrite findall_from_step. unfold match_at.
  change (Ascii.eqb " " "(") with false. change (Ascii.eqb " " ";") with false.
  change (Ascii.eqb " " "/" || Ascii.eqb " " "*") with false.
  change (is_word_letter " ") with false. cbv iota.
  destruct (findall_comment [] (String "*" k) (lower s) false) as (suf & E & Hsuf).
  - intros c w Ec. injection Ec as <- _. reflexivity.
  - intros st'. rewrite findall_from_step. unfold match_at.
    change (Ascii.eqb "*" "(") with false. change (Ascii.eqb "*" ";") with false.
    change (Ascii.eqb "*" "/" || Ascii.eqb "*" "*") with true. cbv iota.
    unfold scan_past_nl. rewrite (not_nl_full k) by (apply digits_lack; [reflexivity|exact Hk]).
    apply findall_digits, Hk.
  - discriminate.
  - apply (digits_lack nl k); [reflexivity|exact Hk].
  - apply (digits_lack ")" k); [reflexivity|exact Hk].
  - apply lacks_lower; [reflexivity|reflexivity|exact Hl].
  - discriminate.
  - unfold u. rewrite E. assert (Hs0 : suf = []) by (destruct Hsuf; assumption). rewrite Hs0, app_nil_r.
    rewrite <- findall_start; [|apply no_outer_paren_lower, Ho|apply lacks_lower; [reflexivity|reflexivity|exact Hl]].
    rewrite <- findall_is_from. unfold unnumbered in Hu.
    destruct (findall (lower s)) as [|[c v] w]; [reflexivity|].
    destruct (String.eqb c "n") eqn:Ec; [|reflexivity].
    apply String.eqb_eq in Ec. subst c. exfalso. eapply Hu. reflexivity.
Qed.

(** ** The effect of a line depends on its words only *)

(** free text: does not start like a command *)
Lemma unrecognised_head : forall s c t, recognised s = false -> s = String c t ->
  is_word_letter (lower_char c) = false \/ lower_char c = "n"%char.
Proof.
  intros s c t H ->. unfold recognised, words in H.
  destruct (is_word_letter (lower_char c)) eqn:E; [|now left]. right.
  rewrite findall_is_from in H. change (lower (String c t)) with (String (lower_char c) (lower t)) in H.
  rewrite findall_from_step in H. unfold match_at in H.
  assert (H1 : Ascii.eqb (lower_char c) "(" = false /\ Ascii.eqb (lower_char c) ";" = false /\
    Ascii.eqb (lower_char c) "/" || Ascii.eqb (lower_char c) "*" = false).
  { revert E. generalize (lower_char c) as d. intros d. all_chars d; vm_compute; intros E;
      try discriminate E; repeat split. }
  destruct H1 as (H1 & H2 & H3). rewrite H1, H2, H3, E in H.
  destruct (scan_number (lower t)) as [n r].
  destruct (String.eqb (String (lower_char c) "") "n") eqn:En; [|discriminate H].
  apply String.eqb_eq in En. congruence.
Qed.

Section Motion.
Context {A : arith}.

(** What the code reads from the words of a fresh line. *)
Definition read_words (s : string) (ws : list token) : line A * list token :=
  match ws with
  | [] => (set_command (Some s) false (new_line s), [])
  | (c, v) :: _ =>
      let cmd := if String.eqb c "" && String.eqb v "" then None else Some (upper c ++ v)%string in
      (set_command cmd (cmd_in cmd move_gcodes) (new_line s), ws)
  end.

Lemma split_new : forall s, split (new_line s) = read_words s (words s).
Proof.
  intros s. unfold split, words, read_words. cbn [raw new_line].
  destruct (findall (lower s)) as [|[c v] t]; [reflexivity|].
  destruct (String.eqb c "n"); [destruct t as [|[c' v'] t]|]; reflexivity.
Qed.

Definition with_raw (s : string) (l : line A) : line A := set_raw s l.

Lemma parse_word_raw_indep : forall imp (l : line A) w s,
  parse_word imp (set_raw s l) w = bind (parse_word imp l w) (fun l' => Ok (set_raw s l')).
Proof.
  intros imp l [c v] s. unfold parse_word.
  destruct (letter_of_code c); [|reflexivity].
  destruct (is_empty v); [reflexivity|].
  destruct (py_float v); reflexivity.
Qed.

Lemma foldM_parse_raw_indep : forall imp ws (l : line A) s,
  foldM (parse_word (A:=A) imp) ws (set_raw s l) =
  bind (foldM (parse_word imp) ws l) (fun l' => Ok (set_raw s l')).
Proof.
  intros imp. induction ws as [|w ws IH]; intros l s; cbn [foldM]; [reflexivity|].
  rewrite parse_word_raw_indep. destruct (parse_word imp l w) as [l1|e]; cbn [bind]; [|reflexivity].
  apply IH.
Qed.

Lemma foldM_parse_suf : forall imp (ws : list token) (l : line A) suf,
  (suf = [] \/ suf = [(""%string, ""%string)]) ->
  foldM (parse_word (A:=A) imp) (ws ++ suf) l = foldM (parse_word imp) ws l.
Proof.
  intros imp ws l suf H. rewrite foldM_app. unfold bind.
  destruct (foldM _ ws l) as [l1|e]; [|reflexivity].
  destruct H as [-> | ->]; reflexivity.
Qed.

(** The body of [motion_step] after [split]. *)
Definition motion_rest (s : mstate A) (l : line A) (toks : list token) : res (mstate A * line A) :=
  match command l with
  | None => Ok (s, l)
  | Some c =>
      do s1 <- update_modes c (is_move l) s;
      do l1 <- parse_coordinates (m_imperial s1) toks l;
      let s2 := update_position l1 s1 in
      let '(ext, s3) := update_extrusion l1 s2 in
      let n := Notes
        (if is_move l1 then Some (m_relative s1) else None)
        (if is_move l1 then Some (m_relative_e s1) else None)
        (if is_move l1 then Some (m_tool s1) else None)
        ext
        (Some (m_x s3)) (Some (m_y s3)) (Some (m_z s3))
        (Some (m_f s3)) (Some (m_e s3)) in
      Ok (s3, set_notes n l1)
  end.

Lemma motion_step_rest : forall (s : mstate A) (l : line A),
  motion_step s l = let '(l', toks) := split l in motion_rest s l' toks.
Proof. intros s l. unfold motion_step, motion_rest. destruct (split l). reflexivity. Qed.

Lemma motion_rest_raw : forall s l toks t,
  motion_rest s (set_raw t l) toks =
  bind (motion_rest s l toks) (fun p => Ok (fst p, set_raw t (snd p))).
Proof.
  intros s l toks t. unfold motion_rest. cbn [command set_raw].
  destruct (command l) as [c|] eqn:Ec; [|reflexivity].
  cbn [is_move set_raw].
  destruct (update_modes c (is_move l) s) as [s1|e]; cbn [bind]; [|reflexivity].
  unfold parse_coordinates. cbn [command set_raw]. rewrite Ec.
  destruct (first_is "G" c).
  - rewrite foldM_parse_raw_indep.
    destruct (foldM (parse_word (m_imperial s1)) toks l) as [l1|e]; cbn [bind]; [|reflexivity].
    change (update_position (set_raw t l1) s1) with (update_position l1 s1).
    change (update_extrusion (set_raw t l1) (update_position l1 s1))
      with (update_extrusion l1 (update_position l1 s1)).
    destruct (update_extrusion l1 (update_position l1 s1)) as [ext s3]. reflexivity.
  - cbn [bind].
    change (update_position (set_raw t l) s1) with (update_position l s1).
    change (update_extrusion (set_raw t l) (update_position l s1))
      with (update_extrusion l (update_position l s1)).
    destruct (update_extrusion l (update_position l s1)) as [ext s3]. reflexivity.
Qed.

Lemma motion_rest_suf : forall s l toks suf,
  (suf = [] \/ suf = [(""%string, ""%string)]) ->
  motion_rest s l (toks ++ suf) = motion_rest s l toks.
Proof.
  intros s l toks suf H. unfold motion_rest. destruct (command l) as [c|] eqn:E; [|reflexivity].
  destruct (update_modes c (is_move l) s) as [s1|e]; cbn [bind]; [|reflexivity].
  assert (Hp : parse_coordinates (m_imperial s1) (toks ++ suf) l =
               parse_coordinates (m_imperial s1) toks l).
  { unfold parse_coordinates. rewrite E. destruct (first_is "G" c); [|reflexivity].
    apply foldM_parse_suf, H. }
  rewrite Hp. reflexivity.
Qed.

(** free text changes nothing *)
Lemma upper_lower_cases : forall c, is_word_letter (lower_char c) = false \/ lower_char c = "n"%char ->
  c <> "G"%char /\ c <> "M"%char /\ c <> "T"%char.
Proof.
  intros c. all_chars c; vm_compute; intros [H|H]; try discriminate H;
    repeat split; discriminate.
Qed.

Lemma unrecognised_step : forall (m : mstate A) s, recognised s = false ->
  exists l : line A, motion_step m (new_line s) = Ok (m, l) /\ largs l = no_args /\ is_move l = false /\
    command l = Some s.
Proof.
  intros m s H. rewrite motion_step_rest, split_new.
  assert (Hw : words s = []) by (unfold recognised in H; destruct (words s); [reflexivity|discriminate H]).
  rewrite Hw. cbn [read_words]. unfold motion_rest. cbn [command set_command is_move].
  assert (Hm : update_modes s false m = Ok m /\ first_is "G" s = false /\
               String.eqb s "G28" = false /\ String.eqb s "G92" = false).
  { destruct s as [|c t]; [repeat split; reflexivity|].
    destruct (upper_lower_cases c (unrecognised_head _ c t H eq_refl)) as (HG & HM & HT).
    assert (EG : Ascii.eqb c "G" = false) by (apply Ascii.eqb_neq; exact HG).
    assert (EM : Ascii.eqb c "M" = false) by (apply Ascii.eqb_neq; exact HM).
    split.
    - unfold update_modes. cbn [String.eqb]. rewrite EG, EM.
      all_chars c; try reflexivity; congruence.
    - repeat split; cbn; rewrite EG; reflexivity. }
  destruct Hm as (Hm & HG & H28 & H92). rewrite Hm. cbn [bind].
  unfold parse_coordinates. cbn [command set_command]. rewrite HG. cbn [bind].
  unfold update_position. cbn [is_move set_command command cmd_is]. rewrite H28, H92.
  unfold update_extrusion. cbn. eexists. repeat split.
Qed.

(** no command: the line is skipped *)
Lemma no_command_step : forall (m : mstate A) s t, words s = (""%string, ""%string) :: t ->
  motion_step m (new_line s) = Ok (m, new_line s).
Proof.
  intros m s t H. rewrite motion_step_rest, split_new, H. reflexivity.
Qed.

(** ** C07 *)

Lemma agree_raw : forall rec (r : res (mstate A * line A)) t,
  agree rec r (bind r (fun p => Ok (fst p, set_raw t (snd p)))).
Proof. intros rec [[m l]|e] t; cbn; [repeat split|reflexivity]. Qed.

Lemma same_words_agree : forall (m : mstate A) s1 s2 w suf,
  words s1 = w -> words s2 = w ++ suf -> (suf = [] \/ suf = [(""%string, ""%string)]) ->
  agree (recognised s1) (motion_step m (new_line s1)) (motion_step (A:=A) m (new_line s2)).
Proof.
  intros m s1 s2 w suf H1 H2 Hsuf.
  destruct w as [|[c v] w].
  - assert (Hr1 : recognised s1 = false) by (unfold recognised; rewrite H1; reflexivity).
    destruct (unrecognised_step m s1 Hr1) as (l1 & E1 & Ha1 & _). rewrite E1, Hr1.
    destruct Hsuf as [-> | ->].
    + assert (Hr2 : recognised s2 = false) by (unfold recognised; rewrite H2; reflexivity).
      destruct (unrecognised_step m s2 Hr2) as (l2 & E2 & Ha2 & _). rewrite E2. cbn.
      repeat split; try congruence; discriminate.
    + rewrite (no_command_step m s2 [] H2). cbn. repeat split; try congruence; discriminate.
  - rewrite !motion_step_rest, !split_new, H1, H2. cbn [read_words app].
    set (cmd := if String.eqb c "" && String.eqb v "" then None else Some (upper c ++ v)%string).
    change ((c, v) :: w ++ suf) with (((c, v) :: w) ++ suf).
    rewrite motion_rest_suf by exact Hsuf.
    change (set_command cmd (cmd_in cmd move_gcodes) (new_line s2))
      with (set_raw s2 (set_command cmd (cmd_in cmd move_gcodes) (new_line (A:=A) s1))).
    rewrite motion_rest_raw. apply agree_raw.
Qed.

Lemma trailing_comment : forall (m : mstate A) s t, commented s t ->
  agree (recognised s) (motion_step m (new_line s)) (motion_step m (new_line t)).
Proof.
  intros m s t [-> | (H1 & H2 & x & Hx & ->)].
  - eapply (same_words_agree m s s (words s) []); [reflexivity| |now left]. symmetry. apply app_nil_r.
  - destruct (words_comment s x H1 Hx H2) as (suf & E & H).
    eapply same_words_agree; [reflexivity|exact E|exact H].
Qed.

Lemma framed_agree : forall (m : mstate A) s t, framed s t -> unnumbered s ->
  lacks nl s = true -> no_outer_paren s = true ->
  agree (recognised s) (motion_step m (new_line s)) (motion_step m (new_line t)).
Proof.
  intros m s t H1 H2 H3 H4. eapply (same_words_agree m s t (words s) []); [reflexivity| |now left].
  rewrite app_nil_r. apply words_framed; assumption.
Qed.

Lemma case_insensitive : forall (m : mstate A) s1 s2, lower s1 = lower s2 ->
  agree (recognised s1) (motion_step m (new_line s1)) (motion_step (A:=A) m (new_line s2)).
Proof.
  intros m s1 s2 H. eapply (same_words_agree m s1 s2 (words s1) []); [reflexivity| |now left].
  rewrite app_nil_r. unfold words. rewrite H. reflexivity.
Qed.

(** ** C08 *)

Lemma semicolon_words : forall c, lacks nl c = true ->
  words (String ";" c) = [(""%string, ""%string)].
Proof.
  intros c H. unfold words. rewrite findall_is_from.
  change (lower (String ";" c)) with (String ";" (lower c)).
  rewrite findall_from_step. unfold match_at.
  change (Ascii.eqb ";" "(") with false. change (Ascii.eqb ";" ";") with true. cbv iota.
  unfold scan_to_nl. rewrite not_nl_full by (apply lacks_lower; [reflexivity|reflexivity|exact H]).
  reflexivity.
Qed.

Lemma ends_paren_close : forall c, ends_paren (c ++ ")") = true.
Proof.
  induction c as [|d c IH]; [reflexivity|].
  change (String d c ++ ")")%string with (String d (c ++ ")")).
  destruct (c ++ ")")%string as [|e u] eqn:E; [destruct c; discriminate E|exact IH].
Qed.

Lemma scan_paren_close : forall c, opens_first c = true ->
  scan_paren (c ++ ")") = Some ""%string \/ scan_paren (c ++ ")") = None.
Proof.
  induction c as [|d c IH]; intros H; cbn in *; [now left|].
  destruct (Ascii.eqb d ")"); [discriminate H|].
  destruct (Ascii.eqb d "("); [now right|]. apply IH, H.
Qed.

Lemma opens_first_lower : forall c, opens_first (lower c) = opens_first c.
Proof.
  induction c as [|d c IH]; [reflexivity|].
  change (lower (String d c)) with (String (lower_char d) (lower c)). cbn [opens_first].
  rewrite IH.
  assert (H : forall k, lower_char k = k -> upper_char k = k -> Ascii.eqb (lower_char d) k = Ascii.eqb d k).
  { intros k H1 H2. destruct (Ascii.eqb d k) eqn:E.
    - apply Ascii.eqb_eq in E. subst. rewrite H1. apply Ascii.eqb_refl.
    - apply Ascii.eqb_neq in E. apply Ascii.eqb_neq. intros E2. apply E. apply lower_char_fix; assumption. }
  rewrite !H by reflexivity. reflexivity.
Qed.

Lemma comment_line_words : forall s, comment_line s -> words s = [(""%string, ""%string)].
Proof.
  intros s (c & H & [-> | [-> Ho]]); [apply semicolon_words, H|].
  unfold words. rewrite findall_is_from.
  change (lower (String "(" (c ++ ")"))) with (String "(" (lower (c ++ ")"))).
  rewrite lower_app. rewrite findall_from_step. unfold match_at.
  change (Ascii.eqb "(" "(") with true. cbv iota. change (lower ")") with ")"%string.
  rewrite <- opens_first_lower in Ho.
  assert (Hl : lacks nl (lower c ++ ")") = true).
  { rewrite lacks_app, (lacks_lower nl c); [reflexivity|reflexivity|reflexivity|exact H]. }
  destruct (scan_paren_close _ Ho) as [-> | ->]; [reflexivity|].
  unfold scan_paren_line. rewrite (not_nl_full _ Hl), ends_paren_close. reflexivity.
Qed.

Lemma comment_step : forall m s, comment_line s ->
  motion_step (A:=A) m (new_line s) = Ok (m, new_line s).
Proof. intros m s H. eapply no_command_step, comment_line_words, H. Qed.

End Motion.

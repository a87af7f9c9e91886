(** * P_Format: rewritten lines and how they read back (C22, C23) *)
From Coq Require Import List Ascii String ZArith NArith Bool Lia Reals Lra.
From Verif Require Import PyBase Arith ArithR Gcoder SpecText SpecLoad SpecMachine SpecEqual.
From Verif Require Import P_Load P_Text P_Report P_Wf P_Machine.
Import ListNotations.
Local Open Scope list_scope.

(** ** Decimal digits *)

Lemma digit_char_spec : forall n, (n < 10)%N ->
  is_digit (digit_char n) = true /\ digit_val (digit_char n) = n.
Proof.
  intros n H.
  assert (Hc : (n = 0 \/ n = 1 \/ n = 2 \/ n = 3 \/ n = 4 \/ n = 5 \/ n = 6 \/ n = 7 \/ n = 8 \/ n = 9)%N) by lia.
  repeat (destruct Hc as [-> |Hc]; [split; reflexivity|]). subst n. split; reflexivity.
Qed.

Lemma str_all_app : forall p a b, str_all p (a ++ b)%string = str_all p a && str_all p b.
Proof. intros p. induction a as [|c a IH]; intros b; cbn; [reflexivity|]. rewrite IH. apply andb_assoc. Qed.

Lemma digits_fixed_all : forall k n, str_all is_digit (digits_fixed k n) = true.
Proof.
  induction k as [|k IH]; intros n; cbn; [reflexivity|].
  rewrite str_all_app, IH. cbn. rewrite (proj1 (digit_char_spec (n mod 10) ltac:(apply N.mod_lt; lia))). reflexivity.
Qed.

Lemma digits_fixed_length : forall k n, String.length (digits_fixed k n) = k.
Proof.
  induction k as [|k IH]; intros n; cbn; [reflexivity|]. rewrite str_length_app, IH. cbn. lia.
Qed.

Lemma digits_val_acc_app : forall a b acc,
  digits_val_acc acc (a ++ b)%string = digits_val_acc (digits_val_acc acc a) b.
Proof. induction a as [|c a IH]; intros b acc; cbn; [reflexivity|]. apply IH. Qed.

Lemma pow10_S : forall k, pow10 (S k) = (10 * pow10 k)%N.
Proof. intros k. unfold pow10. rewrite Nat2N.inj_succ, N.pow_succ_r'. reflexivity. Qed.

Lemma pow10_pos : forall k, (0 < pow10 k)%N.
Proof. intros k. unfold pow10. assert (10 ^ N.of_nat k <> 0)%N by (apply N.pow_nonzero; lia). lia. Qed.

Lemma digits_val_fixed : forall k n acc,
  digits_val_acc acc (digits_fixed k n) = (acc * pow10 k + n mod pow10 k)%N.
Proof.
  induction k as [|k IH]; intros n acc; cbn [digits_fixed].
  - cbn [digits_val_acc]. change (pow10 0) with 1%N. rewrite N.mod_1_r. lia.
  - rewrite digits_val_acc_app, IH. cbn [digits_val_acc].
    rewrite (proj2 (digit_char_spec (n mod 10) ltac:(apply N.mod_lt; lia))).
    rewrite pow10_S. rewrite (N.mod_mul_r n 10 (pow10 k)) by (pose proof (pow10_pos k); lia). lia.
Qed.

Lemma num_digits_fuel_spec : forall f n, (n < 2 ^ N.of_nat f)%N ->
  (1 <= num_digits_fuel f n)%nat /\ (n < pow10 (num_digits_fuel f n))%N.
Proof.
  induction f as [|f IH]; intros n H; cbn [num_digits_fuel].
  - cbn in H. split; [lia|]. change (pow10 1) with 10%N. lia.
  - destruct (n <? 10)%N eqn:E.
    + apply N.ltb_lt in E. split; [lia|]. change (pow10 1) with 10%N. exact E.
    + apply N.ltb_ge in E.
      assert (Hd : (n / 10 < 2 ^ N.of_nat f)%N).
      { rewrite Nat2N.inj_succ, N.pow_succ_r' in H. apply N.div_lt_upper_bound; lia. }
      destruct (IH _ Hd) as [H1 H2]. split; [lia|]. rewrite pow10_S.
      pose proof (N.div_mod' n 10). pose proof (N.mod_lt n 10 ltac:(lia)). lia.
Qed.

Lemma size_nat_bound : forall n, (n < 2 ^ N.of_nat (N.size_nat n))%N.
Proof.
  intros n. destruct n as [|p]; [cbn; lia|]. cbn [N.size_nat].
  pose proof (Pos.size_gt p) as H. 
  assert (Hs : N.of_nat (Pos.size_nat p) = N.pos (Pos.size p)).
  { clear H. induction p as [p IH|p IH|]; cbn [Pos.size_nat Pos.size]; [| |reflexivity].
    - rewrite Nat2N.inj_succ, IH. reflexivity.
    - rewrite Nat2N.inj_succ, IH. reflexivity. }
  rewrite Hs. change (2 ^ N.pos (Pos.size p))%N with (N.pos (2 ^ Pos.size p)). exact H.
Qed.

Lemma num_digits_spec : forall n, (1 <= num_digits n)%nat /\ (n < pow10 (num_digits n))%N.
Proof. intros n. apply num_digits_fuel_spec, size_nat_bound. Qed.

Lemma N_to_string_val : forall n acc,
  digits_val_acc acc (N_to_string n) = (acc * pow10 (num_digits n) + n)%N.
Proof.
  intros n acc. unfold N_to_string. rewrite digits_val_fixed.
  rewrite N.mod_small by apply num_digits_spec. reflexivity.
Qed.

Lemma N_to_string_digits : forall n, str_all is_digit (N_to_string n) = true.
Proof. intros n. apply digits_fixed_all. Qed.

Lemma N_to_string_nonempty : forall n, is_empty (N_to_string n) = false.
Proof.
  intros n. pose proof (digits_fixed_length (num_digits n) n) as H. unfold N_to_string.
  destruct (digits_fixed (num_digits n) n); [|reflexivity].
  cbn in H. pose proof (proj1 (num_digits_spec n)). lia.
Qed.

(** ** Number texts *)

Lemma scan_shape : forall v sg ip pt fp, num_shape v sg ip pt fp -> scan_number v = (v, ""%string).
Proof.
  intros v sg ip pt fp [Ev Hsg Hip Hfp Hpt]. unfold scan_number.
  set (body := (ip ++ pt ++ fp)%string) in *.
  assert (Hs : match v with String "-" t => ("-"%string, t) | String "+" t => ("+"%string, t)
               | _ => (""%string, v) end = (sg, body)).
  { destruct Hsg as [-> | [-> | ->]]; cbn [String.append] in Ev; subst v; try reflexivity.
    assert (Hb : body = ""%string \/ exists c t, body = String c t /\ (c <> "-" /\ c <> "+")%char).
    { unfold body. destruct ip as [|c ip]; cbn [String.append].
      - destruct Hpt as [-> | [-> ->]]; [|now left].
        right. eexists _, _. split; [reflexivity|]. split; discriminate.
      - right. eexists _, _. split; [reflexivity|]. cbn in Hip. apply andb_prop in Hip as [Hc _].
        destruct (digit_not_sign c Hc) as (H1 & H2 & _). split; assumption. }
    destruct Hb as [-> | (c & t & -> & H1 & H2)]; [reflexivity|].
    all_chars c; try reflexivity; congruence. }
  rewrite Hs.
  assert (Hspan : span is_digit body = (ip, (pt ++ fp)%string)).
  { unfold body. apply span_ext_all; [exact Hip|].
    intros c t Ec. destruct Hpt as [-> | [-> ->]]; cbn in Ec; [|discriminate Ec].
    injection Ec as <- _. reflexivity. }
  rewrite Hspan. destruct Hpt as [-> | [-> ->]]; cbn [String.append].
  - rewrite (span_full is_digit fp Hfp). rewrite Ev. reflexivity.
  - cbn [span]. rewrite Ev. unfold body. reflexivity.
Qed.

Lemma scan_shape_ext : forall v sg ip pt fp x, num_shape v sg ip pt fp ->
  (forall c t, x = String c t -> num_stop c = true) -> scan_number (v ++ x) = (v, x).
Proof.
  intros v sg ip pt fp x H Hx. rewrite (scan_number_ext v x Hx), (scan_shape _ _ _ _ _ H). reflexivity.
Qed.

Section Format.
Context {A : arith}.

Lemma fmt_shape : forall d (x : num A) neg m, n_dec (S d) x = DFin neg m ->
  num_shape (fmt (S d) x) (if neg then "-" else "")%string (N_to_string (m / pow10 (S d)))
    "."%string (digits_fixed (S d) (m mod pow10 (S d))).
Proof.
  intros d x neg m H. unfold fmt. rewrite H. unfold dec_string. constructor.
  - destruct neg; reflexivity.
  - destruct neg; auto.
  - apply N_to_string_digits.
  - apply digits_fixed_all.
  - now left.
Qed.

Lemma fmt_float : forall d (x : num A) neg m, n_dec (S d) x = DFin neg m ->
  py_float (A:=A) (fmt (S d) x) = Some (n_of_dec neg m (S d)).
Proof.
  intros d x neg m H. rewrite (py_float_shape _ _ _ _ _ (fmt_shape d x neg m H)).
  rewrite N_to_string_nonempty. cbn [andb negb].
  assert (Hv : digits_val (N_to_string (m / pow10 (S d)) ++ digits_fixed (S d) (m mod pow10 (S d))) = m).
  { unfold digits_val. rewrite digits_val_acc_app, N_to_string_val, digits_val_fixed.
    rewrite N.mod_mod by (pose proof (pow10_pos (S d)); lia).
    pose proof (N.div_mod' m (pow10 (S d))). lia. }
  rewrite Hv, digits_fixed_length. destruct neg; reflexivity.
Qed.

Lemma word_float : forall k (x : num A) neg m, n_dec (decimals k) x = DFin neg m ->
  py_float (A:=A) (fmt (decimals k) x) = Some (py_round (decimals k) x) /\
  is_empty (fmt (decimals k) x) = false /\
  exists sg ip pt fp, num_shape (fmt (decimals k) x) sg ip pt fp.
Proof.
  intros k x neg m H. unfold py_round. rewrite H.
  assert (Hd : exists d, decimals k = S d) by (destruct k; eexists; reflexivity).
  destruct Hd as [d Hd]. rewrite Hd in *.
  split; [apply fmt_float, H|]. split.
  - pose proof (fmt_float d x neg m H) as Hf. destruct (fmt (S d) x); [discriminate Hf|reflexivity].
  - eexists _, _, _, _. apply (fmt_shape d x neg m H).
Qed.

(** ** Words of a rewritten line *)

Definition word_of (a : args A) (k : letter) : list token :=
  match get_arg k a with
  | None => []
  | Some x => [(letter_code k, fmt (decimals k) x)]
  end.

Lemma digit_lower : forall c, is_digit c = true -> lower_char c = c.
Proof. intros c H. all_chars c; try discriminate H; reflexivity. Qed.

Lemma digits_lower_all : forall s, str_all is_digit s = true -> lower s = s.
Proof.
  induction s as [|c s IH]; intros H; cbn in *; [reflexivity|].
  apply andb_prop in H as [H1 H2]. unfold lower in *. cbn. rewrite (digit_lower c H1). f_equal. apply IH, H2.
Qed.

Lemma shape_lower : forall v sg ip pt fp, num_shape v sg ip pt fp -> lower v = v.
Proof.
  intros v sg ip pt fp [Ev Hsg Hip Hfp Hpt]. rewrite Ev, !lower_app.
  rewrite (digits_lower_all ip Hip), (digits_lower_all fp Hfp).
  destruct Hsg as [-> | [-> | ->]]; destruct Hpt as [-> | [-> ->]]; reflexivity.
Qed.

Definition tail_text (a : args A) (ks : list letter) : string := String.concat "" (map (word_text a) ks).

Lemma concat_cons : forall x l, String.concat "" (x :: l) = (x ++ String.concat "" l)%string.
Proof. intros x [|y l]; cbn; [now rewrite str_app_nil|reflexivity]. Qed.

Lemma tail_cons : forall a k ks, tail_text a (k :: ks) = (word_text a k ++ tail_text a ks)%string.
Proof. intros a k ks. unfold tail_text. cbn [map]. apply concat_cons. Qed.

Lemma tail_stop : forall a ks c t, lower (tail_text a ks) = String c t -> num_stop c = true.
Proof.
  intros a. induction ks as [|k ks IH]; intros c t H; [discriminate H|].
  rewrite tail_cons in H. unfold word_text in H. destruct (get_arg k a) as [x|].
  - rewrite lower_app in H. cbn in H. injection H as <- _. reflexivity.
  - apply (IH c t H).
Qed.

Lemma findall_letter : forall st d v sg ip pt fp x, is_word_letter d = true ->
  num_shape v sg ip pt fp -> (forall c t, x = String c t -> num_stop c = true) ->
  findall_from st (String d (v ++ x)) = (String d "", v) :: findall_from false x.
Proof.
  intros st d v sg ip pt fp x Hd Hv Hx. rewrite findall_from_step.
  assert (Hm : match_at st (String d (v ++ x)) = Some ((String d "", v), x)).
  { unfold match_at. rewrite (scan_shape_ext _ _ _ _ _ _ Hv Hx).
    clear - Hd. all_chars d; try discriminate Hd; reflexivity. }
  rewrite Hm. reflexivity.
Qed.

Lemma findall_tail : forall a ks, finite_args a ->
  findall_from false (lower (tail_text a ks)) = flat_map (word_of a) ks.
Proof.
  intros a ks Hf. induction ks as [|k ks IH]; [reflexivity|].
  rewrite tail_cons. cbn [flat_map]. unfold word_of at 1. unfold word_text.
  destruct (get_arg k a) as [x|] eqn:Ek; [|exact IH].
  destruct (Hf k x Ek) as (neg & m & Hd).
  destruct (word_float k x neg m Hd) as (_ & _ & sg & ip & pt & fp & Hs).
  fold (decimals k). rewrite !lower_app.
  change (lower " ") with " "%string. rewrite (shape_lower _ _ _ _ _ Hs).
  assert (Hl : exists d, lower (letter_upper k) = String d "" /\ letter_code k = String d "" /\
    is_word_letter d = true) by (destruct k; eexists; repeat split; reflexivity).
  destruct Hl as (d & Hl1 & Hl2 & Hl3). rewrite Hl1, Hl2. cbn [String.append].
  rewrite findall_from_step. cbn [match_at]. change (Ascii.eqb " " "(") with false.
  change (Ascii.eqb " " ";") with false. change (Ascii.eqb " " "/" || Ascii.eqb " " "*") with false.
  change (is_word_letter " ") with false. cbv iota.
  rewrite (findall_letter _ _ _ _ _ _ _ _ Hl3 Hs (tail_stop a ks)). rewrite IH. reflexivity.
Qed.

(** "G" followed by a number text *)
Definition g_command (c : string) : Prop :=
  exists v sg ip pt fp, c = String "G" v /\ num_shape v sg ip pt fp.

Lemma read_g_command : forall s c, command_name s = Some c -> first_is "G" c = true -> g_command c.
Proof.
  intros s c H Hg. destruct (command_name_some s c H) as (d & v & t & Hw & Hd & ->).
  pose proof (words_shape s) as Hs. rewrite Hw in Hs. inversion Hs as [|? ? Hv _]; subst.
  destruct Hv as [Hv|(d' & x & _ & _ & Hv)]; [discriminate Hv|]. cbn in Hv. subst v.
  cbn in Hg. apply Ascii.eqb_eq in Hg.
  destruct (scan_number_shape x) as (sg & ip & pt & fp & Hsh).
  exists (fst (scan_number x)), sg, ip, pt, fp. split; [congruence|exact Hsh].
Qed.

Lemma words_unsplit : forall v sg ip pt fp a, num_shape v sg ip pt fp -> finite_args a ->
  words (unsplit_text (String "G" v) a) = ("g"%string, v) :: flat_map (word_of a) all_letters.
Proof.
  intros v sg ip pt fp a Hv Hf. unfold words, unsplit_text.
  change (String.concat "" (map (word_text a) all_letters)) with (tail_text a all_letters).
  rewrite findall_is_from.
  change (String "G" v ++ tail_text a all_letters)%string with (String "G" (v ++ tail_text a all_letters)).
  change (lower (String "G" (v ++ tail_text a all_letters)))
    with (String "g" (lower (v ++ tail_text a all_letters))).
  rewrite lower_app, (shape_lower _ _ _ _ _ Hv).
  rewrite (findall_letter true "g" v sg ip pt fp _ eq_refl Hv (tail_stop a all_letters)).
  rewrite findall_tail by exact Hf. reflexivity.
Qed.

(** ** Reading the words back *)

Definition rounded_args (a : args A) : args A :=
  Args (option_map (py_round 3) (a_x a)) (option_map (py_round 3) (a_y a))
       (option_map (py_round 3) (a_z a)) (option_map (py_round 5) (a_e a))
       (option_map (py_round 3) (a_f a)) (option_map (py_round 3) (a_i a))
       (option_map (py_round 3) (a_j a)).

Lemma letter_of_code_letter : forall k, letter_of_code (letter_code k) = Some k.
Proof. intros []; reflexivity. Qed.

Lemma parse_tail : forall a ks (l : line A), finite_args a ->
  foldM (parse_word false) (flat_map (word_of a) ks) l =
  Ok (set_args (fold_left (fun b k => match get_arg k a with
                                      | Some x => put_arg k (Some (py_round (decimals k) x)) b
                                      | None => b end) ks (largs l)) l).
Proof.
  intros a ks l Hf. revert l. induction ks as [|k ks IH]; intros l; cbn [flat_map fold_left].
  - cbn. destruct l; reflexivity.
  - unfold word_of at 1. destruct (get_arg k a) as [x|] eqn:Ek.
    + destruct (Hf k x Ek) as (neg & m & Hd).
      destruct (word_float k x neg m Hd) as (H1 & H2 & _).
      cbn [app foldM]. unfold parse_word at 1. rewrite letter_of_code_letter, H2, H1. cbn [bind].
      rewrite IH. f_equal.
    + cbn [app]. apply IH.
Qed.

Lemma unsplit_reads : forall s c (a : args A) (m : mstate A), command_name s = Some c ->
  first_is "G" c = true -> c <> "G20"%string -> m_imperial m = false -> finite_args a ->
  exists m' l', motion_step m (new_line (unsplit_text c a)) = Ok (m', l') /\
    command l' = Some c /\ is_move l' = str_mem c move_gcodes /\ largs l' = rounded_args a.
Proof.
  intros s c a m Hc Hg H20 Hi Hf.
  destruct (read_g_command s c Hc Hg) as (v & sg & ip & pt & fp & -> & Hv).
  rewrite motion_step_rest, split_new, (words_unsplit _ _ _ _ _ _ Hv Hf).
  cbn [read_words]. change (String.eqb "g" "" && String.eqb v "") with false. cbv iota.
  change (upper "g" ++ v)%string with (String "G" v).
  unfold motion_rest. cbn [command set_command is_move cmd_in].
  set (mv := str_mem (String "G" v) move_gcodes).
  assert (Hmodes : exists s1, update_modes (String "G" v) mv m = Ok s1 /\ m_imperial s1 = false).
  { unfold update_modes. destruct mv; [eauto|].
    apply String.eqb_neq in H20. rewrite H20.
    repeat match goal with |- context [if String.eqb (String "G" v) ?x then _ else _] =>
      destruct (String.eqb (String "G" v) x); [eexists; split; [reflexivity|first [reflexivity|exact Hi]]|] end.
    eexists; split; [reflexivity|exact Hi]. }
  destruct Hmodes as (s1 & -> & Hs1). cbn [bind]. rewrite Hs1.
  unfold parse_coordinates. cbn [command set_command first_is].
  change (Ascii.eqb "G" "G") with true. cbv iota.
  change (("g"%string, v) :: flat_map (word_of a) all_letters)
    with ([("g"%string, v)] ++ flat_map (word_of a) all_letters).
  rewrite foldM_app. cbn [foldM]. unfold parse_word at 1. change (letter_of_code "g") with (@None letter).
  cbn [bind]. rewrite parse_tail by exact Hf. cbn [bind].
  match goal with |- context [update_extrusion ?l ?s] => destruct (update_extrusion l s) as [ext s3] end.
  eexists _, _. split; [reflexivity|]. split; [reflexivity|]. split; [reflexivity|].
  cbn [set_notes set_args largs set_command new_line].
  unfold rounded_args, all_letters, no_args. cbn [fold_left get_arg decimals].
  destruct (a_x a), (a_y a), (a_z a), (a_e a), (a_f a), (a_i a), (a_j a); reflexivity.
Qed.

Lemma unsplit_rounds : forall s c (a : args A) (m : mstate A), command_name s = Some c ->
  first_is "G" c = true -> c <> "G20"%string -> m_imperial m = false -> finite_args a ->
  exists m' l', motion_step m (new_line (unsplit_text c a)) = Ok (m', l') /\
    command l' = Some c /\
    forall k, get_arg k (largs l') = option_map (py_round (decimals k)) (get_arg k a).
Proof.
  intros s c a m H1 H2 H3 H4 H5.
  destruct (unsplit_reads s c a m H1 H2 H3 H4 H5) as (m' & l' & G1 & G2 & _ & G4).
  exists m', l'. split; [exact G1|]. split; [exact G2|]. intros k. rewrite G4. destruct k; reflexivity.
Qed.

Lemma get_rounded : forall k a, get_arg k (rounded_args a) = option_map (py_round (decimals k)) (get_arg k a).
Proof. intros [] a; reflexivity. Qed.

(** C23: nothing else survives *)
Lemma unsplit_words : forall s c (a : args A), command_name s = Some c -> first_is "G" c = true ->
  finite_args a ->
  forall w, In w (words (unsplit_text c a)) ->
    In (fst w) ["g"; "x"; "y"; "z"; "e"; "f"; "i"; "j"]%string.
Proof.
  intros s c a Hc Hg Hf w Hin.
  destruct (read_g_command s c Hc Hg) as (v & sg & ip & pt & fp & -> & Hv).
  rewrite (words_unsplit _ _ _ _ _ _ Hv Hf) in Hin. destruct Hin as [<-|Hin]; [now left|].
  apply in_flat_map in Hin as (k & _ & Hin). unfold word_of in Hin.
  destruct (get_arg k a); [|destruct Hin]. destruct Hin as [<-|[]].
  destruct k; cbn; auto 12.
Qed.

Section ExactFormat.
Variable E : exact A.
Notation val := (val E).
Local Open Scope R_scope.

Lemma exact_finite : forall a : args A, finite_args a.
Proof. intros a k x _. destruct (val_dec A E (decimals k) x) as (neg & m & H & _). eauto. Qed.

Lemma py_round_err : forall d x, Rabs (val (py_round d x) - val x) <= / 2 / 10 ^ d.
Proof.
  intros d x. destruct (val_dec A E d x) as (neg & m & H & Hn & He). unfold py_round. rewrite H.
  rewrite (val_of_dec A E).
  assert (Hp : 0 < 10 ^ d) by (apply pow_lt; lra).
  assert (Hx : val x = (if neg then -1 else 1) * Rabs (val x)).
  { destruct neg.
    - assert (val x < 0) by (apply Hn; reflexivity). rewrite Rabs_left by assumption. lra.
    - assert (~ val x < 0) by (intros Hl; apply Hn in Hl; discriminate Hl).
      rewrite Rabs_right by lra. lra. }
  assert (Hd : (if neg then -1 else 1) * (IZR (Z.of_N m) / 10 ^ d) - val x =
    (if neg then -1 else 1) * ((IZR (Z.of_N m) - Rabs (val x) * 10 ^ d) / 10 ^ d)).
  { rewrite Hx at 1. field. lra. }
  rewrite Hd, Rabs_mult.
  assert (Hs : Rabs (if neg then -1 else 1) = 1).
  { destruct neg; [rewrite Rabs_left by lra; lra|apply Rabs_R1]. }
  rewrite Hs, Rmult_1_l. unfold Rdiv. rewrite Rabs_mult.
  rewrite (Rabs_right (/ 10 ^ d)) by (apply Rle_ge, Rlt_le, Rinv_0_lt_compat, Hp).
  apply Rmult_le_compat_r; [apply Rlt_le, Rinv_0_lt_compat, Hp|]. exact He.
Qed.

End ExactFormat.
End Format.

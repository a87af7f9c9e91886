(** * P_FloatWf: well-formed programs load with doubles, whatever their size *)
From Coq Require Import List Ascii String ZArith NArith Bool Lia Reals Lra Floats.SpecFloat.
From Flocq Require Import Core Round Relative BinarySingleNaN.
From Verif Require Import PyBase Arith ArithR ArithB64 Gcoder SpecText SpecLoad SpecBinary64.
From Verif Require Import P_Load P_Text P_Report P_Wf P_Float P_FloatTempcal.
Import ListNotations.
Local Open Scope list_scope.
Local Open Scope R_scope.

Local Instance Hprec : FLX.Prec_gt_0 prec := eq_refl _.
Local Instance Hmax : Prec_lt_emax prec emax := eq_refl _.

(** a double that is neither NaN nor has a minus sign: zero, positive or infinite *)
Definition upward (x : num B64) : Prop :=
  exists b : binary_float prec emax, x = B2SF b /\ is_nan b = false /\ Bsign b = false.

Lemma upward_SF : forall x, valid_binary prec emax x = true -> sign_SF x = false -> is_nan_SF x = false -> upward x.
Proof.
  intros x V S N. exists (SF2B x V). rewrite B2SF_SF2B, Bsign_SF2B, is_nan_SF2B. auto.
Qed.

Lemma upward_of_dec : forall m k, upward (f_of_dec false m k).
Proof.
  intros m k. destruct m as [|p].
  { apply upward_SF; destruct k; reflexivity. }
  assert (Ho : forall x b, valid_binary prec emax x = true ->
    (if b : bool then SF2R radix2 x = SF2R radix2 x /\ is_finite_SF x = true /\ sign_SF x = false
     else x = binary_overflow prec emax mode_NE false) -> upward x).
  { intros x b V H. destruct b.
    - destruct H as (_ & F & S). apply upward_SF; [exact V|exact S|]. destruct x; try discriminate F; reflexivity.
    - subst x. apply upward_SF; [exact V|reflexivity|reflexivity]. }
  destruct k as [|k].
  - cbn [f_of_dec f_of_Z].
    pose proof (binary_round_correct prec emax Hprec Hmax mode_NE false p 0) as [V K]. cbv zeta in K.
    assert (Eq : SpecFloat.binary_normalize prec emax (Z.pos p) 0 false = binary_round prec emax mode_NE false p 0)
      by (cbn; apply binary_round_equiv).
    rewrite <- Eq in V, K. 
    destruct (Rlt_bool _ _) in K; [apply (Ho _ true V); destruct K as (_ & K); auto|apply (Ho _ false V); exact K].
  - assert (Hp : exists q, (10 ^ N.of_nat (S k))%N = Npos q).
    { destruct (10 ^ N.of_nat (S k))%N as [|q] eqn:Eq; [|eauto].
      exfalso. apply (N.pow_nonzero 10 (N.of_nat (S k))); [discriminate|exact Eq]. }
    destruct Hp as (q & Eq). unfold f_of_dec. rewrite Eq.
    pose proof (Bdiv_correct_aux prec emax Hprec Hmax mode_NE false p 0 false q 0) as K. cbv zeta in K.
    assert (Ez : SFdiv prec emax (S754_finite false p 0) (S754_finite false q 0) =
      (let '(mz, ez, lz) := SFdiv_core_binary prec emax (Zpos p) 0 (Zpos q) 0 in
       binary_round_aux prec emax mode_NE (xorb false false) mz ez lz)).
    { cbn [SFdiv]. destruct (SFdiv_core_binary prec emax (Z.pos p) 0 (Z.pos q) 0) as [[mz ez] lz]. apply binary_round_aux_equiv. }
    rewrite <- Ez in K. destruct K as [V K]. 
    destruct (Rlt_bool _ _) in K; [apply (Ho _ true V); destruct K as (_ & K); auto|apply (Ho _ false V); exact K].
Qed.

Lemma upward_lit : forall m k, upward (lit (A:=B64) m k).
Proof. intros m k. apply upward_of_dec. Qed.

(** products and quotients of positive literals and such numbers *)
Lemma B_overflow : forall b : binary_float prec emax, B2SF b = binary_overflow prec emax mode_NE false ->
  is_nan b = false /\ Bsign b = false.
Proof. intros b H. destruct b; cbn in H |- *; try discriminate H; injection H as ->; auto. Qed.

Lemma upward_mul : forall (c x : num B64), upward c -> fin c -> fval c <> 0 -> upward x -> upward (fmul c x).
Proof.
  intros c x (bc & -> & Nc & Sc) Fc Hc (b & -> & N & S). rewrite fmul_equiv.
  exists (Bmult mode_NE bc b). split; [reflexivity|].
  assert (Hf : is_finite bc = true). { destruct Fc as [_ Fc]. rewrite is_finite_SF_B2SF in Fc. exact Fc. }
  assert (Hn : is_nan (Bmult mode_NE bc b) = false).
  { destruct bc as [s|s| |s m e B]; try discriminate Hf.
    - exfalso. apply Hc. reflexivity.
    - destruct b as [s'|s'| |s' m' e' B']; try discriminate N; try reflexivity.
      pose proof (Bmult_correct prec emax Hprec Hmax mode_NE (B754_finite s m e B) (B754_finite s' m' e' B')) as K.
      destruct (Rlt_bool _ _) in K.
      + destruct K as (_ & K & _). cbn [is_finite andb] in K. destruct (Bmult _ _ _); try discriminate K; reflexivity.
      + destruct (Bmult _ _ _); cbn in K; try discriminate K; reflexivity. }
  split; [exact Hn|]. pose proof (Bmult_correct prec emax Hprec Hmax mode_NE bc b) as K.
  destruct (Rlt_bool _ _) in K.
  - destruct K as (_ & _ & K). rewrite (K Hn), Sc, S. reflexivity.
  - rewrite Sc, S in K. apply (B_overflow _ K).
Qed.

Lemma upward_div : forall (c x : num B64), upward c -> fin c -> fval c <> 0 -> upward x -> upward (fdiv x c).
Proof.
  intros c x (bc & -> & Nc & Sc) Fc Hc (b & -> & N & S). rewrite fdiv_equiv.
  exists (Bdiv mode_NE b bc). split; [reflexivity|].
  assert (Hf : is_finite bc = true). { destruct Fc as [_ Fc]. rewrite is_finite_SF_B2SF in Fc. exact Fc. }
  assert (Hz : B2R bc <> 0). { unfold fval in Hc. rewrite SF2R_B2SF in Hc. exact Hc. }
  pose proof (Bdiv_correct prec emax Hprec Hmax mode_NE b bc Hz) as K.
  assert (Hn : is_nan (Bdiv mode_NE b bc) = false).
  { destruct (is_finite b) eqn:Fb.
    - destruct (Rlt_bool _ _) in K.
      + destruct K as (_ & K & _). destruct (Bdiv _ _ _); try discriminate K; reflexivity.
      + destruct (Bdiv _ _ _); cbn in K; try discriminate K; reflexivity.
    - destruct b; try discriminate Fb; try discriminate N. destruct bc; try discriminate Hf; reflexivity. }
  split; [exact Hn|]. destruct (Rlt_bool _ _) in K.
  - destruct K as (_ & _ & K). rewrite (K Hn), Sc, S. reflexivity.
  - rewrite Sc, S in K. apply (B_overflow _ K).
Qed.

Lemma upward_nonneg : forall b : binary_float prec emax, Bsign b = false -> 0 <= B2R b.
Proof.
  intros [s|s| |s m e B] H; cbn in H |- *; try lra. subst s. apply F2R_ge_0. cbn. lia.
Qed.

(** two different numbers of this kind do not add up to zero *)
Lemma upward_add : forall x y : num B64, upward x -> upward y -> SFeqb x y = false -> SFeqb (fadd x y) (n0 (A:=B64)) = false.
Proof.
  intros x y (a & -> & Na & Sa) (b & -> & Nb & Sb) H. rewrite fadd_equiv.
  change (n0 (A:=B64)) with (B2SF (B754_zero false : binary_float prec emax)).
  change (Beqb (Bplus mode_NE a b) (B754_zero false) = false).
  destruct (is_finite a) eqn:Fa.
  2:{ destruct a as [s|s| |s m e B]; try discriminate Fa; try discriminate Na. cbn in Sa. subst s.
      destruct b as [s|s| |s m e B]; try discriminate Nb; try reflexivity. cbn in Sb. subst s. reflexivity. }
  destruct (is_finite b) eqn:Fb.
  2:{ destruct b as [s|s| |s m e B]; try discriminate Fb; try discriminate Nb. cbn in Sb. subst s.
      destruct a as [s|s| |s m e B]; try discriminate Fa; reflexivity. }
  pose proof (upward_nonneg _ Sa) as Pa. pose proof (upward_nonneg _ Sb) as Pb.
  assert (Hne : B2R a <> B2R b).
  { intros E. change (Beqb a b = false) in H. rewrite (Beqb_correct _ _ a b Fa Fb) in H.
    rewrite (Req_bool_true _ _ E) in H. discriminate H. }
  pose proof (Bplus_correct prec emax Hprec Hmax mode_NE a b Fa Fb) as K.
  destruct (Rlt_bool _ _) in K.
  - destruct K as (K & Fk & _). rewrite (Beqb_correct _ _ _ (B754_zero false) Fk eq_refl). apply Req_bool_false. rewrite K. cbn [B2R].
    change (round radix2 (SpecFloat.fexp prec emax) (round_mode mode_NE)) with rnd.
    assert (Hr : forall c : binary_float prec emax, rnd (B2R c) = B2R c).
    { intros c. apply round_generic; [apply valid_rnd_N|apply generic_format_B2R]. }
    assert (Hm : forall u v, u <= v -> rnd u <= rnd v).
    { intros u v. apply round_le; [apply fexp_correct; reflexivity|apply valid_rnd_N]. }
    pose proof (Hm (B2R a) (B2R a + B2R b) ltac:(lra)) as H1. pose proof (Hm (B2R b) (B2R a + B2R b) ltac:(lra)) as H2.
    rewrite Hr in H1, H2. lra.
  - destruct K as [K _]. rewrite Sa in K. destruct (Bplus mode_NE a b) as [s|s| |s m e B]; cbn in K; try discriminate K. injection K as ->. reflexivity.
Qed.

(** ** Reading *)

Definition feed_up (o : option (num B64)) : Prop := match o with Some f => upward f | None => True end.

Lemma py_float_up : forall s x, py_float (A:=B64) (fst (scan_number s)) = Some x ->
  startswith "-" (fst (scan_number s)) = false -> upward x.
Proof.
  intros s x H Hn. destruct (scan_number_shape s) as (sg & ip & pt & fp & Hs).
  rewrite (py_float_shape _ _ _ _ _ Hs) in H.
  destruct (negb _); [|discriminate H]. injection H as <-.
  assert (Hsg : String.eqb sg "-" = false).
  { destruct Hs as [E Hsg _ _ _]. destruct Hsg as [-> | [-> | ->]]; try reflexivity.
    rewrite E in Hn. cbn [String.append] in Hn. rewrite startswith1 in Hn. discriminate Hn. }
  rewrite Hsg. apply upward_of_dec.
Qed.

Lemma inch_val : fin (lit (A:=B64) 254 1) /\ fval (lit (A:=B64) 254 1) <> 0.
Proof. split; [split; reflexivity|]. unfold fval. vm_compute SF2R. unfold F2R. cbn. lra. Qed.
Lemma minute_val : fin (lit (A:=B64) 60 0) /\ fval (lit (A:=B64) 60 0) <> 0.
Proof. split; [split; reflexivity|]. unfold fval. vm_compute SF2R. unfold F2R. cbn. lra. Qed.

Lemma parse_words_up : forall imp ws (l l' : line B64), Forall tok_shape ws ->
  forallb (fun w => negb (String.eqb (fst w) "f" && startswith "-" (snd w))) ws = true ->
  feed_up (l_f l) -> foldM (parse_word imp) ws l = Ok l' -> feed_up (l_f l').
Proof.
  intros imp. induction ws as [|[c v] ws IH]; intros l l' Hsh Hf Hl H; cbn [foldM] in H.
  { injection H as <-. exact Hl. }
  inversion Hsh as [|? ? Hw Hws]; subst. cbn [forallb fst snd] in Hf. apply andb_prop in Hf as [Hf1 Hf2].
  destruct (parse_word imp l (c, v)) as [l1|e] eqn:E; cbn [bind] in H; [|discriminate H].
  apply (IH l1 l' Hws Hf2); [|exact H]. unfold parse_word in E.
  destruct (letter_of_code c) as [k|] eqn:Ek; [|congruence].
  destruct (is_empty v); [congruence|].
  destruct (py_float (A:=B64) v) as [x|] eqn:Ev; [|discriminate E]. injection E as <-.
  destruct k; try exact Hl. unfold set_arg. cbn.
  assert (Hc : c = "f"%string).
  { unfold letter_of_code in Ek. apply find_some in Ek as [_ Ek]. apply String.eqb_eq in Ek. symmetry. exact Ek. }
  subst c. cbn in Hf1.
  destruct Hw as [Hw|(d & y & H1 & H2 & H3)]; [discriminate Hw|]. cbn in H3. subst v.
  apply negb_true_iff in Hf1. pose proof (py_float_up _ _ Ev Hf1) as Hx.
  destruct imp; [|exact Hx]. destruct inch_val as [I1 I2].
  exact (upward_mul _ _ (upward_lit 254 1) I1 I2 Hx).
Qed.

Lemma motion_up : forall (m m' : mstate B64) s l, feed_ok s = true ->
  motion_step m (new_line s) = Ok (m', l) -> feed_up (l_f l).
Proof.
  intros m m' s l Hf H. rewrite motion_step_rest, split_new in H.
  pose proof (words_shape s) as Hsh. unfold feed_ok in Hf.
  destruct (read_words s (words s)) as [l0 toks] eqn:E.
  assert (Ht : (toks = words s \/ toks = []) /\ l_f l0 = None).
  { unfold read_words in E. destruct (words s) as [|[c v] ws]; injection E as <- <-; split; auto. }
  destruct Ht as [Ht Hl0]. unfold motion_rest in H.
  destruct (command l0) as [c|] eqn:Ec.
  2:{ injection H as _ <-. rewrite Hl0. exact I. }
  destruct (update_modes c (is_move l0) m) as [s1|e]; cbn [bind] in H; [|discriminate H].
  unfold parse_coordinates in H. rewrite Ec in H. destruct (first_is "G" c).
  - destruct (foldM (parse_word (m_imperial s1)) toks l0) as [l1|e] eqn:Ep; cbn [bind] in H; [|discriminate H].
    assert (Hn : feed_up (l_f l1)).
    { destruct Ht as [-> | ->].
      - eapply parse_words_up; [exact Hsh|exact Hf| |exact Ep]. rewrite Hl0. exact I.
      - cbn in Ep. injection Ep as <-. rewrite Hl0. exact I. }
    destruct (update_extrusion _ _). injection H as _ <-. exact Hn.
  - cbn [bind] in H. destruct (update_extrusion _ _). injection H as _ <-.
    change (l_f (set_notes _ l0)) with (l_f l0). rewrite Hl0. exact I.
Qed.

(** ** Timing never divides by zero *)

Lemma move_duration_up : forall (l : line B64) d, feed_up (l_f l) -> upward (d_f d) ->
  exists d', move_duration l d = Ok d' /\ upward (d_f d').
Proof.
  intros l d Hl Hd. unfold move_duration.
  set (f := match l_f l with Some f => n_div f (lit 60 0) | None => d_f d end).
  set (dx := n_sub _ (d_x d)). set (dy := n_sub _ (d_y d)).
  set (lastf := if n_leb _ n0 then n0 else d_f d).
  assert (Hf : upward f).
  { unfold f. destruct (l_f l) as [g|]; [|exact Hd]. destruct minute_val as [I1 I2].
    exact (upward_div _ _ (upward_lit 60 0) I1 I2 Hl). }
  assert (Hlf : upward lastf).
  { unfold lastf. destruct (n_leb _ n0); [apply upward_lit|exact Hd]. }
  set (travel := if n_eqb (n_hypot dx dy) n0 then _ else _).
  clearbody travel lastf f dx dy.
  destruct (n_eqb f lastf) eqn:E1.
  { destruct (n_eqb f n0); cbn [bind]; eexists; split; try reflexivity; exact Hf. }
  match goal with |- context [if ?b then _ else _] => destruct b end; cbn [bind].
  { eexists; split; [reflexivity|exact Hf]. }
  unfold py_div.
  assert (E2 : n_eqb (n_add lastf f) n0 = false).
  { apply (upward_add lastf f Hlf Hf). change (SFeqb f lastf = false) in E1. rewrite <- E1.
    destruct Hf as (bf & -> & _), Hlf as (bl & -> & _).
    change (Beqb bl bf = Beqb bf bl). unfold Beqb, SFeqb.
    pose proof (Bcompare_swap prec emax bl bf) as K. unfold Bcompare in K. rewrite K.
    destruct (SFcompare (B2SF bl) (B2SF bf)) as [[]|]; reflexivity. }
  rewrite E2. cbn [bind]. eexists; split; [reflexivity|exact Hf].
Qed.

Lemma build_up : forall light ts, Forall (fun s => feed_ok s = true) ts ->
  forall (m : mstate B64) ls out e, upward (d_f (ls_d ls)) ->
  foldM (build_step light) (map new_line ts) (m, ls, out) = Err e -> e <> ZeroDivisionError.
Proof.
  intros light ts H. induction H as [|t ts Ht H IH]; intros m ls out e Hd Hf; cbn [map foldM] in Hf.
  { discriminate Hf. }
  unfold build_step at 1 in Hf.
  pose proof (motion_total m t) as Hm.
  destruct (motion_step m (new_line t)) as [[m' l]|e1] eqn:E; cbn [bind] in Hf.
  2:{ destruct Hm as [-> _]. injection Hf as <-. discriminate. }
  pose proof (motion_up _ _ _ _ Ht E) as Hl.
  assert (Hb : match (match command l with Some _ => layer_body l (m_max m') ls | None => Ok ls end) with
    | Ok ls' => upward (d_f (ls_d ls')) | Err e2 => e2 <> ZeroDivisionError end).
  { destruct (command l) as [c|] eqn:Ec; [|exact Hd].
    unfold layer_body. destruct (update_bbox l (m_max m') ls) as [bb bbe].
    unfold update_duration. destruct (cmd_in (command l) linear_move_gcodes).
    - destruct (move_duration_up l (ls_d ls) Hl Hd) as (d' & -> & Hd'). cbn [bind].
      rewrite update_layers_d. exact Hd'.
    - destruct (cmd_is (command l) "G4"); cbn [bind]; [|rewrite update_layers_d; exact Hd].
      pose proof (find_specific_total l) as Hp.
      destruct (find_specific_code l "P") as [[p|]|e2]; cbn [bind].
      + destruct (truthy p); cbn [bind]; rewrite update_layers_d; exact Hd.
      + rewrite update_layers_d; exact Hd.
      + destruct Hp as [-> _]. discriminate. }
  destruct (match command l with Some _ => layer_body l (m_max m') ls | None => Ok ls end) as [ls'|e2];
    cbn [bind] in Hf.
  - eapply IH; [|exact Hf]. exact Hb.
  - injection Hf as <-. exact Hb.
Qed.

Lemma load_no_zero_div_B64 : forall light home data,
  Forall (fun s => feed_ok s = true) (program_text data) ->
  load_gen (A:=B64) light home data <> Err ZeroDivisionError.
Proof.
  intros light home data H E. unfold load_gen in E. destruct data as [|s data]; [discriminate E|].
  rewrite clean_lines_text in E.
  destruct (foldM _ _ _) as [[[m ls] out]|e] eqn:Ef; cbn [bind] in E; [discriminate E|].
  injection E as ->. eapply build_up in Ef; [apply Ef; reflexivity|exact H|]. apply upward_lit.
Qed.

Lemma load_well_formed_B64 : forall light home data,
  Forall (fun s => line_ok s = true /\ feed_ok s = true) (program_text data) ->
  exists g, load_gen (A:=B64) light home data = Ok g.
Proof.
  intros light home data H. destruct (load_gen light home data) as [g|e] eqn:E; [eauto|].
  exfalso. pose proof (load_errors _ _ _ _ E) as [-> | ->].
  - apply load_value_error in E as (s & Hin & Hs). rewrite Forall_forall in H.
    destruct (H s Hin) as [H1 _]. congruence.
  - eapply load_no_zero_div_B64; [|exact E]. eapply Forall_impl; [|exact H]. intros s Hs. apply Hs.
Qed.

(** * P_FloatText: reading and writing numbers as doubles *)
From Coq Require Import List Ascii String ZArith NArith Bool Lia Reals Lra.
From Flocq Require Import Core.
From Verif Require Import PyBase Arith ArithR ArithB64 Gcoder Filters SpecText SpecLoad SpecMachine SpecEqual SpecFilter SpecBinary64.
From Verif Require Import P_Load P_Text P_Report P_Wf P_Machine P_Format P_Filter P_FilterMotion P_Float.
Import ListNotations.
Local Open Scope list_scope.
Local Open Scope R_scope.

(** ** Bounds *)

Lemma ulp1_small : ulp1 <= / 9000000000000000.
Proof. unfold ulp1. cbn [bpow]. apply Rinv_le_contravar; [lra|]. apply IZR_le. vm_compute. discriminate. Qed.
Lemma ulp1_pos : 0 < ulp1.
Proof. apply bpow_gt_0. Qed.
Lemma tiny_small : tiny <= / 10 ^ 20.
Proof.
  apply Rle_trans with (bpow radix2 (-100)); [apply bpow_le; lia|]. cbn [bpow].
  replace (10 ^ 20) with (IZR (10 ^ 20)) by (rewrite (pow_IZR 10 20); reflexivity).
  apply Rinv_le_contravar; [apply IZR_lt; reflexivity|]. apply IZR_le. vm_compute. discriminate.
Qed.
Lemma tiny_small' : tiny <= / 100000000000000000000.
Proof. pose proof tiny_small as H. cbn [pow] in H. lra. Qed.
Lemma million_big : forall x, Rabs x <= 3000000 -> Rabs x <= big.
Proof.
  intros x H. eapply Rle_trans; [exact H|]. apply Rle_trans with (bpow radix2 22); [|apply bpow_le; lia].
  cbn [bpow]. apply IZR_le. vm_compute. discriminate.
Qed.

(** rounding something of the size of coordinates *)
Lemma rnd_near : forall x, Rabs x <= 3000000 -> Rabs (rnd x - x) <= / 2000000000.
Proof.
  intros x H. pose proof (rnd_err x) as K. pose proof ulp1_small as U. pose proof tiny_small' as T. pose proof ulp1_pos as P.
  eapply Rle_trans; [exact K|]. apply Rle_trans with (/ 9000000000000000 * 3000000 + / 100000000000000000000); [|lra].
  apply Rplus_le_compat; [|exact T]. apply Rmult_le_compat; try lra. apply Rabs_pos.
Qed.
Lemma rnd_nearer : forall x, Rabs x <= 1000000 -> Rabs (rnd x - x) <= / 8000000000.
Proof.
  intros x H. pose proof (rnd_err x) as K. pose proof ulp1_small as U. pose proof tiny_small' as T. pose proof ulp1_pos as P.
  eapply Rle_trans; [exact K|]. apply Rle_trans with (/ 9000000000000000 * 1000000 + / 100000000000000000000); [|lra].
  apply Rplus_le_compat; [|exact T]. apply Rmult_le_compat; try lra. apply Rabs_pos.
Qed.
Lemma rnd_between : forall x, Rabs x <= 2100000 -> Rabs (rnd x - x) <= / 4000000000.
Proof.
  intros x H. pose proof (rnd_err x) as K. pose proof ulp1_small as U. pose proof tiny_small' as T. pose proof ulp1_pos as P.
  eapply Rle_trans; [exact K|]. apply Rle_trans with (/ 9000000000000000 * 2100000 + / 100000000000000000000); [|lra].
  apply Rplus_le_compat; [|exact T]. apply Rmult_le_compat; try lra. apply Rabs_pos.
Qed.
Lemma Rabs_le_both : forall x d, Rabs x <= d -> - d <= x <= d.
Proof. intros x d H. unfold Rabs in H. destruct (Rcase_abs x); lra. Qed.

(** ** Reading *)

Lemma dval_RA : forall neg m k, @n_of_dec RA neg m k = dval neg m k.
Proof. intros neg m k. exact (val_of_dec RA exactR neg m k). Qed.

(** the double [x] is what reading the number [v] gives *)
Definition holds (v : R) (x : num B64) : Prop := Rabs v <= 10 ^ 6 /\ fin x /\ fval x = rnd v.

Definition reads_as (o : option R) (x : option (num B64)) : Prop :=
  match o, x with
  | Some v, Some f => Rabs v <= big -> fin f /\ fval f = rnd v
  | None, None => True
  | _, _ => False
  end.

Lemma py_float_B64 : forall v, reads_as (py_float (A:=RA) v) (py_float (A:=B64) v).
Proof.
  intros v. unfold py_float.
  destruct (match v with String "-" t => (true, t) | String "+" t => (false, t)
            | _ => (false, v) end) as [neg s1].
  destruct (span is_digit s1) as [ip s2].
  destruct (match s2 with String "." t => span is_digit t | _ => (""%string, s2) end) as [fp s3].
  destruct (is_empty s3 && negb (is_empty ip && is_empty fp)); [|exact I].
  cbn [reads_as]. rewrite dval_RA. intros H. apply (f_of_dec_val _ _ _ H).
Qed.

Lemma parsed_args_B64 : forall ws (a b : line B64) k, foldM (parse_word false) ws a = Ok b ->
  match number_of (letter_code k) ws with
  | Some v => reads_as (Some v) (get_arg k (largs b))
  | None => get_arg k (largs b) = get_arg k (largs a)
  end.
Proof.
  induction ws as [|[c v] ws IH]; intros a b k H; cbn [foldM] in H.
  { injection H as <-. reflexivity. }
  destruct (parse_word false a (c, v)) as [a1|e] eqn:E1; cbn [bind] in H; [|discriminate H].
  specialize (IH _ _ k H). cbn [number_of].
  destruct (number_of (letter_code k) ws) as [w|]; [exact IH|]. rewrite IH.
  unfold parse_word in E1.
  destruct (String.eqb c (letter_code k)) eqn:Ec.
  - apply String.eqb_eq in Ec. assert (Hk : letter_of_code c = Some k) by (apply letter_of_code_spec, Ec).
    rewrite Hk in E1. destruct (is_empty v); cbn [andb negb].
    + injection E1 as <-. reflexivity.
    + pose proof (py_float_B64 v) as Hv. destruct (py_float (A:=B64) v) as [y|]; [|discriminate E1].
      injection E1 as <-. cbn [largs set_arg set_args]. rewrite get_put_same.
      destruct (py_float (A:=RA) v); [exact Hv|destruct Hv].
  - cbn [andb]. destruct (letter_of_code c) as [j|] eqn:Hj.
    + assert (Hne : k <> j).
      { intros ->. apply letter_of_code_spec in Hj. subst c. rewrite String.eqb_refl in Ec. discriminate Ec. }
      destruct (is_empty v); [injection E1 as <-; reflexivity|].
      destruct (py_float v); [|discriminate E1]. injection E1 as <-.
      cbn [largs set_arg set_args]. rewrite get_put_other by exact Hne. reflexivity.
    + injection E1 as <-. reflexivity.
Qed.

Definition held (o : option R) (x : option (num B64)) : Prop :=
  match o, x with
  | Some v, Some f => holds v f
  | None, None => True
  | _, _ => False
  end.

Lemma parsed_B64 : forall s c l k, parsed (A:=B64) s c false l -> first_is "G" c = true -> modest s ->
  held (number_of (letter_code k) (words s)) (get_arg k (largs l)).
Proof.
  intros s c l k (_ & _ & _ & _ & H) Hg Hm. rewrite Hg in H. pose proof (parsed_args_B64 _ _ _ k H) as Hp.
  destruct (number_of (letter_code k) (words s)) as [v|] eqn:En.
  - cbn in Hp. pose proof (Hm k v En) as Hv. destruct (get_arg k (largs l)) as [x|]; [|exact Hp].
    split; [exact Hv|]. apply Hp. apply million_big. lra.
  - rewrite Hp. destruct k; exact I.
Qed.

(** ** Writing *)

Lemma fmt_float_as : forall (A B : arith) d (x : num A) neg m, n_dec (S d) x = DFin neg m ->
  py_float (A:=B) (fmt (S d) x) = Some (n_of_dec neg m (S d)).
Proof.
  intros A B d x neg m H. rewrite (py_float_shape _ _ _ _ _ (fmt_shape d x neg m H)).
  rewrite N_to_string_nonempty. cbn [andb negb].
  assert (Hv : digits_val (N_to_string (m / pow10 (S d)) ++ digits_fixed (S d) (m mod pow10 (S d))) = m).
  { unfold digits_val. rewrite digits_val_acc_app, N_to_string_val, digits_val_fixed.
    rewrite N.mod_mod by (pose proof (pow10_pos (S d)); lia).
    pose proof (N.div_mod' m (pow10 (S d))). lia. }
  rewrite Hv, digits_fixed_length. destruct neg; reflexivity.
Qed.

(** the number a double is printed as *)
Definition shown (d : nat) (x : num B64) : R :=
  match n_dec d x with DFin neg m => dval neg m d | _ => 0 end.

Lemma shown_near : forall d x, fin x -> Rabs (shown d x - fval x) <= / 2 / 10 ^ d.
Proof.
  intros d x H. destruct (f_dec_val d x H) as (neg & m & Hd & Hn & Hp & He). unfold shown.
  change (n_dec d x) with (f_dec d x). rewrite Hd. unfold dval.
  assert (H10 : 0 < 10 ^ d) by (apply pow_lt; lra).
  assert (Hz : fval x = (if neg then -1 else 1) * Rabs (fval x)).
  { destruct (Rtotal_order (fval x) 0) as [Hl|[Hl|Hl]].
    - rewrite (Hn Hl), Rabs_left by exact Hl. lra.
    - rewrite Hl, Rabs_R0. ring.
    - rewrite (Hp Hl), Rabs_pos_eq by lra. lra. }
  rewrite Hz at 1.
  replace ((if neg then -1 else 1) * (IZR (Z.of_N m) / 10 ^ d) - (if neg then -1 else 1) * Rabs (fval x))
    with ((if neg then -1 else 1) * ((IZR (Z.of_N m) - Rabs (fval x) * 10 ^ d) / 10 ^ d)) by (field; lra).
  rewrite Rabs_mult. replace (Rabs (if neg then -1 else 1)) with 1 by (destruct neg; [rewrite Rabs_left; lra|rewrite Rabs_R1; reflexivity]).
  rewrite Rmult_1_l. unfold Rdiv. rewrite Rabs_mult, (Rabs_pos_eq (/ 10 ^ d)) by (left; apply Rinv_0_lt_compat; exact H10).
  apply Rmult_le_compat_r; [left; apply Rinv_0_lt_compat; exact H10|exact He].
Qed.

Definition all_fin (a : args B64) : Prop := forall k x, get_arg k a = Some x -> fin x.

Lemma all_fin_finite : forall a, all_fin a -> finite_args a.
Proof.
  intros a H k x Hk. destruct (f_dec_val (decimals k) x (H k x Hk)) as (neg & m & Hd & _). exists neg, m. exact Hd.
Qed.

Lemma float_shown : forall k x, fin x -> py_float (A:=RA) (fmt (A:=B64) (decimals k) x) = Some (shown (decimals k) x).
Proof.
  intros k x H. destruct (f_dec_val (decimals k) x H) as (neg & m & Hd & _). unfold shown.
  change (f_dec (decimals k) x) with (@n_dec B64 (decimals k) x) in Hd. rewrite Hd.
  assert (Hk : exists d, decimals k = S d) by (destruct k; eexists; reflexivity). destruct Hk as [d Hk]. rewrite Hk in *.
  rewrite (fmt_float_as B64 RA d x neg m Hd), dval_RA. reflexivity.
Qed.

Lemma number_word_B64 : forall k j (a : args B64), all_fin a -> number_of (letter_code k) (word_of a j) =
  if letter_eq_dec j k then option_map (shown (decimals k)) (get_arg k a) else None.
Proof.
  intros k j a Ha. unfold word_of. destruct (letter_eq_dec j k) as [->|Hne].
  - destruct (get_arg k a) as [x|] eqn:Ek; [|reflexivity]. cbn [number_of option_map].
    rewrite String.eqb_refl. destruct (all_fin_finite a Ha k x Ek) as (neg & m & Hd).
    destruct (word_float k x neg m Hd) as (_ & H2 & _). rewrite H2. apply (float_shown k x (Ha k x Ek)).
  - destruct (get_arg j a) as [x|]; [|reflexivity]. cbn [number_of].
    destruct (String.eqb (letter_code j) (letter_code k)) eqn:Ee; [|reflexivity].
    apply String.eqb_eq, letter_code_inj in Ee. congruence.
Qed.

Lemma number_unsplit_B64 : forall c k (a : args B64), g_command c -> all_fin a ->
  number_of (letter_code k) (words (unsplit_text c a)) = option_map (shown (decimals k)) (get_arg k a).
Proof.
  intros c k a (v & sg & ip & pt & fp & -> & Hv) Ha.
  rewrite (words_unsplit _ _ _ _ _ _ Hv (all_fin_finite a Ha)).
  cbn [number_of]. unfold all_letters. cbn [flat_map].
  rewrite !number_app, !(number_word_B64 _ _ _ Ha). cbn [number_of].
  assert (Hg : String.eqb "g" (letter_code k) = false) by (destruct k; reflexivity). rewrite Hg. cbn [andb].
  destruct k;
  repeat match goal with |- context [letter_eq_dec ?x ?y] =>
      let H := fresh in destruct (letter_eq_dec x y) as [H|H]; [try discriminate H|try congruence]; clear H end;
  match goal with |- context [option_map ?f (get_arg ?k a)] => destruct (get_arg k a); reflexivity end.
Qed.

Lemma name_unsplit_B64 : forall c (a : args B64), g_command c -> all_fin a -> command_name (unsplit_text c a) = Some c.
Proof.
  intros c a (v & sg & ip & pt & fp & -> & Hv) Ha. unfold command_name.
  rewrite (words_unsplit _ _ _ _ _ _ Hv (all_fin_finite a Ha)). reflexivity.
Qed.

Lemma op_move_B64 : forall c (a : args B64), g_command c -> all_fin a ->
  str_mem c ["G0"; "G1"; "G2"; "G3"]%string = true ->
  exists w e f, op_of (unsplit_text c a) = Move w e f /\
    (forall x, w x = option_map (shown 3) (match x with X => a_x a | Y => a_y a | Z => a_z a end)) /\
    e = option_map (shown 5) (a_e a) /\ f = option_map (shown 3) (a_f a).
Proof.
  intros c a Hg Ha Hm. eexists _, _, _. split.
  - unfold op_of. rewrite (name_unsplit_B64 c a Hg Ha), Hm. reflexivity.
  - split; [|split].
    + intros []; cbv beta; [apply (number_unsplit_B64 c LX a Hg Ha)|apply (number_unsplit_B64 c LY a Hg Ha)|
        apply (number_unsplit_B64 c LZ a Hg Ha)].
    + apply (number_unsplit_B64 c LE a Hg Ha).
    + apply (number_unsplit_B64 c LF a Hg Ha).
Qed.

Lemma op_92_B64 : forall a : args B64, all_fin a ->
  exists w e, op_of (unsplit_text "G92" a) = SetPosition w e /\
    (forall x, w x = option_map (shown 3) (match x with X => a_x a | Y => a_y a | Z => a_z a end)) /\
    e = option_map (shown 5) (a_e a).
Proof.
  intros a Ha. eexists _, _. split.
  - unfold op_of. rewrite (name_unsplit_B64 _ a g_command_92 Ha). reflexivity.
  - split.
    + intros []; cbv beta; [apply (number_unsplit_B64 _ LX a g_command_92 Ha)|apply (number_unsplit_B64 _ LY a g_command_92 Ha)|
        apply (number_unsplit_B64 _ LZ a g_command_92 Ha)].
    + apply (number_unsplit_B64 _ LE a g_command_92 Ha).
Qed.

(** ** Lines read from a program in millimetres *)

Definition freads (s : string) (l : line B64) : Prop :=
  raw l = s /\
  (command l = command_name s \/ (command_name s = None /\ words s = [] /\ command l = Some s)) /\
  (forall c, command_name s = Some c -> first_is "G" c = true ->
     g_command c /\ forall k, held (number_of (letter_code k) (words s)) (get_arg k (largs l))).

Lemma motion_freads : forall (m m' : mstate B64) s l, motion_step m (new_line s) = Ok (m', l) ->
  m_imperial m = false -> op_of s <> Inches -> modest s -> freads s l /\ m_imperial m' = false.
Proof.
  intros m m' s l H Hi Ho Hmo.
  assert (Hi' : m_imperial m' = false).
  { destruct (motion_modes _ _ _ _ H) as (_ & _ & Hm & _). rewrite Hm. unfold mode_inch.
    destruct (op_of s); try assumption; try reflexivity. congruence. }
  split; [|exact Hi']. unfold freads.
  split; [apply (motion_step_keeps_raw _ _ _ _ H)|].
  destruct (command_name s) as [c|] eqn:Hc.
  - destruct (motion_some _ _ _ _ _ Hc H) as (s1 & l1 & ext & H1 & H2 & H3 & ->).
    assert (Hs1 : m_imperial s1 = false).
    { destruct (update_modes_modes _ _ _ _ Hc H1) as (_ & _ & M3 & _). rewrite M3.
      unfold mode_inch. destruct (op_of s); try assumption; try reflexivity. congruence. }
    split.
    + left. destruct H2 as (_ & H2 & _). exact H2.
    + intros c0 Hc0 Hg. injection Hc0 as <-. split; [apply (read_g_command s c Hc Hg)|].
      intros k. cbn [largs set_notes]. rewrite Hs1 in H2. apply (parsed_B64 _ _ _ k H2 Hg Hmo).
  - split; [|discriminate]. destruct (command_name_none s Hc) as [Hw|[t Hw]].
    + right. rewrite motion_step_rest, split_new, Hw in H. cbn [read_words] in H.
      unfold motion_rest in H. cbn [command set_command is_move] in H.
      destruct (update_modes s false m) as [s1|e]; cbn [bind] in H; [|discriminate H].
      destruct (parse_coordinates _ _ _) as [l1|e] eqn:El; cbn [bind] in H; [|discriminate H].
      destruct (update_extrusion _ _) as [ext s3]. injection H as _ <-.
      repeat split; try assumption. cbn [command set_notes].
      unfold parse_coordinates in El. cbn [command set_command] in El.
      destruct (first_is "G" s).
      * destruct (parse_words_fixed _ _ _ _ El) as (_ & E2 & _). exact E2.
      * injection El as <-. reflexivity.
    + left. rewrite (no_command_step m s t Hw) in H. injection H as _ <-. reflexivity.
Qed.

Lemma trace_freads : forall ts ls (m m' : mstate B64), trace m ts ls m' -> m_imperial m = false ->
  Forall (fun s => op_of s <> Inches) ts -> Forall modest ts -> Forall2 freads ts ls.
Proof.
  intros ts ls m m' H. induction H as [m|m s l m1 ts ls m' Hs Ht IH]; intros Hi Hf Hm; constructor;
    inversion Hf; subst; inversion Hm; subst; destruct (motion_freads _ _ _ _ Hs Hi) as [R1 R2]; auto.
Qed.

Lemma load_freads : forall home data (g : gcode B64), load_gen false home data = Ok g ->
  Forall (fun s => op_of s <> Inches) (program_text data) -> Forall modest (program_text data) ->
  Forall2 freads (program_text data) (all_lines g).
Proof.
  intros home data g H Hf Hm. rewrite (load_all_lines _ _ _ _ H).
  apply load_trace in H as (ls & Ht & Hl). rewrite (Hl eq_refl). apply (trace_freads _ _ _ _ Ht); [|exact Hf|exact Hm].
  destruct home as [[hx hy] hz]. reflexivity.
Qed.

Lemma freads_command : forall s l c, freads s l -> words c <> [] ->
  is_command c l = match command_name s with Some d => String.eqb d c | None => false end.
Proof.
  intros s l c (_ & [H|(H1 & H2 & H3)] & _) Hw; unfold is_command.
  - rewrite H. reflexivity.
  - rewrite H1, H3. apply String.eqb_neq. congruence.
Qed.

Lemma freads_motion : forall s l, freads s l ->
  is_motion l = match command_name s with
                | Some d => str_mem d ["G0"; "G1"; "G2"; "G3"]%string | None => false end.
Proof.
  intros s l (_ & [H|(H1 & H2 & H3)] & _); unfold is_motion.
  - rewrite H. reflexivity.
  - rewrite H1, H3. destruct (str_mem s ["G0"; "G1"; "G2"; "G3"]%string) eqn:Em; [|reflexivity].
    apply str_mem_in in Em. cbn [In] in Em.
    repeat (destruct Em as [<-|Em]; [discriminate H2|]). destruct Em.
Qed.

Lemma freads_op : forall s l, freads s l ->
  match op_of s with
  | Move w e f => is_motion l = true /\
      held (w X) (l_x l) /\ held (w Y) (l_y l) /\ held (w Z) (l_z l) /\ held e (l_e l) /\ held f (l_f l) /\
      all_fin (largs l) /\
      exists c, command l = Some c /\ g_command c /\ str_mem c ["G0"; "G1"; "G2"; "G3"]%string = true
  | SetPosition w e => is_motion l = false /\ is_command "G92" l = true /\
      held (w X) (l_x l) /\ held (w Y) (l_y l) /\ held (w Z) (l_z l) /\ held e (l_e l) /\ all_fin (largs l)
  | AbsoluteE => is_command "M82" l = true
  | RelativeE => is_command "M83" l = true
  | Absolute => is_command "G90" l = true
  | Relative => is_command "G91" l = true
  | _ => is_motion l = false /\ is_command "G92" l = false /\ is_command "M82" l = false /\
      is_command "M83" l = false /\ is_command "G90" l = false /\ is_command "G91" l = false
  end.
Proof.
  intros s l Hr. pose proof (freads_motion s l Hr) as Hm.
  pose proof (freads_command s l "M82" Hr ltac:(discriminate)) as H82.
  pose proof (freads_command s l "M83" Hr ltac:(discriminate)) as H83.
  pose proof (freads_command s l "G90" Hr ltac:(discriminate)) as H90.
  pose proof (freads_command s l "G91" Hr ltac:(discriminate)) as H91.
  pose proof (freads_command s l "G92" Hr ltac:(discriminate)) as H92.
  assert (Hfin : (forall k, held (number_of (letter_code k) (words s)) (get_arg k (largs l))) -> all_fin (largs l)).
  { intros H k x Hk. specialize (H k). rewrite Hk in H. destruct (number_of _ _); [|destruct H]. apply H. }
  destruct Hr as (_ & Hc & Hargs). unfold op_of.
  destruct (command_name s) as [c|] eqn:Hn; [|auto 10].
  destruct (str_mem c ["G0"; "G1"; "G2"; "G3"]%string) eqn:Em.
  { assert (Hg : first_is "G" c = true).
    { apply str_mem_in in Em. cbn [In] in Em.
      repeat (destruct Em as [<-|Em]; [reflexivity|]). destruct Em. }
    destruct (Hargs c eq_refl Hg) as [Hgc Hk].
    split; [exact Hm|]. split; [apply (Hk LX)|]. split; [apply (Hk LY)|]. split; [apply (Hk LZ)|].
    split; [apply (Hk LE)|]. split; [apply (Hk LF)|]. split; [apply Hfin, Hk|].
    exists c. destruct Hc as [Hc|(Hc & _)]; [|discriminate Hc]. auto. }
  destruct (String.eqb c "G28") eqn:E28.
  { apply String.eqb_eq in E28. subst c. auto 10. }
  destruct (String.eqb c "G92") eqn:E92.
  { apply String.eqb_eq in E92. subst c. destruct (Hargs "G92"%string eq_refl eq_refl) as [Hgc Hk].
    split; [exact Hm|]. split; [exact H92|].
    split; [apply (Hk LX)|]. split; [apply (Hk LY)|]. split; [apply (Hk LZ)|]. split; [apply (Hk LE)|]. apply Hfin, Hk. }
  destruct (String.eqb c "G20") eqn:E20.
  { apply String.eqb_eq in E20. subst c. auto 10. }
  destruct (String.eqb c "G21") eqn:E21.
  { apply String.eqb_eq in E21. subst c. auto 10. }
  destruct (String.eqb c "G90") eqn:E90; [exact H90|].
  destruct (String.eqb c "G91") eqn:E91; [exact H91|].
  destruct (String.eqb c "M82") eqn:E82; [exact H82|].
  destruct (String.eqb c "M83") eqn:E83; [exact H83|].
  destruct c as [|d t]; [auto 10|]. clear - Hm H82 H83 H90 H91 H92. all_chars d; auto 10.
Qed.

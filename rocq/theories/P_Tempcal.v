(** * P_Tempcal: proofs about temperature calibration *)
From Coq Require Import List Ascii String ZArith NArith Bool Reals Lra Lia.
From Verif Require Import PyBase Arith ArithR Gcoder SpecText SpecMachine Tempcal SpecTempcal.
From Verif Require Import P_Load P_Text P_Format P_Measure.
Import ListNotations.
Local Open Scope list_scope.

Section Generic.
Context {A : arith}.
Notation num := (num A).
Notation layer := (layer A).

(** what is added in front of each layer *)
Fixpoint chain (temp : num -> res num) (zmin zmax : num) (last : option num)
  (adds : list (list string)) (ys : list layer) : Prop :=
  match adds, ys with
  | [], [] => True
  | a :: adds', y :: ys' =>
      match layer_start y with
      | None => a = [] /\ chain temp zmin zmax last adds' ys'
      | Some z => exists t, layer_target temp zmin zmax z = Ok t /\ a = fst (inject last t) /\
          chain temp zmin zmax (snd (inject last t)) adds' ys'
      end
  | _, _ => False
  end.

Lemma layer_start_none : forall y : layer, layer_start y = None -> ly_lines y = [].
Proof. intros y. unfold layer_start. destruct (ly_lines y); [reflexivity|discriminate]. Qed.

Lemma write_chain : forall (temp : num -> res num) zmin zmax (ys : list layer) last out,
  write_layers temp zmin zmax last ys = (out, None) ->
  exists adds, chain temp zmin zmax last adds ys /\ out = woven adds ys.
Proof.
  induction ys as [|y ys IH]; intros last out H; cbn [write_layers] in H.
  - injection H as <-. exists []. split; [exact I|reflexivity].
  - destruct (layer_start y) as [z|] eqn:Hy.
    + destruct (layer_target temp zmin zmax z) as [t|e] eqn:Ht; [|discriminate H].
      destruct (inject last t) as [a last'] eqn:Hi.
      destruct (write_layers temp zmin zmax last' ys) as [o e] eqn:Hw. injection H as <- ->.
      destruct (IH _ _ Hw) as (adds & Hc & ->). exists (a :: adds). cbn [chain woven]. rewrite Hy.
      split; [|reflexivity]. exists t. rewrite Hi. cbn [fst snd]. auto.
    + destruct (IH _ _ H) as (adds & Hc & ->). exists ([] :: adds). cbn [chain woven]. rewrite Hy.
      rewrite (layer_start_none _ Hy). auto.
Qed.

(** an interrupted write has written the first layers *)
Lemma write_err : forall (temp : num -> res num) zmin zmax (ys : list layer) last out e,
  write_layers temp zmin zmax last ys = (out, Some e) ->
  exists ys1 ys2, ys = ys1 ++ ys2 /\ write_layers temp zmin zmax last ys1 = (out, None).
Proof.
  induction ys as [|y ys IH]; intros last out e H; cbn [write_layers] in H; [discriminate H|].
  destruct (layer_start y) as [z|] eqn:Hy.
  - destruct (layer_target temp zmin zmax z) as [t|e'] eqn:Ht.
    + destruct (inject last t) as [a last'] eqn:Hi.
      destruct (write_layers temp zmin zmax last' ys) as [o e2] eqn:Hw. injection H as <- ->.
      destruct (IH _ _ _ Hw) as (ys1 & ys2 & -> & H1). exists (y :: ys1), ys2. split; [reflexivity|].
      cbn [write_layers]. rewrite Hy, Ht, Hi, H1. reflexivity.
    + injection H as <- <-. exists [], (y :: ys). split; reflexivity.
  - destruct (IH _ _ _ H) as (ys1 & ys2 & -> & H1). exists (y :: ys1), ys2. split; [reflexivity|].
    cbn [write_layers]. rewrite Hy. exact H1.
Qed.

Lemma chain_length : forall (temp : num -> res num) zmin zmax adds (ys : list layer) last,
  chain temp zmin zmax last adds ys -> List.length adds = List.length ys.
Proof.
  induction adds as [|a adds IH]; intros [|y ys] last H; cbn [chain] in H; try contradiction; [reflexivity|].
  cbn [List.length]. f_equal. destruct (layer_start y) as [z|].
  - destruct H as (t & _ & _ & H). eapply IH, H.
  - destruct H as [_ H]. eapply IH, H.
Qed.

Lemma inject_one : forall last (t : option num), List.length (fst (inject last t)) <= 1.
Proof. intros last [t|]; cbn [inject]; [destruct (opt_eqb _ _)|]; cbn; auto. Qed.

Lemma chain_one : forall (temp : num -> res num) zmin zmax adds (ys : list layer) last,
  chain temp zmin zmax last adds ys -> Forall (fun a => List.length a <= 1) adds.
Proof.
  induction adds as [|a adds IH]; intros [|y ys] last H; cbn [chain] in H; try contradiction; [constructor|].
  destruct (layer_start y) as [z|].
  - destruct H as (t & _ & -> & H). constructor; [apply inject_one|eapply IH, H].
  - destruct H as [-> H]. constructor; [cbn; lia|eapply IH, H].
Qed.

Lemma chain_empty : forall (temp : num -> res num) zmin zmax adds (ys : list layer) last,
  chain temp zmin zmax last adds ys ->
  forall i a y, nth_error adds i = Some a -> nth_error ys i = Some y -> ly_lines y = [] -> a = [].
Proof.
  induction adds as [|a adds IH]; intros [|y ys] last H i b w Hb Hw Hl; cbn [chain] in H; try contradiction.
  - destruct i; discriminate Hb.
  - destruct i as [|i].
    + injection Hb as <-. injection Hw as <-. unfold layer_start in H. rewrite Hl in H. apply H.
    + destruct (layer_start y) as [z|].
      * destruct H as (t & _ & _ & H). exact (IH _ _ H i b w Hb Hw Hl).
      * destruct H as [_ H]. exact (IH _ _ H i b w Hb Hw Hl).
Qed.

Lemma added_app : forall a b, added (a ++ b) = added a ++ added b.
Proof. intros. apply flat_map_app. Qed.
Lemma without_app : forall a b, without_added (a ++ b) = without_added a ++ without_added b.
Proof. intros. apply flat_map_app. Qed.
Lemma added_added : forall a, added (map Added a) = a.
Proof. induction a as [|s a IH]; [reflexivity|]. cbn. f_equal. exact IH. Qed.
Lemma added_copied : forall (ls : list (line A)), added (map (fun l => Copied (raw l)) ls) = [].
Proof. induction ls as [|s a IH]; [reflexivity|exact IH]. Qed.
Lemma without_added_nil : forall a, without_added (map Added a) = [].
Proof. induction a as [|s a IH]; [reflexivity|exact IH]. Qed.
Lemma without_copied : forall (ls : list (line A)), without_added (map (fun l => Copied (raw l)) ls) = map raw ls.
Proof. induction ls as [|s a IH]; [reflexivity|]. cbn. f_equal. exact IH. Qed.

Lemma woven_without : forall adds (ys : list layer), List.length adds = List.length ys ->
  without_added (woven adds ys) = map raw (List.concat (map ly_lines ys)).
Proof.
  induction adds as [|a adds IH]; intros [|y ys] H; try discriminate H; [reflexivity|].
  cbn [woven map List.concat]. rewrite !without_app, without_added_nil, without_copied, map_app.
  cbn [app]. f_equal. apply IH. injection H as H. exact H.
Qed.

Lemma woven_added : forall adds (ys : list layer), List.length adds = List.length ys ->
  added (woven adds ys) = List.concat adds.
Proof.
  induction adds as [|a adds IH]; intros [|y ys] H; try discriminate H; [reflexivity|].
  cbn [woven map List.concat]. rewrite !added_app, added_added, added_copied.
  cbn [app]. f_equal. apply IH. injection H as H. exact H.
Qed.

(** the loop behind a run *)
Definition behind (gr : gradient) (s e mz : num) (g : gcode A) (temp : num -> res num) (zmin : num) : Prop :=
  find_zmin mz g = Ok zmin /\
  match gr with
  | Continuous => exists d, continuous_delta s e zmin (g_zmax g) = Ok d /\
      temp = (fun z => Ok (continuous_temp s d zmin z))
  | Steps n => exists a b c, step_init s e n = Ok (a, b, c) /\ temp = step_temp s a b c zmin (g_zmax g)
  end.

Lemma tempcal_cases : forall gr s e mz (g : gcode A) out x, tempcal gr s e mz g = (out, x) ->
  (out = [] /\ x <> None) \/
  exists temp zmin, behind gr s e mz g temp zmin /\
    write_layers temp zmin (g_zmax g) None (g_layers g) = (out, x).
Proof.
  intros gr s e mz g out x H. destruct gr as [|n]; cbn [tempcal] in H.
  - destruct (find_zmin mz g) as [zmin|er] eqn:Hz; [|injection H as <- <-; left; split; [reflexivity|discriminate]].
    destruct (continuous_delta s e zmin (g_zmax g)) as [d|er] eqn:Hd;
      [|injection H as <- <-; left; split; [reflexivity|discriminate]].
    right. eexists _, zmin. split; [|exact H]. split; [exact Hz|]. exists d. split; [exact Hd|reflexivity].
  - destruct (step_init s e n) as [[[a b] c]|er] eqn:Hs;
      [|injection H as <- <-; left; split; [reflexivity|discriminate]].
    destruct (find_zmin mz g) as [zmin|er] eqn:Hz; [|injection H as <- <-; left; split; [reflexivity|discriminate]].
    right. eexists _, zmin. split; [|exact H]. split; [exact Hz|]. exists a, b, c. split; [exact Hs|reflexivity].
Qed.

(** every run is a chain over the first layers, over all of them if it ends
    normally *)
Lemma tempcal_chain : forall gr s e mz (g : gcode A) out x, tempcal gr s e mz g = (out, x) ->
  exists temp zmin adds ys1 ys2, chain temp zmin (g_zmax g) None adds ys1 /\ out = woven adds ys1 /\
    g_layers g = ys1 ++ ys2 /\ (x = None -> ys2 = []) /\ (ys1 <> [] -> behind gr s e mz g temp zmin).
Proof.
  intros gr s e mz g out x H. destruct (tempcal_cases _ _ _ _ _ _ _ H) as [[-> Hx]|(temp & zmin & Hb & Hw)].
  - exists (fun z => Ok z), n0, [], [], (g_layers g). repeat split; try contradiction. 
  - destruct x as [er|].
    + destruct (write_err _ _ _ _ _ _ _ Hw) as (ys1 & ys2 & Hy & H1).
      destruct (write_chain _ _ _ _ _ _ H1) as (adds & Hc & ->).
      exists temp, zmin, adds, ys1, ys2. split; [exact Hc|]. split; [reflexivity|]. split; [exact Hy|].
      split; [discriminate|intros _; exact Hb].
    + destruct (write_chain _ _ _ _ _ _ Hw) as (adds & Hc & ->).
      exists temp, zmin, adds, (g_layers g), []. split; [exact Hc|]. split; [reflexivity|].
      split; [symmetry; apply app_nil_r|]. split; [reflexivity|intros _; exact Hb].
Qed.

(** C41 *)
Lemma tempcal_keeps : forall gr s e mz (g : gcode A) out, tempcal gr s e mz g = (out, None) ->
  without_added out = write g /\
  exists adds, List.length adds = List.length (g_layers g) /\ out = woven adds (g_layers g) /\
    Forall (fun a => List.length a <= 1) adds.
Proof.
  intros gr s e mz g out H.
  destruct (tempcal_chain _ _ _ _ _ _ _ H) as (temp & zmin & adds & ys1 & ys2 & Hc & Ho & Hy & Hn & _).
  rewrite (Hn eq_refl), app_nil_r in Hy. subst ys1. pose proof (chain_length _ _ _ _ _ _ Hc) as Hl.
  subst out. split; [apply woven_without, Hl|].
  exists adds. split; [exact Hl|]. split; [reflexivity|exact (chain_one _ _ _ _ _ _ Hc)].
Qed.

(** ** What an added line does *)

Lemma findall_m104 : forall t, findall (lower ("M104 S" ++ t)%string) =
  ("m", "104")%string :: findall_fuel (6 + String.length (lower t) - 1) false (lower (" S" ++ t)%string).
Proof. intros t. reflexivity. Qed.

Lemma op_m104 : forall t, op_of ("M104 S" ++ t)%string = Other.
Proof. intros t. unfold op_of, command_name, words. rewrite findall_m104. reflexivity. Qed.

Lemma op_temperature : forall t : num, op_of (temperature_gcode t) = Other.
Proof. intros t. unfold temperature_gcode. destruct (_ && _); [apply op_m104|reflexivity]. Qed.

Lemma chain_others : forall (temp : num -> res num) zmin zmax adds (ys : list layer) last,
  chain temp zmin zmax last adds ys -> Forall (fun s => op_of s = Other) (List.concat adds).
Proof.
  induction adds as [|a adds IH]; intros [|y ys] last H; cbn [chain] in H; try contradiction; [constructor|].
  cbn [List.concat]. apply Forall_app. destruct (layer_start y) as [z|].
  - destruct H as (t & _ & -> & H). split; [|eapply IH, H].
    destruct t as [t|]; cbn [inject]; [destruct (opt_eqb _ _)|]; cbn [fst]; repeat constructor. apply op_temperature.
  - destruct H as [-> H]. split; [constructor|eapply IH, H].
Qed.

Lemma run_others : forall a k, Forall (fun s => op_of s = Other) a -> run a k = k.
Proof.
  induction a as [|s a IH]; intros k H; [reflexivity|]. inversion H; subst.
  unfold run. cbn [fold_left]. unfold exec_line at 2. rewrite H2. cbn [exec]. apply IH. assumption.
Qed.

Lemma run_app2 : forall a b k, run (a ++ b) k = run b (run a k).
Proof. intros. apply fold_left_app. Qed.

Lemma run_woven : forall adds (ys : list layer) k, Forall (fun s => op_of s = Other) (List.concat adds) ->
  List.length adds = List.length ys ->
  run (map text_of (woven adds ys)) k = run (map raw (List.concat (map ly_lines ys))) k.
Proof.
  induction adds as [|a adds IH]; intros [|y ys] k H Hl; try discriminate Hl; [reflexivity|].
  cbn [woven map List.concat]. rewrite !map_app, !run_app2. cbn [List.concat] in H.
  apply Forall_app in H as [H1 H2]. rewrite !map_map. cbn [text_of].
  rewrite map_id, (run_others _ _ H1). rewrite IH; [reflexivity|exact H2|]. injection Hl as Hl. exact Hl.
Qed.

(** the machine moves as before *)
Lemma tempcal_harmless : forall gr s e mz (g : gcode A) out, tempcal gr s e mz g = (out, None) ->
  forall k, run (map text_of out) k = run (write g) k.
Proof.
  intros gr s e mz g out H k.
  destruct (tempcal_chain _ _ _ _ _ _ _ H) as (temp & zmin & adds & ys1 & ys2 & Hc & Ho & Hy & Hn & _).
  rewrite (Hn eq_refl), app_nil_r in Hy. subst ys1 out.
  apply run_woven; [exact (chain_others _ _ _ _ _ _ Hc)|exact (chain_length _ _ _ _ _ _ Hc)].
Qed.

(** C48 *)
Lemma steps_text : forall s e mz (g : gcode A) t, tempcal (Steps (StepsText t)) s e mz g = ([], Some TypeError).
Proof. reflexivity. Qed.

Lemma main_steps : forall t s e (mz : num) (data : list string),
  exists x, tempcal_main false (Some t) s e mz data = ([], Some x).
Proof.
  intros t s e mz data. unfold tempcal_main. destruct (load_gen false home0 data) as [g|x].
  - exists TypeError. reflexivity.
  - exists x. reflexivity.
Qed.

End Generic.

(** ** Exact arithmetic *)
Section ExactTemp.
Context {A : arith}.
Variable E : exact A.
Notation val := (val E).
Notation num := (num A).
Notation layer := (layer A).
Local Open Scope R_scope.

Lemma rabs_inv : forall x y, Rabs x <= y -> - y <= x <= y.
Proof. intros x y H. unfold Rabs in H; destruct (Rcase_abs x); lra. Qed.

Lemma val_nat : forall m, val (lit m 0) = IZR (Z.of_N m).
Proof. intros m. unfold lit. rewrite (val_of_dec A E). cbn [pow]. lra. Qed.

Lemma val_Z : forall z, val (n_of_Z z) = IZR z.
Proof.
  intros z. unfold n_of_Z. rewrite (val_of_dec A E). cbn [pow]. rewrite N2Z.inj_abs_N.
  destruct (Z.ltb_spec z 0) as [H|H].
  - rewrite Z.abs_neq by lia. rewrite opp_IZR. lra.
  - rewrite Z.abs_eq by lia. lra.
Qed.

Lemma val_zero : val n0 = 0.
Proof. unfold n0. rewrite val_nat. reflexivity. Qed.

Lemma val_py_div : forall a b, val b <> 0 -> exists c, py_div a b = Ok c /\ val c = val a / val b.
Proof.
  intros a b H. unfold py_div. destruct (n_eqb b n0) eqn:Hb.
  - apply (val_eqb A E) in Hb. rewrite val_zero in Hb. contradiction.
  - exists (n_div a b). split; [reflexivity|]. apply (val_div A E), H.
Qed.

(** the rounded temperature is a number of tenths *)
Lemma round1 : forall x : num, exists m : BinNums.Z, val (py_round 1 x) = IZR m / 10 /\
  Rabs (IZR m - 10 * val x) <= / 2.
Proof.
  intros x. destruct (val_dec A E 1 x) as (neg & m & Hd & Hs & Hr). unfold py_round. rewrite Hd.
  rewrite (val_of_dec A E). cbn [pow] in *.
  destruct neg.
  - exists (- Z.of_N m)%Z. rewrite opp_IZR. split; [lra|].
    assert (H : val x < 0) by (apply Hs; reflexivity). rewrite (Rabs_left (val x)) in Hr by exact H.
    rewrite <- Rabs_Ropp. replace (- (- IZR (Z.of_N m) - 10 * val x)) with (IZR (Z.of_N m) - - val x * (10 * 1)) by lra.
    exact Hr.
  - exists (Z.of_N m). split; [lra|].
    assert (H : ~ val x < 0) by (intros H; apply Hs in H; discriminate H).
    rewrite (Rabs_right (val x)) in Hr by lra. replace (10 * val x) with (val x * (10 * 1)) by lra. exact Hr.
Qed.

Lemma tenths_dec : forall m, tenths m = dec_string 1 m.
Proof.
  intros m. unfold tenths, dec_string. change (pow10 1) with 10%N. f_equal. f_equal.
  assert (H : (m mod 10 < 10)%N) by (apply N.mod_lt; discriminate).
  assert (Hd : forall k, (k < 10)%N -> N_to_string k = digits_fixed 1 k).
  { intros k Hk. unfold N_to_string. f_equal. unfold num_digits.
    destruct (N.size_nat k); cbn [num_digits_fuel]; [reflexivity|].
    apply N.ltb_lt in Hk. rewrite Hk. reflexivity. }
  apply Hd, H.
Qed.

(** printing a number of tenths *)
Lemma fmt_tenths : forall (t : num) m, (0 < m)%Z -> val t = IZR m / 10 -> fmt 1 t = tenths (Z.to_N m).
Proof.
  intros t m Hm Ht. rewrite tenths_dec. unfold fmt.
  destruct (val_dec A E 1 t) as (neg & k & Hd & Hs & Hr). rewrite Hd. cbn [pow] in Hr.
  assert (Hp : 0 < IZR m) by (apply IZR_lt; exact Hm).
  destruct neg.
  - assert (H : val t < 0) by (apply Hs; reflexivity). lra.
  - rewrite (Rabs_right (val t)) in Hr by lra. rewrite Ht in Hr.
    replace (IZR m / 10 * (10 * 1)) with (IZR m) in Hr by lra.
    rewrite <- minus_IZR in Hr. apply rabs_inv in Hr.
    assert (Hk : (Z.of_N k - m = 0)%Z).
    { assert (-1 < Z.of_N k - m < 1)%Z; [|lia]. split; apply lt_IZR; lra. }
    cbn [String.append]. f_equal. lia.
Qed.

(** the line for a target is the line for the temperature before rounding *)
Lemma temperature_line : forall x : num, line_for (val x) (temperature_gcode (py_round 1 x)).
Proof.
  intros x. destruct (round1 x) as (m & Hv & Hr). exists m. split; [exact Hr|].
  unfold temperature_gcode, min_temperature, max_temperature.
  destruct (n_leb _ _ && n_leb _ _) eqn:Hb.
  - left. apply andb_prop in Hb as [H1 H2]. apply (val_leb A E) in H1, H2. rewrite val_nat in H1, H2.
    rewrite Hv in H1, H2. cbn [Z.of_N] in H1, H2.
    assert (Hm : (1500 <= m <= 2500)%Z) by (split; apply le_IZR; lra).
    split; [exact Hm|]. rewrite (fmt_tenths _ m); [reflexivity|lia|exact Hv].
  - right. split; [|reflexivity]. intros [H1 H2]. apply IZR_le in H1, H2.
    apply andb_false_iff in Hb as [Hb|Hb]; apply not_true_iff_false in Hb; apply Hb, (val_leb A E);
      rewrite val_nat, Hv; cbn [Z.of_N]; lra.
Qed.

Lemma line_for_safe : forall r s, line_for r s -> s = EmptyString \/ safe_line s.
Proof.
  intros r s (m & _ & [[Hm ->]|[_ ->]]); [right|left; reflexivity].
  exists (Z.to_N m). split; [lia|reflexivity].
Qed.

Lemma line_for_same : forall x y : num, val (py_round 1 x) = val (py_round 1 y) ->
  temperature_gcode (py_round 1 x) = temperature_gcode (py_round 1 y).
Proof.
  intros x y H. destruct (round1 x) as (m & Hv & _). unfold temperature_gcode.
  assert (Hl : forall a b : num, val a = val b -> (n_leb min_temperature a && n_leb a max_temperature)%bool =
                 (n_leb min_temperature b && n_leb b max_temperature)%bool).
  { intros a b Hab. apply eq_true_iff_eq. rewrite !andb_true_iff, !(val_leb A E), Hab. tauto. }
  rewrite (Hl _ _ H). destruct (n_leb _ (py_round 1 y) && _) eqn:Hb; [|reflexivity].
  apply andb_prop in Hb as [H1 _]. apply (val_leb A E) in H1. unfold min_temperature in H1.
  rewrite val_nat, <- H, Hv in H1. cbn [Z.of_N] in H1.
  assert (Hm : (0 < m)%Z) by (apply lt_IZR; lra).
  rewrite (fmt_tenths (py_round 1 x) m Hm Hv), (fmt_tenths (py_round 1 y) m Hm); [reflexivity|].
  rewrite <- H. exact Hv.
Qed.

(** and different targets have different lines, unless blank *)
Lemma line_for_diff : forall x y : num, val (py_round 1 x) <> val (py_round 1 y) ->
  temperature_gcode (py_round 1 x) <> temperature_gcode (py_round 1 y) \/
  temperature_gcode (py_round 1 x) = EmptyString /\ temperature_gcode (py_round 1 y) = EmptyString.
Proof.
  intros x y H. destruct (round1 x) as (m & Hv & _). destruct (round1 y) as (k & Hw & _).
  unfold temperature_gcode, min_temperature, max_temperature.
  destruct (n_leb (lit 150 0) (py_round 1 x) && _) eqn:Hx; destruct (n_leb (lit 150 0) (py_round 1 y) && _) eqn:Hy;
    try (left; discriminate); [left|right; split; reflexivity].
  apply andb_prop in Hx as [Hx _]. apply andb_prop in Hy as [Hy _]. apply (val_leb A E) in Hx, Hy.
  rewrite val_nat, Hv in Hx. rewrite val_nat, Hw in Hy. cbn [Z.of_N] in Hx, Hy.
  assert (Hm : (0 < m)%Z) by (apply lt_IZR; lra). assert (Hk : (0 < k)%Z) by (apply lt_IZR; lra).
  intros Heq. apply H. 
  assert (Ht : fmt 1 (py_round 1 x) = fmt 1 (py_round 1 y)).
  { cbn [String.append] in Heq. injection Heq as Heq. exact Heq. }
  assert (D : forall (t : num) z, (0 < z)%Z -> val t = IZR z / 10 ->
            exists u, py_float (fmt 1 t) = Some u /\ val u = val t).
  { intros t z Hz Hval. destruct (val_dec A E 1 t) as (neg & n & Hd & Hs & Hr).
    exists (n_of_dec neg n 1). split; [exact (fmt_float 0 t neg n Hd)|].
    assert (Hp : 0 < IZR z) by (apply IZR_lt; exact Hz).
    rewrite (val_of_dec A E). cbn [pow] in *. destruct neg.
    - assert (val t < 0) by (apply Hs; reflexivity). lra.
    - rewrite (Rabs_right (val t)) in Hr by lra. rewrite Hval in Hr.
      replace (IZR z / 10 * (10 * 1)) with (IZR z) in Hr by lra.
      rewrite <- minus_IZR in Hr. apply rabs_inv in Hr.
      assert (Hk0 : (Z.of_N n - z = 0)%Z).
      { assert (-1 < Z.of_N n - z < 1)%Z; [|lia]. split; apply lt_IZR; lra. }
      assert (Z.of_N n = z) as -> by lia. lra. }
  destruct (D _ _ Hm Hv) as (u & Hu & Hu'). destruct (D _ _ Hk Hw) as (w & Hw1 & Hw').
  rewrite Ht, Hw1 in Hu. injection Hu as <-. congruence.
Qed.

Lemma vleb : forall a b : num, n_leb a b = true <-> val a <= val b.
Proof. intros. apply (val_leb A E). Qed.
Lemma vltb : forall a b : num, n_ltb a b = true <-> val a < val b.
Proof. intros. apply (val_ltb A E). Qed.
Lemma vleb_false : forall a b : num, n_leb a b = false <-> val b < val a.
Proof.
  intros a b. split; intros H.
  - apply Rnot_le_lt. intros H1. apply vleb in H1. congruence.
  - apply not_true_iff_false. intros H1. apply vleb in H1. lra.
Qed.

(** C40, C42: the added lines are those of a list of targets, no two
    consecutive ones equal *)
Fixpoint differ (last : option num) (ts : list num) : Prop :=
  match ts with
  | [] => True
  | t :: r => opt_eqb (Some t) last = false /\ differ (Some t) r
  end.

Lemma chain_targets : forall temp zmin zmax adds (ys : list layer) last,
  chain temp zmin zmax last adds ys ->
  exists xs, List.concat adds = map (fun x => temperature_gcode (py_round 1 x)) xs /\
    differ last (map (py_round 1) xs).
Proof.
  induction adds as [|a adds IH]; intros [|y ys] last H; cbn [chain] in H; try contradiction.
  - exists []. split; [reflexivity|exact I].
  - destruct (layer_start y) as [z|].
    + destruct H as (t & Ht & -> & H). destruct (IH _ _ H) as (xs & Hx & Hd).
      unfold layer_target in Ht. destruct z as [z|].
      * destruct (truthy z && n_leb zmin z && n_leb z zmax).
        -- destruct (temp z) as [u|e]; cbn [bind] in Ht; [|discriminate Ht]. apply ok_inj in Ht. subst t.
           cbn [inject] in *. destruct (opt_eqb (Some (py_round 1 u)) last) eqn:Ho.
           ++ exists xs. cbn [fst snd List.concat app] in *. split; assumption.
           ++ exists (u :: xs). cbn [fst snd List.concat app map differ] in *. rewrite Hx.
              split; [reflexivity|split; assumption].
        -- apply ok_inj in Ht. subst t. exists xs. split; assumption.
      * apply ok_inj in Ht. subst t. exists xs. split; assumption.
    + destruct H as [-> H]. destruct (IH _ _ H) as (xs & Hx & Hd). exists xs. split; assumption.
Qed.

Lemma tempcal_targets : forall gr s e mz (g : gcode A) out x, tempcal gr s e mz g = (out, x) ->
  exists xs, added out = map (fun x => temperature_gcode (py_round 1 x)) xs /\
    differ None (map (py_round 1) xs).
Proof.
  intros gr s e mz g out x H.
  destruct (tempcal_chain _ _ _ _ _ _ _ H) as (temp & zmin & adds & ys1 & ys2 & Hc & Ho & _).
  subst out. rewrite (woven_added _ _ (chain_length _ _ _ _ _ _ Hc)). exact (chain_targets _ _ _ _ _ _ Hc).
Qed.

Lemma tempcal_safe : forall gr s e mz (g : gcode A) out x, tempcal gr s e mz g = (out, x) ->
  Forall (fun l => l = EmptyString \/ safe_line l) (added out).
Proof.
  intros gr s e mz g out x H. destruct (tempcal_targets _ _ _ _ _ _ _ H) as (xs & -> & _).
  apply Forall_forall. intros l Hl. apply in_map_iff in Hl as (u & <- & _).
  eapply line_for_safe, temperature_line.
Qed.

Lemma differ_nth : forall ts last i a b, differ last ts ->
  nth_error ts i = Some a -> nth_error ts (S i) = Some b -> val a <> val b.
Proof.
  induction ts as [|t ts IH]; intros last i a b H Ha Hb; [destruct i; discriminate Ha|].
  cbn [differ] in H. destruct H as [_ H]. destruct i as [|i].
  - cbn in Ha, Hb. injection Ha as ->. destruct ts as [|u ts]; [discriminate Hb|]. injection Hb as ->.
    cbn [differ opt_eqb] in H. destruct H as [H _]. intros Hv. symmetry in Hv. apply (val_eqb A E) in Hv. congruence.
  - exact (IH _ i a b H Ha Hb).
Qed.

Lemma nth_map : forall S T (f : S -> T) l i b, nth_error (map f l) i = Some b ->
  exists a, nth_error l i = Some a /\ b = f a.
Proof.
  intros S T f l. induction l as [|x l IH]; intros [|i] b H; try discriminate H.
  - injection H as <-. exists x. split; reflexivity.
  - exact (IH i b H).
Qed.

Lemma tempcal_differ : forall gr s e mz (g : gcode A) out x, tempcal gr s e mz g = (out, x) ->
  forall i a b, nth_error (added out) i = Some a -> nth_error (added out) (S i) = Some b ->
    a <> b \/ a = EmptyString /\ b = EmptyString.
Proof.
  intros gr s e mz g out x H i a b Ha Hb. destruct (tempcal_targets _ _ _ _ _ _ _ H) as (xs & Hx & Hd).
  rewrite Hx in Ha, Hb. apply nth_map in Ha as (u & Hu & ->). apply nth_map in Hb as (w & Hw & ->).
  apply line_for_diff. eapply differ_nth; [exact Hd| |].
  - rewrite nth_error_map, Hu. reflexivity.
  - rewrite nth_error_map, Hw. reflexivity.
Qed.

(** zmin *)
Lemma zmin_some : forall mz (ys : list layer) m,
  exists z, fold_left (zmin_step mz) ys (Some m) = Some z /\ val z <= val m /\
    (z = m \/ In z (start_heights ys) /\ val mz < val z < val m) /\
    (forall h, In h (start_heights ys) -> val mz < val h -> val z <= val h).
Proof.
  intros mz. induction ys as [|y ys IH]; intros m; cbn [fold_left].
  - exists m. split; [reflexivity|]. split; [lra|]. split; [left; reflexivity|]. intros h [].
  - change (start_heights (y :: ys)) with
      (match ly_lines y with
       | l :: _ => match t_z (lnotes l) with Some z => [z] | None => [] end
       | [] => [] end ++ start_heights ys).
    unfold zmin_step at 2, layer_start. destruct (ly_lines y) as [|l ls]; [cbn [app]; apply IH|].
    destruct (t_z (lnotes l)) as [h|]; [|cbn [app]; apply IH].
    destruct (n_ltb mz h && n_ltb h m) eqn:Hb.
    + apply andb_prop in Hb as [H1 H2]. apply vltb in H1, H2.
      destruct (IH h) as (z & Hz & Hle & Hc & Hm). exists z. split; [exact Hz|]. split; [lra|]. split.
      * right. destruct Hc as [->|[Hin Hc]].
        -- split; [left; reflexivity|lra].
        -- split; [right; exact Hin|lra].
      * intros k [<-|Hk] Hmk; [exact Hle|exact (Hm k Hk Hmk)].
    + destruct (IH m) as (z & Hz & Hle & Hc & Hm). exists z. split; [exact Hz|]. split; [exact Hle|]. split.
      * destruct Hc as [->|[Hin Hc]]; [left; reflexivity|right]. split; [right; exact Hin|exact Hc].
      * intros k [<-|Hk] Hmk; [|exact (Hm k Hk Hmk)].
        apply andb_false_iff in Hb as [Hb|Hb].
        -- apply vltb in Hmk. congruence.
        -- assert (~ val h < val m) by (intros Hlt; apply vltb in Hlt; congruence). lra.
Qed.

Lemma zmin_none : forall mz (ys : list layer),
  match fold_left (zmin_step mz) ys None with
  | None => start_heights ys = []
  | Some z => lowest E (val mz) (start_heights ys) (val z)
  end.
Proof.
  intros mz. induction ys as [|y ys IH]; cbn [fold_left]; [reflexivity|].
  change (start_heights (y :: ys)) with
    (match ly_lines y with
     | l :: _ => match t_z (lnotes l) with Some z => [z] | None => [] end
     | [] => [] end ++ start_heights ys).
  unfold zmin_step at 2, layer_start. destruct (ly_lines y) as [|l ls]; [cbn [app]; exact IH|].
  destruct (t_z (lnotes l)) as [h|]; [|cbn [app]; exact IH].
  destruct (zmin_some mz ys h) as (z & -> & Hle & Hc & Hm). cbn [app lowest]. split.
  - destruct Hc as [->|[Hin Hc]]; [left; reflexivity|right]. split; [exists z; split; [right; exact Hin|reflexivity]|exact Hc].
  - intros w [->|[(k & [<-|Hk] & <-) Hw]]; [exact Hle|lra|apply Hm; [exact Hk|lra]].
Qed.

Lemma lowest_unique : forall mz hs a b, lowest E mz hs a -> lowest E mz hs b -> a = b.
Proof.
  intros mz [|h hs] a b Ha Hb; [contradiction|]. destruct Ha as [Ha1 Ha2], Hb as [Hb1 Hb2].
  apply Rle_antisym; [apply Ha2, Hb1|apply Hb2, Ha1].
Qed.

Lemma find_zmin_ok : forall mz (g : gcode A) zmin, find_zmin mz g = Ok zmin ->
  lowest E (val mz) (start_heights (g_layers g)) (val zmin) /\ val zmin < val (g_zmax g).
Proof.
  intros mz g zmin H. unfold find_zmin in H. pose proof (zmin_none mz (g_layers g)) as Hz.
  destruct (fold_left (zmin_step mz) (g_layers g) None) as [z|]; [|discriminate H].
  destruct (n_leb (g_zmax g) z) eqn:Hb; [discriminate H|]. apply ok_inj in H. subst z.
  apply vleb_false in Hb. split; assumption.
Qed.

Lemma find_zmin_dec : forall mz (g : gcode A),
  (exists zmin, find_zmin mz g = Ok zmin) \/
  find_zmin mz g = Err RuntimeError /\
  (forall z, lowest E (val mz) (start_heights (g_layers g)) z -> val (g_zmax g) <= z).
Proof.
  intros mz g. unfold find_zmin. pose proof (zmin_none mz (g_layers g)) as Hz.
  destruct (fold_left (zmin_step mz) (g_layers g) None) as [z|].
  - destruct (n_leb (g_zmax g) z) eqn:Hb; [right; split; [reflexivity|]|left; exists z; reflexivity].
    intros w Hw. rewrite (lowest_unique _ _ _ _ Hw Hz). apply vleb, Hb.
  - right. split; [reflexivity|]. rewrite Hz. intros z [].
Qed.

(** the gradients *)
Lemma n_min_val : forall a b : num, val (n_min a b) = Rmin (val a) (val b).
Proof.
  intros a b. destruct (n_min_cases E a b) as [[-> H]|[-> H]]; [rewrite Rmin_left|rewrite Rmin_right]; auto.
Qed.
Lemma n_max_val : forall a b : num, val (n_max a b) = Rmax (val a) (val b).
Proof.
  intros a b. destruct (n_max_cases E a b) as [[-> H]|[-> H]]; [rewrite Rmax_left|rewrite Rmax_right]; auto.
Qed.

Lemma behind_temp : forall gr s e mz (g : gcode A) temp zmin, usable gr -> behind gr s e mz g temp zmin ->
  forall z, exists t, temp z = Ok t /\
    val t = target gr (val s) (val e) (val zmin) (val (g_zmax g)) (val z).
Proof.
  intros gr s e mz g temp zmin Hu [Hz Hb] z. destruct (find_zmin_ok _ _ _ Hz) as [_ Hlt].
  destruct gr as [|[n|t]]; cbn [target]; [| |contradiction].
  - destruct Hb as (d & Hd & ->). unfold continuous_delta in Hd.
    destruct (val_py_div (n_sub e s) (n_sub (g_zmax g) zmin)) as (c & Hc & Hv).
    { rewrite (val_sub A E). lra. }
    rewrite Hc in Hd. apply ok_inj in Hd. subst d. eexists. split; [reflexivity|].
    unfold continuous_temp, linear. rewrite (val_add A E), (val_mul A E), !(val_sub A E), Hv, !(val_sub A E).
    field. lra.
  - cbn [usable] in Hu. destruct Hb as (a & b & c & Hs & ->). unfold step_init in Hs.
    assert (Hn : 1 <= IZR n) by (apply (IZR_le 1), Hu).
    destruct (val_py_div (n_sub e s) (n_of_Z n)) as (d & Hd & Hdv); [rewrite val_Z; lra|].
    rewrite Hd in Hs. cbn [bind] in Hs. injection Hs as <- <- <-. unfold step_temp.
    destruct (val_py_div (n_sub z zmin) (n_sub (g_zmax g) zmin)) as (p & Hp & Hpv); [rewrite (val_sub A E); lra|].
    rewrite Hp. cbn [bind].
    destruct (val_py_div (n_mul p (n_of_Z (n + 1))) (n_of_Z (n + 1))) as (q & Hq & Hqv).
    { rewrite val_Z, plus_IZR. lra. }
    rewrite Hq. cbn [bind]. eexists. split; [reflexivity|].
    rewrite n_min_val, n_max_val, (val_add A E), (val_mul A E), !(val_sub A E), (val_add A E), Hqv, (val_mul A E),
      Hpv, Hdv, !val_Z, !(val_sub A E), plus_IZR.
    unfold steeper. rewrite (Rmax_comm (val e)). f_equal. field. lra.
Qed.

Lemma chain_total : forall temp zmin zmax (ys : list layer) last,
  (forall z, exists t, temp z = Ok t) -> exists out, write_layers temp zmin zmax last ys = (out, None).
Proof.
  intros temp zmin zmax ys last Ht. revert last. induction ys as [|y ys IH]; intros last.
  - exists []. reflexivity.
  - cbn [write_layers]. destruct (layer_start y) as [z|]; [|apply IH].
    assert (H : exists t, layer_target temp zmin zmax z = Ok t).
    { unfold layer_target. destruct z as [z|]; [|exists None; reflexivity].
      destruct (_ && _); [|exists None; reflexivity]. destruct (Ht z) as (t & ->). eexists. reflexivity. }
    destruct H as (t & ->). destruct (inject last t) as [a last']. destruct (IH last') as (o & ->).
    eexists. reflexivity.
Qed.

(** C47 *)
Lemma tempcal_refuses : forall gr s e mz (g : gcode A), constructible gr ->
  (forall z, lowest E (val mz) (start_heights (g_layers g)) z -> val (g_zmax g) <= z) ->
  tempcal gr s e mz g = ([], Some RuntimeError).
Proof.
  intros gr s e mz g Hc H. destruct (find_zmin_dec mz g) as [(zmin & Hz)|[Hz _]].
  - destruct (find_zmin_ok _ _ _ Hz) as [Hl Hlt]. apply H in Hl. lra.
  - destruct gr as [|[n|t]]; cbn [tempcal]; [rewrite Hz; reflexivity| |contradiction].
    cbn [constructible] in Hc. unfold step_init.
    destruct (val_py_div (n_sub e s) (n_of_Z n)) as (d & -> & _).
    { rewrite val_Z. apply not_0_IZR, Hc. }
    cbn [bind]. rewrite Hz. reflexivity.
Qed.

Lemma tempcal_works : forall gr s e mz (g : gcode A) z, usable gr ->
  lowest E (val mz) (start_heights (g_layers g)) z -> z < val (g_zmax g) ->
  exists out, tempcal gr s e mz g = (out, None).
Proof.
  intros gr s e mz g z Hu Hl Hlt. destruct (find_zmin_dec mz g) as [(zmin & Hz)|[_ H]]; [|apply H in Hl; lra].
  destruct (find_zmin_ok _ _ _ Hz) as [_ Hlt2].
  assert (Hb : exists temp, behind gr s e mz g temp zmin /\
            tempcal gr s e mz g = write_layers temp zmin (g_zmax g) None (g_layers g)).
  { destruct gr as [|[n|t]]; cbn [tempcal]; [| |contradiction].
    - rewrite Hz. destruct (val_py_div (n_sub e s) (n_sub (g_zmax g) zmin)) as (c & Hc & _).
      { rewrite (val_sub A E). lra. }
      unfold continuous_delta. rewrite Hc. eexists. split; [|reflexivity]. split; [exact Hz|].
      exists c. split; [exact Hc|reflexivity].
    - cbn [usable] in Hu. assert (Hn : 1 <= IZR n) by (apply (IZR_le 1), Hu). unfold step_init.
      destruct (val_py_div (n_sub e s) (n_of_Z n)) as (d & Hd & _); [rewrite val_Z; lra|].
      rewrite Hd. cbn [bind]. rewrite Hz. eexists. split; [|reflexivity]. split; [exact Hz|].
      do 3 eexists. split; [|reflexivity]. unfold step_init. rewrite Hd. reflexivity. }
  destruct Hb as (temp & Hb & ->). apply chain_total. intros w.
  destruct (behind_temp _ _ _ _ _ _ _ Hu Hb w) as (t & Ht & _). exists t. exact Ht.
Qed.

(** where the added lines come from *)
Definition adds_ok (gr : gradient) (s e z0 z1 : R) (adds : list (list string)) (ys : list layer) : Prop :=
  forall i a y, nth_error adds i = Some a -> nth_error ys i = Some y ->
    a = [] \/ exists l z, a = [l] /\ starts_at y z /\ val z <> 0 /\ z0 <= val z <= z1 /\
                line_for (target gr s e z0 z1 (val z)) l.

Lemma layer_start_some : forall (y : layer) z, layer_start y = Some (Some z) -> starts_at y z.
Proof.
  intros y z. unfold layer_start, starts_at. destruct (ly_lines y) as [|l t]; [discriminate|].
  intros H. injection H as H. exists l, t. split; [reflexivity|exact H].
Qed.

Lemma start_layer_some : forall (y : layer) z, starts_at y z -> layer_start y = Some (Some z).
Proof. intros y z (l & t & Hl & Ht). unfold layer_start. rewrite Hl, Ht. reflexivity. Qed.

Lemma truthy_val : forall z : num, truthy z = true <-> val z <> 0.
Proof.
  intros z. unfold truthy. rewrite negb_true_iff, <- not_true_iff_false, (val_eqb A E), val_zero. tauto.
Qed.

Lemma chain_adds : forall temp zmin zmax gr s e adds (ys : list layer) last,
  (forall z, exists t, temp z = Ok t /\ val t = target gr s e (val zmin) (val zmax) (val z)) ->
  chain temp zmin zmax last adds ys -> adds_ok gr s e (val zmin) (val zmax) adds ys.
Proof.
  intros temp zmin zmax gr s e. induction adds as [|a adds IH]; intros [|y ys] last Ht H;
    cbn [chain] in H; try contradiction; intros [|i] b w Hb Hw; try discriminate Hb.
  - injection Hb as <-. injection Hw as <-. destruct (layer_start y) as [z|] eqn:Hy; [|left; apply H].
    destruct H as (t & Hl & -> & _). unfold layer_target in Hl.
    destruct z as [z|]; [|apply ok_inj in Hl; subst t; left; reflexivity].
    destruct (truthy z && n_leb zmin z && n_leb z zmax) eqn:Hc; [|apply ok_inj in Hl; subst t; left; reflexivity].
    destruct (Ht z) as (u & Hu & Hv). rewrite Hu in Hl. cbn [bind] in Hl. apply ok_inj in Hl. subst t.
    cbn [inject]. destruct (opt_eqb _ _); [left; reflexivity|right]. cbn [fst].
    apply andb_prop in Hc as [Hc H3]. apply andb_prop in Hc as [H1 H2]. apply truthy_val in H1. apply vleb in H2, H3.
    eexists _, z. split; [reflexivity|]. split; [exact (layer_start_some _ _ Hy)|]. split; [exact H1|].
    split; [split; assumption|]. rewrite <- Hv. apply temperature_line.
  - cbn in Hb, Hw. destruct (layer_start y) as [z|].
    + destruct H as (t & _ & _ & H). exact (IH _ _ Ht H i b w Hb Hw).
    + destruct H as [_ H]. exact (IH _ _ Ht H i b w Hb Hw).
Qed.

Lemma tempcal_adds : forall gr s e mz (g : gcode A) out, usable gr -> tempcal gr s e mz g = (out, None) ->
  exists z0 adds, lowest E (val mz) (start_heights (g_layers g)) z0 /\ z0 < val (g_zmax g) /\
    List.length adds = List.length (g_layers g) /\ out = woven adds (g_layers g) /\
    forall i a y, nth_error adds i = Some a -> nth_error (g_layers g) i = Some y ->
      a = [] \/ exists l z, a = [l] /\ starts_at y z /\ val z <> 0 /\ z0 <= val z <= val (g_zmax g) /\
                line_for (target gr (val s) (val e) z0 (val (g_zmax g)) (val z)) l.
Proof.
  intros gr s e mz g out Hu H. destruct (tempcal_cases _ _ _ _ _ _ _ H) as [[_ Hx]|(temp & zmin & Hb & Hw)];
    [contradiction|].
  destruct (write_chain _ _ _ _ _ _ Hw) as (adds & Hc & ->).
  destruct (find_zmin_ok _ _ _ (proj1 Hb)) as [Hl Hlt]. exists (val zmin), adds.
  split; [exact Hl|]. split; [exact Hlt|]. split; [exact (chain_length _ _ _ _ _ _ Hc)|]. split; [reflexivity|].
  exact (chain_adds _ _ _ _ _ _ _ _ _ (behind_temp _ _ _ _ _ _ _ Hu Hb) Hc).
Qed.

(** the temperature in force: [last] is what was added last *)
Definition in_force (last : option num) (before : list printed_line) : Prop :=
  match last with
  | None => added before = []
  | Some t => exists u pre, val (py_round 1 u) = val t /\ added before = pre ++ [temperature_gcode (py_round 1 u)]
  end.

Lemma chain_force : forall temp zmin zmax adds (ys : list layer) last before,
  chain temp zmin zmax last adds ys -> in_force last before ->
  forall pre y post z t, ys = pre ++ y :: post -> starts_at y z ->
    truthy z && n_leb zmin z && n_leb z zmax = true -> temp z = Ok t ->
    exists b1 b2 as1, woven adds ys = b1 ++ map (fun l => Copied (raw l)) (ly_lines y) ++ b2 /\
      without_added b1 = map raw (List.concat (map ly_lines pre)) /\
      added (before ++ b1) = as1 ++ [temperature_gcode (py_round 1 t)].
Proof.
  intros temp zmin zmax. induction adds as [|a adds IH]; intros [|y0 ys] last before H Hf pre y post z t Hys Hs Hc Ht;
    cbn [chain] in H; try contradiction; [destruct pre; discriminate Hys|].
  assert (Hlen : List.length adds = List.length ys).
  { destruct (layer_start y0); [destruct H as (? & _ & _ & H)|destruct H as [_ H]]; exact (chain_length _ _ _ _ _ _ H). }
  destruct pre as [|p pre]; cbn [app] in Hys; injection Hys as -> ->.
  - (* this layer *)
    rewrite (start_layer_some _ _ Hs) in H. destruct H as (o & Ho & -> & H).
    unfold layer_target in Ho. rewrite Hc, Ht in Ho. cbn [bind] in Ho. apply ok_inj in Ho. subst o.
    cbn [inject] in *. destruct (opt_eqb (Some (py_round 1 t)) last) eqn:Hq; cbn [fst snd] in *.
    + destruct last as [lt|]; [|discriminate Hq]. cbn [opt_eqb] in Hq. apply (val_eqb A E) in Hq.
      cbn [in_force] in Hf. destruct Hf as (u & pre & Hu & Hp).
      exists [], (woven adds post), pre. cbn [woven map app]. split; [reflexivity|]. split; [reflexivity|].
      rewrite app_nil_r, Hp. f_equal. f_equal. apply line_for_same. congruence.
    + exists [Added (temperature_gcode (py_round 1 t))], (woven adds post), (added before).
      cbn [woven map app]. split; [reflexivity|]. split; [reflexivity|]. rewrite added_app. reflexivity.
  - (* a later layer *)
    assert (HX : exists last', chain temp zmin zmax last' adds (pre ++ y :: post) /\
               in_force last' (before ++ map Added a ++ map (fun l => Copied (raw l)) (ly_lines p))).
    { destruct (layer_start p) as [w|] eqn:Hp.
      - destruct H as (o & Ho & -> & H). exists (snd (inject last o)). split; [exact H|].
        unfold in_force. rewrite !added_app, added_added, added_copied, app_nil_r.
        destruct o as [o|]; cbn [inject]; [|cbn [fst snd]; rewrite app_nil_r; exact Hf].
        destruct (opt_eqb (Some o) last); cbn [fst snd]; [rewrite app_nil_r; exact Hf|].
        unfold layer_target in Ho. destruct w as [w|]; [|discriminate Ho].
        destruct (_ && _); [|discriminate Ho]. destruct (temp w) as [v|]; [|discriminate Ho].
        cbn [bind] in Ho. apply ok_inj in Ho. injection Ho as <-. exists v, (added before). split; reflexivity.
      - destruct H as [-> H]. exists last. split; [exact H|]. unfold in_force.
        rewrite !added_app, added_copied. cbn [map added flat_map app]. rewrite app_nil_r. exact Hf. }
    destruct HX as (last' & HC & HF).
    destruct (IH _ _ _ HC HF pre y post z t eq_refl Hs Hc Ht) as (b1 & b2 & as1 & Hw & Hwo & Ha).
    exists (map Added a ++ map (fun l => Copied (raw l)) (ly_lines p) ++ b1), b2, as1.
    split; [|split].
    + cbn [woven]. rewrite Hw, <- !app_assoc. reflexivity.
    + rewrite !without_app, without_added_nil, without_copied, Hwo. cbn [map List.concat app].
      rewrite map_app. reflexivity.
    + rewrite <- Ha. rewrite <- !app_assoc. reflexivity.
Qed.

(** C76 *)
Lemma tempcal_in_force : forall gr s e mz (g : gcode A) out z0 pre y post z, usable gr ->
  tempcal gr s e mz g = (out, None) ->
  lowest E (val mz) (start_heights (g_layers g)) z0 ->
  g_layers g = pre ++ y :: post -> starts_at y z -> val z <> 0 -> z0 <= val z <= val (g_zmax g) ->
  exists before after l ls, out = before ++ map (fun l => Copied (raw l)) (ly_lines y) ++ after /\
    without_added before = map raw (List.concat (map ly_lines pre)) /\
    added before = ls ++ [l] /\
    line_for (target gr (val s) (val e) z0 (val (g_zmax g)) (val z)) l.
Proof.
  intros gr s e mz g out z0 pre y post z Hu H Hl Hy Hs Hz Hr.
  destruct (tempcal_cases _ _ _ _ _ _ _ H) as [[_ Hx]|(temp & zmin & Hb & Hw)]; [contradiction|].
  destruct (write_chain _ _ _ _ _ _ Hw) as (adds & Hc & ->).
  destruct (find_zmin_ok _ _ _ (proj1 Hb)) as [Hl2 Hlt]. pose proof (lowest_unique _ _ _ _ Hl Hl2) as ->.
  destruct (behind_temp _ _ _ _ _ _ _ Hu Hb z) as (t & Ht & Hv).
  assert (Hcond : truthy z && n_leb zmin z && n_leb z (g_zmax g) = true).
  { rewrite !andb_true_iff, truthy_val, !vleb. tauto. }
  destruct (chain_force _ _ _ _ _ _ [] Hc eq_refl pre y post z t Hy Hs Hcond Ht) as (b1 & b2 & as1 & H1 & H2 & H3).
  exists b1, b2, (temperature_gcode (py_round 1 t)), as1. split; [exact H1|]. split; [exact H2|].
  split; [exact H3|]. rewrite <- Hv. apply temperature_line.
Qed.

End ExactTemp.

(** ** The gradients as functions of the height *)
Section Curves.
Local Open Scope R_scope.

Lemma progress_range : forall z0 z1 z, z0 < z1 -> z0 <= z <= z1 -> 0 <= (z - z0) / (z1 - z0) <= 1.
Proof.
  intros z0 z1 z H1 H2. split.
  - apply Rmult_le_pos; [lra|]. left. apply Rinv_0_lt_compat. lra.
  - apply Rmult_le_reg_r with (z1 - z0); [lra|]. unfold Rdiv. rewrite Rmult_assoc, Rinv_l by lra. lra.
Qed.

Lemma between_scale : forall s e p, 0 <= p <= 1 -> Rmin s e <= s + (e - s) * p <= Rmax s e.
Proof.
  intros s e p Hp. destruct (Rle_or_lt s e) as [H|H].
  - rewrite Rmin_left, Rmax_right by lra. nra.
  - rewrite Rmin_right, Rmax_left by lra. nra.
Qed.

Lemma linear_props : forall s e z0 z1, z0 < z1 ->
  linear s e z0 z1 z0 = s /\ linear s e z0 z1 z1 = e /\
  (forall z, z0 <= z <= z1 -> Rmin s e <= linear s e z0 z1 z <= Rmax s e) /\
  (forall z z', z <= z' -> s <= e -> linear s e z0 z1 z <= linear s e z0 z1 z') /\
  (forall z z', z <= z' -> e <= s -> linear s e z0 z1 z' <= linear s e z0 z1 z) /\
  (forall z d, linear s e z0 z1 (z + d) - linear s e z0 z1 z = (e - s) / (z1 - z0) * d).
Proof.
  intros s e z0 z1 H. unfold linear.
  assert (Hm : forall z z', z <= z' -> (z - z0) / (z1 - z0) <= (z' - z0) / (z1 - z0)).
  { intros z z' Hz. apply Rmult_le_compat_r; [left; apply Rinv_0_lt_compat; lra|lra]. }
  split; [field; lra|]. split; [field; lra|]. split.
  { intros z Hz. apply between_scale, progress_range; assumption. }
  split. { intros z z' Hz Hs. specialize (Hm _ _ Hz). nra. }
  split. { intros z z' Hz Hs. specialize (Hm _ _ Hz). nra. }
  intros z d. field. lra.
Qed.

Lemma steeper_props : forall n s e z0 z1 z, 1 <= n -> z0 < z1 -> z0 <= z <= z1 ->
  (s <= e -> s <= steeper n s e z0 z1 z <= e) /\
  (e <= s -> e + (e - s) / n <= steeper n s e z0 z1 z <= s).
Proof.
  intros n s e z0 z1 z Hn H Hz. unfold steeper. pose proof (progress_range _ _ _ H Hz) as Hp.
  set (p := (z - z0) / (z1 - z0)) in *.
  assert (Hi : 0 < / n <= 1).
  { split; [apply Rinv_0_lt_compat; lra|]. apply Rmult_le_reg_l with n; [lra|]. rewrite Rinv_r by lra. lra. }
  split; intros Hs.
  - rewrite Rmax_right by exact Hs. split; [|apply Rmin_l]. apply Rmin_glb; [exact Hs|].
    assert (0 <= (1 + / n) * (e - s)) by nra. nra.
  - rewrite Rmax_left by exact Hs. split; [|apply Rmin_l]. apply Rmin_glb; [unfold Rdiv; nra|].
    unfold Rdiv. assert (0 <= (1 + / n) * (s - e)) by nra. nra.
Qed.

End Curves.

Section Corollaries.
Context {A : arith}.
Variable E : exact A.
Notation val := (val E).
Local Open Scope R_scope.

(** C46 when the first layer is already above the limit *)
Lemma tempcal_above : forall gr s e mz (g : gcode A) out h hs, usable gr -> tempcal gr s e mz g = (out, None) ->
  start_heights (g_layers g) = h :: hs -> val mz < val h ->
  exists adds, List.length adds = List.length (g_layers g) /\ out = woven adds (g_layers g) /\
    forall i a y, nth_error adds i = Some a -> nth_error (g_layers g) i = Some y -> a <> [] ->
      exists z, starts_at y z /\ val mz < val z.
Proof.
  intros gr s e mz g out h hs Hu H Hh Hm.
  destruct (tempcal_adds E _ _ _ _ _ _ Hu H) as (z0 & adds & Hl & _ & Hlen & Ho & Ha).
  exists adds. split; [exact Hlen|]. split; [exact Ho|]. intros i a y Hi Hy Hne.
  destruct (Ha i a y Hi Hy) as [->|(l & z & _ & Hs & _ & Hz & _)]; [contradiction|].
  exists z. split; [exact Hs|]. rewrite Hh in Hl. destruct Hl as [[->|[_ Ht]] _]; lra.
Qed.

Lemma woven_in : forall adds (ys : list (layer A)) l, List.length adds = List.length ys ->
  In l (added (woven adds ys)) ->
  exists i a y, nth_error adds i = Some a /\ nth_error ys i = Some y /\ In l a.
Proof.
  intros adds ys l Hl H. rewrite (woven_added _ _ Hl) in H.
  revert ys Hl. induction adds as [|a adds IH]; intros [|y ys] Hl; try discriminate Hl; [destruct H|].
  cbn [List.concat] in H. apply in_app_or in H as [H|H].
  - exists 0%nat, a, y. repeat split. exact H.
  - injection Hl as Hl. destruct (IH H ys Hl) as (i & b & w & Hb & Hw & Hin). exists (S i), b, w. auto.
Qed.

(** C44 of the output *)
Lemma tempcal_range : forall n s e mz (g : gcode A) out, (1 <= n)%Z ->
  tempcal (Steps (StepsInt n)) s e mz g = (out, None) ->
  forall l, In l (added out) -> exists r, line_for r l /\
    (val s <= val e -> val s <= r <= val e) /\
    (val e <= val s -> val e + (val e - val s) / IZR n <= r <= val s).
Proof.
  intros n s e mz g out Hn H l Hl.
  destruct (tempcal_adds E (Steps (StepsInt n)) _ _ _ _ _ Hn H) as (z0 & adds & _ & Hlt & Hlen & -> & Ha).
  destruct (woven_in _ _ _ Hlen Hl) as (i & a & y & Hi & Hy & Hin).
  destruct (Ha i a y Hi Hy) as [->|(l' & z & -> & _ & _ & Hz & Hf)]; [destruct Hin|].
  destruct Hin as [<-|[]]. eexists. split; [exact Hf|]. cbn [target].
  apply steeper_props; [apply (IZR_le 1), Hn|exact Hlt|exact Hz].
Qed.

End Corollaries.

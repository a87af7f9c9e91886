(** * P_FloatWrite: what temperature calibration writes, for IEEE doubles *)
From Coq Require Import List String ZArith NArith Bool Reals Lra Lia Floats.SpecFloat.
From Flocq Require Import Core Round Relative BinarySingleNaN Plus_error.
From Verif Require Import PyBase Arith ArithB64 Gcoder Samples Tempcal SpecTempcal SpecBinary64 SpecFloatTempcal.
From Verif Require Import P_Load P_Measure P_Tempcal P_TempcalRefuted P_Float P_FloatText P_FloatTempcal P_FloatGradient.
Import ListNotations.
Local Open Scope list_scope.
Local Open Scope R_scope.

(** ** The line for a target *)

Lemma temperature_line_B64 : forall x : num B64, fin x -> Rabs (fval x) <= 10 ^ 9 ->
  line_for (fval x) (temperature_gcode (py_round (A:=B64) 1 x)).
Proof.
  intros x F B. destruct (f_dec_val 1 x F) as (neg & m & Hd & Hn & Hp & He).
  unfold py_round. change (n_dec 1 x) with (f_dec 1 x). rewrite Hd. change (@n_of_dec B64) with f_of_dec.
  assert (Bm : IZR (Z.of_N m) <= 10 ^ 11).
  { apply Rabs_le_both in He. cbn [pow] in *. lra. }
  set (t := f_of_dec neg m 1).
  assert (Bv : Rabs (dval neg m 1) <= 10 ^ 10).
  { rewrite dval_abs. cbn [pow] in *. lra. }
  destruct (f_of_dec_val neg m 1) as [Ft Vt]; [apply big_trillion; lra|]. fold t in Ft, Vt.
  destruct min_temp as [F1 V1], max_temp as [F2 V2].
  exists (if neg then - Z.of_N m else Z.of_N m)%Z. split.
  { destruct neg.
    - assert (Hx : fval x <= 0) by (apply Rnot_lt_le; intros H; apply Hp in H; discriminate H).
      rewrite (Rabs_left1 (fval x)) in He by exact Hx. rewrite opp_IZR, <- Rabs_Ropp.
      replace (- (- IZR (Z.of_N m) - 10 * fval x)) with (IZR (Z.of_N m) - - fval x * 10 ^ 1) by (cbn [pow]; ring). exact He.
    - assert (Hx : 0 <= fval x) by (apply Rnot_lt_le; intros H; apply Hn in H; discriminate H).
      rewrite (Rabs_pos_eq (fval x)) in He by exact Hx.
      replace (IZR (Z.of_N m) - 10 * fval x) with (IZR (Z.of_N m) - fval x * 10 ^ 1) by (cbn [pow]; ring). exact He. }
  assert (Hm0 : 0 <= IZR (Z.of_N m)) by (apply IZR_le; lia).
  assert (Hg : forall k, rnd (IZR k) = IZR k \/ (Z.abs k > 1000000)%Z).
  { intros k. destruct (Z_le_gt_dec (Z.abs k) 1000000) as [Hk|Hk]; [left|right; exact Hk].
    apply round_generic; [apply valid_rnd_N|]. apply generic_format_FLT. apply FLT_spec with (Float radix2 k 0).
    - unfold F2R. cbn. ring.
    - cbn. lia.
    - cbn. lia. }
  destruct (Hg 150%Z) as [R150|]; [|lia]. destruct (Hg 250%Z) as [R250|]; [|lia].
  unfold temperature_gcode. change (@n_leb B64) with SFleb.
  destruct (SFleb (min_temperature (A:=B64)) t && SFleb t (max_temperature (A:=B64))) eqn:Eb.
  - left. apply andb_prop in Eb as [E1 E2]. apply (fleb_val _ _ F1 Ft) in E1. apply (fleb_val _ _ Ft F2) in E2.
    rewrite V1 in E1. rewrite V2 in E2. rewrite Vt in E1, E2.
    assert (Er : Rabs (rnd (dval neg m 1) - dval neg m 1) <= 10 ^ 10 * uu) by (apply rnd_rel; [exact Bv|lra]).
    apply Rabs_le_both in Er. unfold uu in Er. unfold dval in *. cbn [pow] in *. destruct neg; [lra|].
    assert (H1 : 1499 < IZR (Z.of_N m)) by lra. assert (H2 : IZR (Z.of_N m) < 2501) by lra.
    apply (lt_IZR 1499) in H1. apply (lt_IZR _ 2501) in H2. split; [lia|]. rewrite N2Z.id. f_equal.
    unfold fmt. change (@n_dec B64) with f_dec. unfold t. rewrite f_dec_of_dec; [|lia|change (IZR (2 ^ 51)) with 2251799813685248; lra].
    cbn [String.append]. symmetry. apply tenths_dec.
  - right. split; [|reflexivity]. intros Hm. destruct neg; [lia|].
    assert (M1 : 1500 <= IZR (Z.of_N m)) by (apply IZR_le; lia). assert (M2 : IZR (Z.of_N m) <= 2500) by (apply IZR_le; lia).
    assert (Hv : dval false m 1 = IZR (Z.of_N m) / 10) by (unfold dval; cbn [pow]; field).
    apply andb_false_iff in Eb as [Eb|Eb]; apply not_true_iff_false in Eb; apply Eb.
    + apply (fleb_val _ _ F1 Ft). rewrite V1, Vt, <- R150. apply rnd_le. rewrite Hv. lra.
    + apply (fleb_val _ _ Ft F2). rewrite V2, Vt, <- R250. apply rnd_le. rewrite Hv. lra.
Qed.

(** equal targets have the same line *)
Lemma fin_inj : forall x y : num B64, fin x -> fin y -> fval x = fval y -> fval x <> 0 -> x = y.
Proof.
  intros x y Hx Hy H Hn. apply fin_B in Hx as (a & -> & Fa & Ea). apply fin_B in Hy as (b & -> & Fb & Eb).
  rewrite Ea, Eb in *. f_equal. apply B2R_inj; [| |exact H].
  - destruct a; try discriminate Fa; [exfalso; apply Hn; reflexivity|reflexivity].
  - destruct b; try discriminate Fb; [exfalso; apply Hn; rewrite H; reflexivity|reflexivity].
Qed.

Lemma same_line : forall x y : num B64, fin x \/ is_finite_SF x = false -> fin y \/ is_finite_SF y = false ->
  n_eqb (a:=B64) x y = true -> temperature_gcode x = temperature_gcode y.
Proof.
  intros x y Hx Hy H.
  destruct (temperature_B64 _ Hx) as [Ex|(Fx & Vx & _)]; destruct (temperature_B64 _ Hy) as [Ey|(Fy & Vy & _)].
  - congruence.
  - destruct Hx as [Fx|Fx].
    + apply (feqb_val _ _ Fx Fy) in H. symmetry in H. rewrite (fin_inj _ _ Fy Fx H); [reflexivity|lra].
    + exfalso. destruct Fy as [_ Fy]. destruct x as [s|s| |s m e]; try discriminate Fx; destruct y as [s'|s'| |s' m' e'];
        try discriminate Fy; try discriminate H; destruct s; discriminate H.
  - destruct Hy as [Fy|Fy].
    + apply (feqb_val _ _ Fx Fy) in H. rewrite (fin_inj _ _ Fx Fy H); [reflexivity|lra].
    + exfalso. destruct Fx as [_ Fx]. destruct y as [s|s| |s m e]; try discriminate Fy; destruct x as [s'|s'| |s' m' e'];
        try discriminate Fx; try discriminate H; destruct s; try discriminate H; destruct s'; discriminate H.
  - apply (feqb_val _ _ Fx Fy) in H. rewrite (fin_inj _ _ Fx Fy H); [reflexivity|lra].
Qed.

(** ** The lowest height *)

Section Heights.
Variable mz : num B64.
Hypothesis Fmz : fin mz.

Lemma fzmin_some : forall (ys : list (layer B64)) m, fin m -> Forall modest_num (start_heights ys) ->
  exists z, fold_left (zmin_step mz) ys (Some m) = Some z /\ fval z <= fval m /\
    (z = m \/ In z (start_heights ys) /\ fval mz < fval z < fval m) /\
    (forall h, In h (start_heights ys) -> fval mz < fval h -> fval z <= fval h).
Proof.
  induction ys as [|y ys IH]; intros m Hm H; cbn [fold_left].
  - exists m. split; [reflexivity|]. split; [lra|]. split; [left; reflexivity|]. intros h [].
  - change (start_heights (y :: ys)) with
      (match ly_lines y with
       | l :: _ => match t_z (lnotes l) with Some z => [z] | None => [] end
       | [] => [] end ++ start_heights ys) in *.
    unfold zmin_step at 2, layer_start. destruct (ly_lines y) as [|l ls]; [cbn [app] in *; apply IH; assumption|].
    destruct (t_z (lnotes l)) as [h|]; [|cbn [app] in *; apply IH; assumption].
    cbn [app] in H. inversion H as [|? ? Hh H']; subst.
    change (@n_ltb B64) with SFltb. destruct (SFltb mz h && SFltb h m) eqn:Hb.
    + apply andb_prop in Hb as [H1 H2]. apply (fltb_val _ _ Fmz (proj1 Hh)) in H1. apply (fltb_val _ _ (proj1 Hh) Hm) in H2.
      destruct (IH h (proj1 Hh) H') as (z & Hz & Hle & Hc & Hmn). exists z. split; [exact Hz|]. split; [lra|]. split.
      * right. destruct Hc as [->|[Hin Hc]].
        -- split; [left; reflexivity|lra].
        -- split; [right; exact Hin|lra].
      * intros k [<-|Hk] Hmk; [exact Hle|exact (Hmn k Hk Hmk)].
    + destruct (IH m Hm H') as (z & Hz & Hle & Hc & Hmn). exists z. split; [exact Hz|]. split; [exact Hle|]. split.
      * destruct Hc as [->|[Hin Hc]]; [left; reflexivity|right]. split; [right; exact Hin|exact Hc].
      * intros k [<-|Hk] Hmk; [|exact (Hmn k Hk Hmk)].
        apply andb_false_iff in Hb as [Hb|Hb].
        -- apply (fltb_val _ _ Fmz (proj1 Hh)) in Hmk. congruence.
        -- assert (~ fval h < fval m) by (intros Hlt; apply (fltb_val _ _ (proj1 Hh) Hm) in Hlt; congruence). lra.
Qed.

Lemma fzmin_none : forall (ys : list (layer B64)), Forall modest_num (start_heights ys) ->
  match fold_left (zmin_step mz) ys None with
  | None => start_heights ys = []
  | Some z => flowest (fval mz) (start_heights ys) (fval z) /\ In z (start_heights ys)
  end.
Proof.
  induction ys as [|y ys IH]; intros H; cbn [fold_left]; [reflexivity|].
  change (start_heights (y :: ys)) with
    (match ly_lines y with
     | l :: _ => match t_z (lnotes l) with Some z => [z] | None => [] end
     | [] => [] end ++ start_heights ys) in *.
  unfold zmin_step at 2, layer_start. destruct (ly_lines y) as [|l ls]; [cbn [app] in *; exact (IH H)|].
  destruct (t_z (lnotes l)) as [h|]; [|cbn [app] in *; exact (IH H)].
  cbn [app] in H. inversion H as [|? ? Hh H']; subst.
  destruct (fzmin_some ys h (proj1 Hh) H') as (z & -> & Hle & Hc & Hm). cbn [app flowest]. split; [split|].
  - destruct Hc as [->|[Hin Hc]]; [left; reflexivity|right]. split; [exists z; split; [right; exact Hin|reflexivity]|exact Hc].
  - intros w [->|[(k & [<-|Hk] & <-) Hw]]; [exact Hle|lra|apply Hm; [exact Hk|lra]].
  - destruct Hc as [->|[Hin _]]; [left; reflexivity|right; exact Hin].
Qed.

Lemma flowest_unique : forall m hs a b, flowest m hs a -> flowest m hs b -> a = b.
Proof.
  intros m [|h hs] a b Ha Hb; [contradiction|]. destruct Ha as [Ha1 Ha2], Hb as [Hb1 Hb2].
  apply Rle_antisym; [apply Ha2, Hb1|apply Hb2, Ha1].
Qed.

End Heights.

Lemma ffind_zmin_ok : forall s e mz (g : gcode B64) zmin, modest_print s e mz g -> find_zmin mz g = Ok zmin ->
  flowest (fval mz) (start_heights (g_layers g)) (fval zmin) /\ modest_num zmin /\ fval zmin < fval (g_zmax g).
Proof.
  intros s e mz g zmin (_ & _ & [Fmz _] & [Fx _] & Hh) H. unfold find_zmin in H.
  pose proof (fzmin_none mz Fmz (g_layers g) Hh) as Hz.
  destruct (fold_left (zmin_step mz) (g_layers g) None) as [z|]; [|discriminate H].
  change (@n_leb B64) with SFleb in H. destruct (SFleb (g_zmax g) z) eqn:Hb; [discriminate H|]. apply ok_inj in H. subst z.
  destruct Hz as [Hl Hin]. rewrite Forall_forall in Hh. pose proof (Hh _ Hin) as Hm. split; [exact Hl|]. split; [exact Hm|].
  apply Rnot_le_lt. intros Hle. apply (fleb_val _ _ Fx (proj1 Hm)) in Hle. congruence.
Qed.

Lemma ffind_zmin_dec : forall s e mz (g : gcode B64), modest_print s e mz g ->
  (exists zmin, find_zmin mz g = Ok zmin) \/
  find_zmin mz g = Err RuntimeError /\
  (forall z, flowest (fval mz) (start_heights (g_layers g)) z -> fval (g_zmax g) <= z).
Proof.
  intros s e mz g (_ & _ & [Fmz _] & [Fx _] & Hh). unfold find_zmin.
  pose proof (fzmin_none mz Fmz (g_layers g) Hh) as Hz.
  destruct (fold_left (zmin_step mz) (g_layers g) None) as [z|].
  - destruct Hz as [Hl Hin]. rewrite Forall_forall in Hh. pose proof (Hh _ Hin) as Hm.
    change (@n_leb B64) with SFleb. destruct (SFleb (g_zmax g) z) eqn:Hb; [right; split; [reflexivity|]|left; exists z; reflexivity].
    intros w Hw. rewrite (flowest_unique _ _ _ _ Hw Hl). apply (fleb_val _ _ Fx (proj1 Hm)), Hb.
  - right. split; [reflexivity|]. rewrite Hz. intros z [].
Qed.

(** ** The temperature for a layer *)

Lemma target_size : forall gr s e z0 z1 z, modest_gradient gr -> Rabs s <= 10 ^ 6 -> Rabs e <= 10 ^ 6 ->
  z0 < z1 -> z0 <= z <= z1 -> Rabs (target gr s e z0 z1 z) <= 10 ^ 8.
Proof.
  intros gr s e z0 z1 z Hg Hs He Hlt Hz. apply Rabs_le_both in Hs, He. apply Rabs_le.
  destruct gr as [|[n|t]]; cbn [target]; [| |contradiction].
  - destruct (linear_props s e z0 z1 Hlt) as (_ & _ & H & _). specialize (H z Hz). revert H. unfold Rmin, Rmax.
    repeat match goal with |- context [Rle_dec ?a ?b] => destruct (Rle_dec a b) end; lra.
  - cbn [modest_gradient] in Hg. assert (Hn : 1 <= IZR n) by (apply (IZR_le 1), Hg).
    destruct (steeper_props (IZR n) s e z0 z1 z Hn Hlt Hz) as [H1 H2].
    assert (Hi : 0 < / IZR n <= 1).
    { split; [apply Rinv_0_lt_compat; lra|]. rewrite <- Rinv_1. apply Rinv_le_contravar; lra. }
    destruct (Rle_or_lt s e) as [H|H]; [specialize (H1 H); lra|]. specialize (H2 (Rlt_le _ _ H)).
    assert (s - e <= 2 * 10 ^ 6) by lra. assert ((s - e) * / IZR n <= 2 * 10 ^ 6 * 1) by (apply Rmult_le_compat; lra).
    unfold Rdiv in H2. lra.
Qed.

Lemma behind_temp_B64 : forall gr s e mz (g : gcode B64) temp zmin, modest_gradient gr -> modest_print s e mz g ->
  behind gr s e mz g temp zmin -> / 10 ^ 9 <= fval (g_zmax g) - fval zmin ->
  forall z, modest_num z -> fval zmin <= fval z <= fval (g_zmax g) ->
  exists t, temp z = Ok t /\ fin t /\ Rabs (fval t) <= 10 ^ 9 /\
    Rabs (fval t - target gr (fval s) (fval e) (fval zmin) (fval (g_zmax g)) (fval z)) <= / 10 ^ 7.
Proof.
  intros gr s e mz g temp zmin Hg Hm [Hz Hb] Hgap z Fz Hr.
  destruct (ffind_zmin_ok _ _ _ _ _ Hm Hz) as (_ & Fmin & Hlt). destruct Hm as (Fs & Fe & _ & Fmax & _).
  pose proof (target_size gr _ _ _ _ _ Hg (proj2 Fs) (proj2 Fe) Hlt Hr) as Hsz.
  assert (HT : exists t, temp z = Ok t /\ fin t /\
    Rabs (fval t - target gr (fval s) (fval e) (fval zmin) (fval (g_zmax g)) (fval z)) <= / 10 ^ 7).
  { destruct gr as [|[n|t]]; [| |contradiction].
    - destruct Hb as (d & Hd & ->).
      destruct (continuous_near s e zmin (g_zmax g) z Fs Fe Fmin Fmax Fz Hgap Hr) as (d' & Hd' & F & B).
      rewrite Hd in Hd'. apply ok_inj in Hd'. subst d'. eexists. split; [reflexivity|]. split; assumption.
    - destruct Hb as (a & b & c & Hs & ->).
      destruct (step_near s e zmin (g_zmax g) z Fs Fe Fmin Fmax Fz Hgap Hr n Hg) as (a' & b' & c' & t & Hs' & Ht & F & B).
      rewrite Hs in Hs'. injection Hs' as <- <- <-. exists t. split; [exact Ht|]. split; assumption. }
  destruct HT as (t & Ht & F & B). exists t. split; [exact Ht|]. split; [exact F|]. split; [|exact B].
  apply (near_size _ _ _ _ _ B Hsz). lra.
Qed.

Lemma ftruthy : forall z : num B64, fin z -> (truthy z = true <-> fval z <> 0).
Proof.
  intros z F. assert (F0 : fin (n0 (A:=B64)) /\ fval (n0 (A:=B64)) = 0) by (split; [split; reflexivity|reflexivity]).
  unfold truthy. rewrite negb_true_iff, <- not_true_iff_false. change (@n_eqb B64) with SFeqb.
  rewrite (feqb_val _ _ F (proj1 F0)), (proj2 F0). tauto.
Qed.

Lemma starts_modest : forall (ys : list (layer B64)) y z, Forall modest_num (start_heights ys) -> In y ys ->
  starts_at y z -> modest_num z.
Proof.
  intros ys y z H Hy (l & t & Hl & Hz). rewrite Forall_forall in H. apply H. unfold start_heights.
  apply in_flat_map. exists y. split; [exact Hy|]. rewrite Hl, Hz. left. reflexivity.
Qed.

Lemma fin_range : forall zmin zmax z : num B64, fin zmin -> fin zmax -> fin z ->
  (truthy z && n_leb (a:=B64) zmin z && n_leb (a:=B64) z zmax = true <-> fval z <> 0 /\ fval zmin <= fval z <= fval zmax).
Proof.
  intros zmin zmax z F1 F2 F. rewrite !andb_true_iff, (ftruthy _ F). change (@n_leb B64) with SFleb.
  rewrite (fleb_val _ _ F1 F), (fleb_val _ _ F F2). tauto.
Qed.

Lemma fchain_adds : forall temp zmin zmax gr s e d adds (ys : list (layer B64)) last,
  Forall modest_num (start_heights ys) -> fin zmin -> fin zmax ->
  (forall z, modest_num z -> fval zmin <= fval z <= fval zmax -> exists t, temp z = Ok t /\ fin t /\ Rabs (fval t) <= 10 ^ 9 /\
     Rabs (fval t - target gr s e (fval zmin) (fval zmax) (fval z)) <= d) ->
  chain temp zmin zmax last adds ys ->
  forall i a y, nth_error adds i = Some a -> nth_error ys i = Some y ->
    a = [] \/ exists l z, a = [l] /\ starts_at y z /\ fval z <> 0 /\ fval zmin <= fval z <= fval zmax /\
                line_near d (target gr s e (fval zmin) (fval zmax) (fval z)) l.
Proof.
  intros temp zmin zmax gr s e d. induction adds as [|a adds IH]; intros [|y ys] last Hh F1 F2 Ht H;
    cbn [chain] in H; try contradiction; intros [|i] b w Hb Hw; try discriminate Hb.
  - injection Hb as <-. injection Hw as <-. destruct (layer_start y) as [z|] eqn:Hy; [|left; apply H].
    destruct H as (t & Hl & -> & _). unfold layer_target in Hl.
    destruct z as [z|]; [|apply ok_inj in Hl; subst t; left; reflexivity].
    pose proof (starts_modest _ _ _ Hh (or_introl eq_refl) (layer_start_some _ _ Hy)) as Fz.
    destruct (truthy z && n_leb zmin z && n_leb z zmax) eqn:Hc; [|apply ok_inj in Hl; subst t; left; reflexivity].
    apply (fin_range _ _ _ F1 F2 (proj1 Fz)) in Hc as [Hc0 Hc].
    destruct (Ht z Fz Hc) as (u & Hu & Fu & Bu & Hv). rewrite Hu in Hl. cbn [bind] in Hl. apply ok_inj in Hl. subst t.
    cbn [inject]. destruct (opt_eqb _ _); [left; reflexivity|right]. cbn [fst].
    eexists _, z. split; [reflexivity|]. split; [exact (layer_start_some _ _ Hy)|]. split; [exact Hc0|].
    split; [exact Hc|]. exists (fval u). split; [exact Hv|]. apply temperature_line_B64; assumption.
  - cbn in Hb, Hw.
    assert (Hh' : Forall modest_num (start_heights ys)).
    { change (start_heights (y :: ys)) with
        (match ly_lines y with
         | l :: _ => match t_z (lnotes l) with Some z => [z] | None => [] end
         | [] => [] end ++ start_heights ys) in Hh. apply Forall_app in Hh. apply Hh. }
    destruct (layer_start y) as [z|].
    + destruct H as (t & _ & _ & H). exact (IH _ _ Hh' F1 F2 Ht H i b w Hb Hw).
    + destruct H as [_ H]. exact (IH _ _ Hh' F1 F2 Ht H i b w Hb Hw).
Qed.

(** C43 *)
Lemma tempcal_adds_B64 : forall gr s e mz (g : gcode B64) out z0, modest_gradient gr -> modest_print s e mz g ->
  flowest (fval mz) (start_heights (g_layers g)) z0 -> z0 + / 10 ^ 9 <= fval (g_zmax g) ->
  tempcal gr s e mz g = (out, None) ->
  exists adds, List.length adds = List.length (g_layers g) /\ out = woven adds (g_layers g) /\
    forall i a y, nth_error adds i = Some a -> nth_error (g_layers g) i = Some y ->
      a = [] \/ exists l z, a = [l] /\ starts_at y z /\ fval z <> 0 /\ z0 <= fval z <= fval (g_zmax g) /\
                line_near (/ 10 ^ 7) (target gr (fval s) (fval e) z0 (fval (g_zmax g)) (fval z)) l.
Proof.
  intros gr s e mz g out z0 Hg Hm Hl Hgap H.
  destruct (tempcal_cases _ _ _ _ _ _ _ H) as [[_ Hx]|(temp & zmin & Hb & Hw)]; [contradiction|].
  destruct (write_chain _ _ _ _ _ _ Hw) as (adds & Hc & ->).
  destruct (ffind_zmin_ok _ _ _ _ _ Hm (proj1 Hb)) as (Hl2 & Fmin & Hlt). pose proof (flowest_unique _ _ _ _ Hl Hl2) as ->.
  exists adds. split; [exact (chain_length _ _ _ _ _ _ Hc)|]. split; [reflexivity|].
  pose proof Hm as (_ & _ & _ & Fmax & Hh).
  refine (fchain_adds _ _ _ _ _ _ _ _ _ _ Hh (proj1 Fmin) (proj1 Fmax) _ Hc).
  intros z Fz Hz. apply (behind_temp_B64 _ _ _ _ _ _ _ Hg Hm Hb); [lra|exact Fz|exact Hz].
Qed.

(** ** The temperature in force *)

Definition fin_force (last : option (num B64)) (before : list printed_line) : Prop :=
  match last with
  | None => added before = []
  | Some t => exists u pre, t = py_round (A:=B64) 1 u /\ added before = pre ++ [temperature_gcode t]
  end.

Lemma fchain_force : forall temp zmin zmax adds (ys : list (layer B64)) last before,
  chain temp zmin zmax last adds ys -> fin_force last before ->
  forall pre y post z t, ys = pre ++ y :: post -> starts_at y z ->
    truthy z && n_leb zmin z && n_leb z zmax = true -> temp z = Ok t ->
    exists b1 b2 as1, woven adds ys = b1 ++ map (fun l => Copied (raw l)) (ly_lines y) ++ b2 /\
      without_added b1 = map raw (List.concat (map ly_lines pre)) /\
      added (before ++ b1) = as1 ++ [temperature_gcode (py_round (A:=B64) 1 t)].
Proof.
  intros temp zmin zmax. induction adds as [|a adds IH]; intros [|y0 ys] last before H Hf pre y post z t Hys Hs Hc Ht;
    cbn [chain] in H; try contradiction; [destruct pre; discriminate Hys|].
  destruct pre as [|p pre]; cbn [app] in Hys; injection Hys as -> ->.
  - rewrite (start_layer_some _ _ Hs) in H. destruct H as (o & Ho & -> & H).
    unfold layer_target in Ho. rewrite Hc, Ht in Ho. cbn [bind] in Ho. apply ok_inj in Ho. subst o.
    cbn [inject] in *. destruct (opt_eqb (Some (py_round 1 t)) last) eqn:Hq; cbn [fst snd] in *.
    + destruct last as [lt|]; [|discriminate Hq]. cbn [opt_eqb] in Hq.
      cbn [fin_force] in Hf. destruct Hf as (u & pre & Hu & Hp).
      exists [], (woven adds post), pre. cbn [woven map app]. split; [reflexivity|]. split; [reflexivity|].
      rewrite app_nil_r, Hp. f_equal. f_equal. symmetry. subst lt. apply same_line; [apply py_round_any..|exact Hq].
    + exists [Added (temperature_gcode (py_round (A:=B64) 1 t))], (woven adds post), (added before).
      cbn [woven map app]. split; [reflexivity|]. split; [reflexivity|]. rewrite added_app. reflexivity.
  - assert (HX : exists last', chain temp zmin zmax last' adds (pre ++ y :: post) /\
               fin_force last' (before ++ map Added a ++ map (fun l => Copied (raw l)) (ly_lines p))).
    { destruct (layer_start p) as [w|] eqn:Hp.
      - destruct H as (o & Ho & -> & H). exists (snd (inject last o)). split; [exact H|].
        unfold fin_force. rewrite !added_app, added_added, added_copied, app_nil_r.
        destruct o as [o|]; cbn [inject]; [|cbn [fst snd]; rewrite app_nil_r; exact Hf].
        destruct (opt_eqb (Some o) last); cbn [fst snd]; [rewrite app_nil_r; exact Hf|].
        unfold layer_target in Ho. destruct w as [w|]; [|discriminate Ho].
        destruct (_ && _); [|discriminate Ho]. destruct (temp w) as [v|]; [|discriminate Ho].
        cbn [bind] in Ho. apply ok_inj in Ho. injection Ho as <-. exists v, (added before). split; reflexivity.
      - destruct H as [-> H]. exists last. split; [exact H|]. unfold fin_force.
        rewrite !added_app, added_copied. cbn [map added flat_map app]. rewrite app_nil_r. exact Hf. }
    destruct HX as (last' & HC & HF).
    destruct (IH _ _ _ HC HF pre y post z t eq_refl Hs Hc Ht) as (b1 & b2 & as1 & Hw & Hwo & Ha).
    exists (map Added a ++ map (fun l => Copied (raw l)) (ly_lines p) ++ b1), b2, as1.
    split; [|split].
    + cbn [woven]. rewrite Hw, <- !app_assoc. reflexivity.
    + rewrite !without_app, without_added_nil, without_copied, Hwo. cbn [map List.concat app].
      rewrite map_app. reflexivity.
    + rewrite <- Ha. rewrite <- !app_assoc. reflexivity.
Qed.

(** C76 *)
Lemma tempcal_in_force_B64 : forall gr s e mz (g : gcode B64) out z0 pre y post z,
  modest_gradient gr -> modest_print s e mz g -> tempcal gr s e mz g = (out, None) ->
  flowest (fval mz) (start_heights (g_layers g)) z0 -> z0 + / 10 ^ 9 <= fval (g_zmax g) ->
  g_layers g = pre ++ y :: post -> starts_at y z -> fval z <> 0 -> z0 <= fval z <= fval (g_zmax g) ->
  exists before after l ls, out = before ++ map (fun l => Copied (raw l)) (ly_lines y) ++ after /\
    without_added before = map raw (List.concat (map ly_lines pre)) /\
    added before = ls ++ [l] /\
    line_near (/ 10 ^ 7) (target gr (fval s) (fval e) z0 (fval (g_zmax g)) (fval z)) l.
Proof.
  intros gr s e mz g out z0 pre y post z Hg Hm H Hl Hgap Hy Hs Hz Hr.
  destruct (tempcal_cases _ _ _ _ _ _ _ H) as [[_ Hx]|(temp & zmin & Hb & Hw)]; [contradiction|].
  destruct (write_chain _ _ _ _ _ _ Hw) as (adds & Hc & ->).
  destruct (ffind_zmin_ok _ _ _ _ _ Hm (proj1 Hb)) as (Hl2 & Fmin & Hlt). pose proof (flowest_unique _ _ _ _ Hl Hl2) as ->.
  pose proof Hm as (_ & _ & _ & Fmax & Hh).
  assert (Fz : modest_num z) by (refine (starts_modest _ y z Hh _ Hs); rewrite Hy; apply in_elt).
  destruct (behind_temp_B64 _ _ _ _ _ _ _ Hg Hm Hb ltac:(lra) z Fz Hr) as (t & Ht & Ft & Bt & Hv).
  assert (Hcond : truthy z && n_leb zmin z && n_leb z (g_zmax g) = true).
  { apply (fin_range _ _ _ (proj1 Fmin) (proj1 Fmax) (proj1 Fz)). split; assumption. }
  destruct (fchain_force _ _ _ _ _ _ [] Hc eq_refl pre y post z t Hy Hs Hcond Ht) as (b1 & b2 & as1 & H1 & H2 & H3).
  exists b1, b2, (temperature_gcode (py_round 1 t)), as1. split; [exact H1|]. split; [exact H2|].
  split; [exact H3|]. exists (fval t). split; [exact Hv|]. apply temperature_line_B64; assumption.
Qed.

(** C47 *)
Lemma span_never_zero : forall a b : num B64, modest_num a -> modest_num b -> fval a <> fval b -> forall c,
  py_div (A:=B64) c (fsub b a) = Ok (fdiv c (fsub b a)).
Proof.
  intros a b [Fa Ba] [Fb Bb] Hn c. destruct (fsub_val b a Fb Fa) as [F V].
  { apply big_trillion. apply Rabs_le_both in Ba, Bb. apply Rabs_le. lra. }
  assert (F0 : fin (n0 (A:=B64)) /\ fval (n0 (A:=B64)) = 0) by (split; [split; reflexivity|reflexivity]).
  unfold py_div. destruct (n_eqb (a:=B64) (fsub b a) n0) eqn:Eb; [|reflexivity]. exfalso.
  apply (feqb_val _ _ F (proj1 F0)) in Eb. rewrite (proj2 F0), V in Eb.
  apply fin_B in Fa as (x & -> & Hx & Ea). apply fin_B in Fb as (y & -> & Hy & Ey). rewrite Ea, Ey in *.
  revert Eb. unfold rnd, Rminus. apply round_plus_neq_0.
  - apply fexp_correct. reflexivity.
  - apply (@monotone_exp_not_FTZ (SpecFloat.fexp prec emax)); [apply fexp_correct; reflexivity|exact (FLT_exp_monotone (-1074) 53)].
  - apply valid_rnd_N.
  - apply generic_format_B2R.
  - apply generic_format_opp, generic_format_B2R.
  - lra.
Qed.

Lemma tempcal_refuses_B64 : forall gr s e mz (g : gcode B64), modest_gradient gr -> modest_print s e mz g ->
  (forall z, flowest (fval mz) (start_heights (g_layers g)) z -> fval (g_zmax g) <= z) ->
  tempcal gr s e mz g = ([], Some RuntimeError).
Proof.
  intros gr s e mz g Hg Hm H. destruct (ffind_zmin_dec _ _ _ _ Hm) as [(zmin & Hz)|[Hz _]].
  - destruct (ffind_zmin_ok _ _ _ _ _ Hm Hz) as (Hl & _ & Hlt). apply H in Hl. lra.
  - destruct gr as [|[n|t]]; cbn [tempcal]; [rewrite Hz; reflexivity| |contradiction].
    cbn [modest_gradient] in Hg. unfold step_init.
    destruct (int_exact n ltac:(lia)) as [Fn Vn]. assert (Hn : 1 <= IZR n) by (apply (IZR_le 1), Hg).
    assert (F0 : fin (n0 (A:=B64)) /\ fval (n0 (A:=B64)) = 0) by (split; [split; reflexivity|reflexivity]).
    unfold py_div. destruct (n_eqb (a:=B64) (n_of_Z n) n0) eqn:Eb.
    { apply (feqb_val _ _ Fn (proj1 F0)) in Eb. rewrite (proj2 F0), Vn in Eb. lra. }
    cbn [bind]. rewrite Hz. reflexivity.
Qed.

Lemma chain_total_in : forall temp zmin zmax (ys : list (layer B64)) last,
  (forall z, In z (start_heights ys) -> truthy z && n_leb zmin z && n_leb z zmax = true -> exists t, temp z = Ok t) ->
  exists out, write_layers temp zmin zmax last ys = (out, None).
Proof.
  intros temp zmin zmax ys. induction ys as [|y ys IH]; intros last Ht.
  - exists []. reflexivity.
  - change (start_heights (y :: ys)) with
      (match ly_lines y with
       | l :: _ => match t_z (lnotes l) with Some z => [z] | None => [] end
       | [] => [] end ++ start_heights ys) in Ht.
    cbn [write_layers]. unfold layer_start. destruct (ly_lines y) as [|l ls]; [apply IH, Ht|].
    assert (Ht' : forall z, In z (start_heights ys) -> truthy z && n_leb zmin z && n_leb z zmax = true -> exists t, temp z = Ok t).
    { intros z Hz. apply Ht. apply in_or_app. right. exact Hz. }
    assert (H : exists t, layer_target temp zmin zmax (t_z (lnotes l)) = Ok t).
    { unfold layer_target. destruct (t_z (lnotes l)) as [z|]; [|exists None; reflexivity].
      destruct (truthy z && n_leb zmin z && n_leb z zmax) eqn:Hc; [|exists None; reflexivity].
      destruct (Ht z (or_introl eq_refl) Hc) as (t & ->). eexists. reflexivity. }
    destruct H as (t & ->). destruct (inject last t) as [a last']. destruct (IH last' Ht') as (o & ->).
    eexists. reflexivity.
Qed.

Lemma tempcal_works_B64 : forall gr s e mz (g : gcode B64) z0, modest_gradient gr -> modest_print s e mz g ->
  flowest (fval mz) (start_heights (g_layers g)) z0 -> z0 < fval (g_zmax g) ->
  exists out, tempcal gr s e mz g = (out, None).
Proof.
  intros gr s e mz g z0 Hg Hm Hl Hlt. destruct (ffind_zmin_dec _ _ _ _ Hm) as [(zmin & Hz)|[_ H]]; [|apply H in Hl; lra].
  destruct (ffind_zmin_ok _ _ _ _ _ Hm Hz) as (Hl2 & Fmin & Hlt2). pose proof Hm as (Fs & Fe & _ & Fmax & Hh).
  assert (Hd := fun c => span_never_zero zmin (g_zmax g) Fmin Fmax (Rlt_not_eq _ _ Hlt2) c).
  assert (F0 : fin (n0 (A:=B64)) /\ fval (n0 (A:=B64)) = 0) by (split; [split; reflexivity|reflexivity]).
  destruct gr as [|[n|t]]; cbn [tempcal]; [| |contradiction].
  - rewrite Hz. unfold continuous_delta. change (@n_sub B64) with fsub. rewrite Hd. apply chain_total_in.
    intros z _ _. eexists. reflexivity.
  - cbn [modest_gradient] in Hg. unfold step_init.
    assert (Hi : forall k c, (1 <= k <= 2000000)%Z -> py_div (A:=B64) c (n_of_Z k) = Ok (fdiv c (n_of_Z (A:=B64) k))).
    { intros k c Hk. destruct (int_exact k ltac:(lia)) as [Fn Vn]. assert (Hn : 1 <= IZR k) by (apply (IZR_le 1), Hk).
      unfold py_div. destruct (n_eqb (a:=B64) (n_of_Z k) n0) eqn:Eb; [|reflexivity].
      apply (feqb_val _ _ Fn (proj1 F0)) in Eb. rewrite (proj2 F0), Vn in Eb. lra. }
    rewrite Hi by lia. cbn [bind]. rewrite Hz. apply chain_total_in. intros z _ _. unfold step_temp.
    change (@n_sub B64) with fsub. rewrite Hd. cbn [bind]. rewrite Hi by lia. cbn [bind]. eexists. reflexivity.
Qed.

(** C46 when the first layer is already above the limit *)
Lemma tempcal_above_B64 : forall gr s e mz (g : gcode B64) out h hs, modest_gradient gr -> modest_print s e mz g ->
  tempcal gr s e mz g = (out, None) -> start_heights (g_layers g) = h :: hs -> fval mz < fval h ->
  exists adds, List.length adds = List.length (g_layers g) /\ out = woven adds (g_layers g) /\
    forall i a y, nth_error adds i = Some a -> nth_error (g_layers g) i = Some y -> a <> [] ->
      exists z, starts_at y z /\ fval mz < fval z.
Proof.
  intros gr s e mz g out h hs Hg Hm H Hs Hlt.
  destruct (tempcal_cases _ _ _ _ _ _ _ H) as [[_ Hx]|(temp & zmin & Hb & Hw)]; [contradiction|].
  destruct (write_chain _ _ _ _ _ _ Hw) as (adds & Hc & ->).
  destruct (ffind_zmin_ok _ _ _ _ _ Hm (proj1 Hb)) as (Hl & Fmin & _). pose proof Hm as (_ & _ & _ & Fmax & Hh).
  assert (Hz0 : fval mz < fval zmin) by (rewrite Hs in Hl; destruct Hl as [[->|[_ Ht]] _]; lra).
  exists adds. split; [exact (chain_length _ _ _ _ _ _ Hc)|]. split; [reflexivity|].
  clear Hw H Hb Hl Hs. revert Hc Hh. generalize (g_layers g) as ys. generalize (@None (num B64)) as last.
  induction adds as [|a adds IH]; intros last [|y ys] Hc Hh i b w Hi Hy Hne; cbn [chain] in Hc; try contradiction;
    [destruct i; discriminate Hi|].
  destruct i as [|i].
  - injection Hi as <-. injection Hy as <-. destruct (layer_start y) as [z|] eqn:Ey; [|destruct Hne; apply Hc].
    destruct Hc as (t & Hl & -> & _). unfold layer_target in Hl.
    destruct z as [z|]; [|apply ok_inj in Hl; subst t; destruct Hne; reflexivity].
    pose proof (starts_modest _ _ _ Hh (or_introl eq_refl) (layer_start_some _ _ Ey)) as Fz.
    destruct (truthy z && n_leb zmin z && n_leb z (g_zmax g)) eqn:Hcc; [|apply ok_inj in Hl; subst t; destruct Hne; reflexivity].
    apply (fin_range _ _ _ (proj1 Fmin) (proj1 Fmax) (proj1 Fz)) in Hcc as [_ Hcc].
    exists z. split; [exact (layer_start_some _ _ Ey)|lra].
  - assert (Hh' : Forall modest_num (start_heights ys)).
    { change (start_heights (y :: ys)) with
        (match ly_lines y with
         | l :: _ => match t_z (lnotes l) with Some z => [z] | None => [] end
         | [] => [] end ++ start_heights ys) in Hh. apply Forall_app in Hh. apply Hh. }
    cbn in Hi, Hy. destruct (layer_start y) as [z|].
    + destruct Hc as (t & _ & _ & Hc). exact (IH _ _ Hc Hh' i b w Hi Hy Hne).
    + destruct Hc as [_ Hc]. exact (IH _ _ Hc Hh' i b w Hi Hy Hne).
Qed.

(** C44 *)
Lemma tempcal_range_B64 : forall n s e mz (g : gcode B64) out z0, (1 <= n <= 1000000)%Z -> modest_print s e mz g ->
  flowest (fval mz) (start_heights (g_layers g)) z0 -> z0 + / 10 ^ 9 <= fval (g_zmax g) ->
  tempcal (Steps (StepsInt n)) s e mz g = (out, None) ->
  forall l, In l (added out) -> exists r, line_near (/ 10 ^ 7) r l /\
    (fval s <= fval e -> fval s <= r <= fval e) /\
    (fval e <= fval s -> fval e + (fval e - fval s) / IZR n <= r <= fval s).
Proof.
  intros n s e mz g out z0 Hn Hm Hl Hgap H l Hin.
  destruct (tempcal_adds_B64 (Steps (StepsInt n)) _ _ _ _ _ _ Hn Hm Hl Hgap H) as (adds & Hlen & -> & Ha).
  destruct (woven_in _ _ _ Hlen Hin) as (i & a & y & Hi & Hy & Hia).
  destruct (Ha i a y Hi Hy) as [->|(l' & z & -> & _ & _ & Hz & Hf)]; [destruct Hia|].
  destruct Hia as [<-|[]]. eexists. split; [exact Hf|]. cbn [target].
  apply steeper_props; [apply (IZR_le 1); lia|lra|exact Hz].
Qed.

(** ** An example *)

Definition towerF : gcode B64 := get empty_program (load_gen (A:=B64) false home0 tower).
Lemma towerF_loaded : load_gen (A:=B64) false home0 tower = Ok towerF.
Proof. apply is_ok_get. vm_compute. reflexivity. Qed.

Lemma towerF_modest : modest_print (lit 220 0) (lit 210 0) (lit 1 1) towerF.
Proof.
  assert (K : forall x : num B64, fwithin (lit 1000000 0) x = true -> modest_num x) by (intros x H; exact (modest_shift_num x H)).
  repeat split; try (apply K; vm_compute; reflexivity).
  apply Forall_forall. intros x Hx. apply K.
  assert (Hb : forallb (fwithin (lit 1000000 0)) (start_heights (g_layers towerF)) = true) by (vm_compute; reflexivity).
  rewrite forallb_forall in Hb. apply Hb, Hx.
Qed.

Lemma towerF_lowest : exists z, flowest (fval (lit (A:=B64) 1 1)) (start_heights (g_layers towerF)) z /\
  z + / 10 ^ 9 <= fval (g_zmax towerF).
Proof.
  destruct (find_zmin (lit 1 1) towerF) as [z|e] eqn:H.
  - destruct (ffind_zmin_ok _ _ _ _ _ towerF_modest H) as (Hl & Fz & _). exists (fval z). split; [exact Hl|].
    assert (H1 : SFleb z (S754_zero false) = true).
    { assert (Hc : match find_zmin (A:=B64) (lit 1 1) towerF with Ok u => SFleb u (S754_zero false) | Err _ => false end = true)
        by (vm_compute; reflexivity).
      rewrite H in Hc. exact Hc. }
    assert (H2 : SFleb (lit (A:=B64) 1 0) (g_zmax towerF) = true) by (vm_compute; reflexivity).
    assert (F1 : fin (lit (A:=B64) 1 0)) by (split; vm_compute; reflexivity).
    assert (F0 : fin (S754_zero false)) by (split; vm_compute; reflexivity).
    destruct towerF_modest as (_ & _ & _ & [Fx _] & _).
    apply (fleb_val _ _ (proj1 Fz) F0) in H1. apply (fleb_val _ _ F1 Fx) in H2.
    replace (fval (lit (A:=B64) 1 0)) with 1 in H2.
    + change (fval (S754_zero false)) with 0 in H1. lra.
    + replace (lit (A:=B64) 1 0) with (S754_finite false 4503599627370496 (-52)) by (vm_compute; reflexivity).
      unfold fval, SF2R, F2R. cbn [Fnum Fexp cond_Zopp]. change (bpow radix2 (-52)) with (/ 4503599627370496). lra.
  - exfalso. assert (Ho : is_ok (find_zmin (lit 1 1) towerF) = true) by (vm_compute; reflexivity).
    rewrite H in Ho. discriminate Ho.
Qed.

Definition flatF : gcode B64 := get empty_program (load_gen (A:=B64) false home0 ["G90"; "M83"; "G1 X1 E1"]%string).
Lemma flatF_refused : tempcal Continuous (lit 200 0) (lit 220 0) (lit 1 1) flatF = ([], Some RuntimeError).
Proof. vm_compute. reflexivity. Qed.

Lemma above_example_B64 :
  exists g : gcode B64, load_gen false home0 hanging = Ok g /\
    map (fun z => fmt 1 z) (start_heights (g_layers g)) = ["1.0"; "0.2"; "3.0"]%string /\
    added (fst (tempcal (A:=B64) Continuous (lit 210 0) (lit 220 0) (lit 5 1) g)) =
    ["M104 S210.0"; "M104 S220.0"]%string.
Proof.
  exists (get empty_program (load_gen (A:=B64) false home0 hanging)).
  split; [apply is_ok_get; vm_compute; reflexivity|]. split; vm_compute; reflexivity.
Qed.

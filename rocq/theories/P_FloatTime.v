(** * P_FloatTime: the estimated durations for IEEE doubles *)
From Coq Require Import List Ascii String ZArith NArith Bool Lia Reals Lra Floats.SpecFloat.
From Flocq Require Import Core Round Relative BinarySingleNaN.
From Verif Require Import PyBase Arith ArithR ArithB64 Gcoder SpecText SpecLoad SpecMachine SpecMeasure SpecBinary64 SpecFloatTime.
From Verif Require Import P_Load P_Text P_Report P_Wf P_Measure P_Layers P_Float P_FloatText P_FloatTempcal P_FloatGradient.
Import ListNotations.
Local Open Scope list_scope.
Local Open Scope R_scope.

Local Instance Hprec : FLX.Prec_gt_0 prec := eq_refl _.
Local Instance Hmax : Prec_lt_emax prec emax := eq_refl _.

(** ** Numbers of a known size *)

Definition sized (B : R) (x : num B64) : Prop := fin x /\ Rabs (fval x) <= B.
Definition pos (B : R) (x : num B64) : Prop := fin x /\ 0 <= fval x <= B.

(** bounds that neither underflow nor overflow *)
Definition span (B : R) : Prop := / 10 ^ 30 <= B <= 10 ^ 39.

Lemma span_num : forall B, 1 <= B <= 1000000000000000000000000000000 -> span B.
Proof. intros B H. unfold span. cbn [pow]. lra. Qed.

Lemma rnd_sized : forall r B, Rabs r <= B -> span B -> Rabs (rnd r) <= 2 * B.
Proof.
  intros r B H [S1 S2]. pose proof (rnd_rel r B H S1) as K.
  apply Rabs_le_both in H, K. unfold uu in K. apply Rabs_le. lra.
Qed.

Lemma big_span : forall r B, Rabs r <= B -> span B -> Rabs r <= big.
Proof. intros r B H [_ S2]. apply big_trillion. cbn [pow] in S2 |- *. lra. Qed.

Lemma pos_sized : forall B x, pos B x -> sized B x.
Proof. intros B x [F H]. split; [exact F|]. rewrite Rabs_pos_eq; lra. Qed.
Lemma sized_pos : forall B x, sized B x -> 0 <= fval x -> pos B x.
Proof. intros B x [F H] P. split; [exact F|]. apply Rabs_le_both in H. lra. Qed.
Lemma pos_le : forall B C x, pos B x -> B <= C -> pos C x.
Proof. intros B C x [F H] L. split; [exact F|lra]. Qed.
Lemma sized_le : forall B C x, sized B x -> B <= C -> sized C x.
Proof. intros B C x [F H] L. split; [exact F|lra]. Qed.

Lemma sized_sub : forall A B C x y, sized A x -> sized B y -> A + B <= C -> span C -> sized (2 * C) (fsub x y).
Proof.
  intros A B C x y [Fx Hx] [Fy Hy] HC S. assert (H : Rabs (fval x - fval y) <= C).
  { apply Rabs_le_both in Hx, Hy. apply Rabs_le. lra. }
  destruct (fsub_val x y Fx Fy (big_span _ _ H S)) as [F V]. split; [exact F|]. rewrite V. apply rnd_sized; assumption.
Qed.
Lemma sized_add : forall A B C x y, sized A x -> sized B y -> A + B <= C -> span C -> sized (2 * C) (fadd x y).
Proof.
  intros A B C x y [Fx Hx] [Fy Hy] HC S. assert (H : Rabs (fval x + fval y) <= C).
  { apply Rabs_le_both in Hx, Hy. apply Rabs_le. lra. }
  destruct (fadd_val x y Fx Fy (big_span _ _ H S)) as [F V]. split; [exact F|]. rewrite V. apply rnd_sized; assumption.
Qed.
Lemma sized_mul : forall A B C x y, sized A x -> sized B y -> A * B <= C -> span C ->
  sized (2 * C) (fmul x y) /\ fval (fmul x y) = rnd (fval x * fval y).
Proof.
  intros A B C x y [Fx Hx] [Fy Hy] HC S. assert (H : Rabs (fval x * fval y) <= C).
  { rewrite Rabs_mult. eapply Rle_trans; [|exact HC]. apply Rmult_le_compat; auto using Rabs_pos. }
  destruct (fmul_val x y Fx Fy (big_span _ _ H S)) as [F V]. split; [|exact V]. split; [exact F|]. rewrite V. apply rnd_sized; assumption.
Qed.
Lemma sized_div : forall A d C x y, sized A x -> fin y -> 0 < d -> d <= fval y -> A / d <= C -> span C ->
  sized (2 * C) (fdiv x y) /\ fval (fdiv x y) = rnd (fval x / fval y).
Proof.
  intros A d C x y [Fx Hx] Fy Hd Hy HC S. assert (H : Rabs (fval x / fval y) <= C).
  { unfold Rdiv. rewrite Rabs_mult. eapply Rle_trans; [|exact HC].
    apply Rmult_le_compat; auto using Rabs_pos.
    rewrite Rabs_pos_eq by (apply Rlt_le, Rinv_0_lt_compat; lra). apply Rinv_le_contravar; lra. }
  destruct (fdiv_val x y Fx Fy ltac:(lra) (big_span _ _ H S)) as [F V].
  split; [|exact V]. split; [exact F|]. rewrite V. apply rnd_sized; assumption.
Qed.

Lemma pos_add : forall A B C x y, pos A x -> pos B y -> A + B <= C -> span C -> pos (2 * C) (fadd x y).
Proof.
  intros A B C x y Hx Hy HC S. apply sized_pos; [eapply sized_add; eauto using pos_sized|].
  destruct Hx as [Fx Hx], Hy as [Fy Hy]. assert (H : Rabs (fval x + fval y) <= C) by (rewrite Rabs_pos_eq; lra).
  destruct (fadd_val x y Fx Fy (big_span _ _ H S)) as [_ V]. rewrite V. apply rnd_nonneg. lra.
Qed.
Lemma pos_sub : forall A B C x y, pos A x -> pos B y -> fval y <= fval x -> A + B <= C -> span C -> pos (2 * C) (fsub x y).
Proof.
  intros A B C x y Hx Hy L HC S. apply sized_pos; [eapply sized_sub; eauto using pos_sized|].
  destruct Hx as [Fx Hx], Hy as [Fy Hy]. assert (H : Rabs (fval x - fval y) <= C) by (apply Rabs_le; lra).
  destruct (fsub_val x y Fx Fy (big_span _ _ H S)) as [_ V]. rewrite V. apply rnd_nonneg. lra.
Qed.
Lemma pos_mul : forall A B C x y, pos A x -> pos B y -> A * B <= C -> span C -> pos (2 * C) (fmul x y).
Proof.
  intros A B C x y Hx Hy HC S. destruct (sized_mul A B C x y (pos_sized _ _ Hx) (pos_sized _ _ Hy) HC S) as [H V].
  apply sized_pos; [exact H|]. rewrite V. apply rnd_nonneg. apply Rmult_le_pos; [apply Hx|apply Hy].
Qed.
Lemma pos_div : forall A d C x y, pos A x -> fin y -> 0 < d -> d <= fval y -> A / d <= C -> span C -> pos (2 * C) (fdiv x y).
Proof.
  intros A d C x y Hx Fy Hd Hy HC S. destruct (sized_div A d C x y (pos_sized _ _ Hx) Fy Hd Hy HC S) as [H V].
  apply sized_pos; [exact H|]. rewrite V. apply rnd_nonneg. unfold Rdiv. apply Rmult_le_pos; [apply Hx|].
  apply Rlt_le, Rinv_0_lt_compat. lra.
Qed.

Lemma pos_abs : forall B x, sized B x -> pos B (SFabs x).
Proof.
  intros B x [[V F] H].
  assert (E : fin (SFabs x) /\ fval (SFabs x) = Rabs (fval x)).
  { destruct x as [s|s| |s m e]; try discriminate F.
    - split; [split; reflexivity|]. unfold fval. cbn. rewrite Rabs_R0. reflexivity.
    - split; [split; [exact V|reflexivity]|]. unfold fval. cbn [SFabs SF2R]. rewrite <- F2R_Zabs. f_equal. f_equal.
      destruct s; reflexivity. }
  destruct E as [E1 E2]. split; [exact E1|]. rewrite E2. split; [apply Rabs_pos|exact H].
Qed.

Lemma fsqrt_equiv : forall x : binary_float prec emax, fsqrt (B2SF x) = B2SF (Bsqrt mode_NE x).
Proof.
  intros [s|s| |s m e B]; try reflexivity.
  - destruct s; reflexivity.
  - destruct s; [reflexivity|]. unfold fsqrt. cbn [SFsqrt B2SF Bsqrt]. rewrite B2SF_SF2B.
    set (melz := SFsqrt_core_binary _ _ _ _). destruct melz as [[mz ez] lz]. apply binary_round_aux_equiv.
Qed.

Lemma pos_sqrt : forall B x, pos (B * B) x -> 0 <= B -> span B -> pos (2 * B) (fsqrt x).
Proof.
  intros B x [F H] HB S. apply fin_B in F as (b & -> & Fb & Ex). rewrite Ex in H. rewrite fsqrt_equiv.
  pose proof (Bsqrt_correct prec emax Hprec Hmax mode_NE b) as (K1 & K2 & _).
  assert (Hf : is_finite (Bsqrt mode_NE b) = true).
  { rewrite K2. destruct b as [s|s| |s m e Bd]; try discriminate Fb; [reflexivity|]. destruct s; [|reflexivity].
    exfalso. destruct H as [H _]. cbn [B2R] in H. apply Rle_not_lt in H. apply H. apply F2R_lt_0. reflexivity. }
  destruct (B_fin _ Hf) as [F V]. split; [exact F|]. rewrite V, K1.
  change (round radix2 (SpecFloat.fexp prec emax) (round_mode mode_NE)) with rnd.
  assert (H0 : 0 <= sqrt (B2R b)) by apply sqrt_pos.
  assert (H1 : sqrt (B2R b) <= B).
  { rewrite <- (sqrt_square B HB). apply sqrt_le_1_alt. lra. }
  split; [apply rnd_nonneg, H0|]. eapply Rle_trans; [apply Rle_abs|]. apply rnd_sized; [|exact S]. rewrite Rabs_pos_eq; lra.
Qed.

Lemma pos_lit : forall m, (m <= 1000000)%N -> pos (2 * 1000000) (lit (A:=B64) m 0).
Proof.
  intros m Hm. destruct (fin_lit m ltac:(lia)) as [F V]. split; [exact F|]. rewrite V.
  assert (H : 0 <= IZR (Z.of_N m) <= 1000000) by (split; apply IZR_le; lia).
  split; [apply rnd_nonneg; lra|]. eapply Rle_trans; [apply Rle_abs|]. apply rnd_sized; [rewrite Rabs_pos_eq; lra|].
  apply span_num. lra.
Qed.

(** ** The total *)

Definition huge : R := bpow radix2 200.

Lemma huge_big : 2 * huge <= big.
Proof.
  unfold huge, big. change 2 with (bpow radix2 1). rewrite <- bpow_plus. apply bpow_le. lia.
Qed.

Lemma rnd_fval : forall x, fin x -> rnd (fval x) = fval x.
Proof.
  intros x F. apply fin_B in F as (b & -> & _ & ->). apply round_generic; [apply valid_rnd_N|apply generic_format_B2R].
Qed.

Lemma total_step : forall T t : num B64, fin T -> 0 <= fval T <= huge -> pos (10 ^ 30) t ->
  fin (fadd T t) /\ fval T <= fval (fadd T t) <= huge.
Proof.
  intros T t FT HT [Ft Ht].
  assert (H30 : 10 ^ 30 <= bpow radix2 147).
  { change (bpow radix2 147) with (IZR (2 ^ 147)). replace (10 ^ 30) with (IZR (10 ^ 30)) by (rewrite pow_IZR; reflexivity).
    apply IZR_le. vm_compute. discriminate. }
  assert (H147 : bpow radix2 147 <= huge) by (apply bpow_le; lia).
  assert (Hb : Rabs (fval T + fval t) <= big).
  { pose proof huge_big. rewrite Rabs_pos_eq by lra. lra. }
  destruct (fadd_val T t FT Ft Hb) as [F V]. split; [exact F|]. rewrite V. split.
  - rewrite <- (rnd_fval T FT) at 1. apply rnd_le. lra.
  - eapply Rle_trans; [apply rnd_le; instantiate (1 := huge + 10 ^ 30); lra|].
    apply round_N_le_midp; [apply fexp_correct; reflexivity| |].
    + apply generic_format_bpow. vm_compute. discriminate.
    + rewrite succ_eq_pos by (apply bpow_ge_0). unfold huge. rewrite ulp_bpow.
      change (SpecFloat.fexp prec emax (200 + 1)) with 148%Z. fold huge.
      assert (bpow radix2 148 = 2 * bpow radix2 147).
      { change 2 with (bpow radix2 1). rewrite <- bpow_plus. reflexivity. }
      assert (10 ^ 30 < bpow radix2 147).
      { change (bpow radix2 147) with (IZR (2 ^ 147)). replace (10 ^ 30) with (IZR (10 ^ 30)) by (rewrite pow_IZR; reflexivity).
        apply IZR_lt. vm_compute. reflexivity. }
      lra.
Qed.

(** differences of doubles: no underflow *)
Lemma fsub_rel : forall a b, fin a -> fin b -> Rabs (fval a - fval b) <= big ->
  fin (fsub a b) /\ Rabs (fval (fsub a b) - (fval a - fval b)) <= ulp1 * Rabs (fval a - fval b).
Proof.
  intros a b Fa Fb H. destruct (fsub_val a b Fa Fb H) as [F V]. split; [exact F|]. rewrite V.
  assert (Hg : forall x, fin x -> exists m, fval x = F2R (Float radix2 m (-1074))).
  { intros x Fx. apply fin_B in Fx as (c & -> & _ & ->).
    pose proof (generic_format_B2R prec emax c) as G. apply (generic_format_FIX_FLT radix2 (-1074) 53) in G.
    apply FIX_format_generic in G. destruct G as [[m e] G1 G2]. cbn in G2. subst e. eauto. }
  destruct (Hg a Fa) as (ma & Ea). destruct (Hg b Fb) as (mb & Eb).
  assert (E : fval a - fval b = F2R (Float radix2 (ma - mb) (-1074))).
  { rewrite Ea, Eb. unfold F2R. cbn [Fnum Fexp]. rewrite minus_IZR. ring. }
  rewrite E. pose proof (relative_error_N_FLT_F2R_emin radix2 (-1074) 53 ltac:(reflexivity) (fun n => negb (Z.even n)) (ma - mb)) as K.
  cbv zeta in K. unfold rnd. change (SpecFloat.fexp prec emax) with (FLT_exp (-1074) 53).
  eapply Rle_trans; [exact K|]. apply Req_le. f_equal. unfold ulp1. change (/ 2) with (bpow radix2 (-1)).
  rewrite <- bpow_plus. reflexivity.
Qed.

(** ** Feed rates *)

Definition feeds (x : num B64) : Prop := fin x /\ (fval x = 0 \/ / 100000000 <= fval x <= 1000000).

Lemma feeds_0 : feeds (n0 (A:=B64)).
Proof. split; [split; reflexivity|left; reflexivity]. Qed.

Lemma feeds_pos : forall x, feeds x -> pos 1000000 x.
Proof. intros x [F H]. split; [exact F|]. destruct H as [H|H]; lra. Qed.

Lemma feeds_read : forall v x, holds v x -> v = 0 \/ / 10 ^ 6 <= v -> feeds (fdiv x (lit (A:=B64) 60 0)).
Proof.
  intros v x (B & F & V) H.
  assert (M : fin (lit (A:=B64) 60 0) /\ fval (lit (A:=B64) 60 0) = 60).
  { destruct (fin_lit 60 ltac:(lia)) as [F60 V60]. split; [exact F60|].
    unfold fval. vm_compute SF2R. unfold F2R. cbn. lra. }
  destruct M as [F60 V60]. cbn [pow] in B, H. replace (10 * (10 * (10 * (10 * (10 * (10 * 1)))))) with 1000000 in B, H by ring.
  apply Rabs_le_both in B.
  assert (Hr : 0 <= rnd v <= 1000001 /\ (v <> 0 -> v * (1 - uu) <= rnd v <= v * (1 + uu))).
  { destruct H as [-> |H]; [rewrite rnd_0; split; [lra|intros Hc; exfalso; apply Hc; reflexivity]|].
    pose proof (rnd_rel v v) as K. rewrite Rabs_pos_eq in K by lra. specialize (K ltac:(lra)).
    specialize (K ltac:(cbn [pow]; lra)). apply Rabs_le_both in K. unfold uu in *. split; [lra|intros _; lra]. }
  destruct Hr as [Hr1 Hr2].
  assert (Hq : Rabs (fval x / fval (lit (A:=B64) 60 0)) <= big).
  { rewrite V, V60. apply million_big. rewrite Rabs_pos_eq; lra. }
  destruct (fdiv_val x _ F F60 ltac:(rewrite V60; lra) Hq) as [Fd Vd]. split; [exact Fd|]. rewrite Vd, V, V60.
  destruct H as [-> |H].
  - left. rewrite rnd_0. replace (0 / 60) with 0 by lra. apply rnd_0.
  - right. specialize (Hr2 ltac:(lra)). pose proof (rnd_rel (rnd v / 60) (rnd v / 60)) as K.
    rewrite Rabs_pos_eq in K by lra. specialize (K ltac:(lra)). unfold uu in *.
    specialize (K ltac:(cbn [pow]; lra)). apply Rabs_le_both in K. lra.
Qed.

(** two different feed rates have a sum one can divide by *)
Lemma feeds_sum : forall x y, feeds x -> feeds y -> fval y <> fval x ->
  sized (2 * 2000000) (fadd x y) /\ / 200000000 <= fval (fadd x y).
Proof.
  intros x y Hx Hy Hne. pose proof (feeds_pos x Hx) as Px. pose proof (feeds_pos y Hy) as Py.
  assert (Hsp : span 2000000) by (apply span_num; lra).
  split; [eapply sized_add; [apply pos_sized; eassumption|apply pos_sized; eassumption|lra|exact Hsp]|].
  destruct Hx as [Fx Vx], Hy as [Fy Vy].
  assert (H : / 100000000 <= fval x + fval y <= 2000000) by lra.
  destruct (fadd_val x y Fx Fy) as [_ ->].
  { apply (big_span _ 2000000); [rewrite Rabs_pos_eq; lra|exact Hsp]. }
  pose proof (rnd_rel (fval x + fval y) (fval x + fval y)) as K. rewrite Rabs_pos_eq in K by lra.
  specialize (K ltac:(lra) ltac:(cbn [pow]; lra)). apply Rabs_le_both in K. unfold uu in K. lra.
Qed.

(** ** One move *)

Definition placed (d : dstate B64) : Prop :=
  sized 1000001 (d_x d) /\ sized 1000001 (d_y d) /\ sized 1000001 (d_z d) /\ sized 1000001 (d_e d) /\ feeds (d_f d).

Lemma holds_sized : forall v x, holds v x -> sized 1000001 x.
Proof.
  intros v x (B & F & V). split; [exact F|]. rewrite V. cbn [pow] in B. pose proof (rnd_nearer v ltac:(lra)) as K.
  apply Rabs_le_both in B, K. apply Rabs_le. lra.
Qed.

Lemma default_sized : forall o (x : option (num B64)) d, held o x -> sized 1000001 d -> sized 1000001 (opt_default d x).
Proof.
  intros o x d H Hd. destruct o as [v|], x as [f|]; try contradiction; cbn; [|exact Hd]. eapply holds_sized, H.
Qed.

Lemma travel_sub : forall x y, sized 1000001 x -> sized 1000001 y -> sized (2 * 2000002) (fsub x y).
Proof. intros x y Hx Hy. eapply sized_sub; [exact Hx|exact Hy|lra|apply span_num; lra]. Qed.

Lemma lit_half : sized 1 (lit (A:=B64) 5 1).
Proof. split; [split; reflexivity|]. unfold fval. vm_compute SF2R. unfold F2R. cbn. rewrite Rabs_pos_eq; lra. Qed.
Lemma lit_two : pos 2 (n2 (A:=B64)).
Proof. split; [split; reflexivity|]. unfold fval. vm_compute SF2R. unfold F2R. cbn. lra. Qed.
Lemma lit_acc : fin (lit (A:=B64) 2000 0) /\ fval (lit (A:=B64) 2000 0) = 2000.
Proof. split; [split; reflexivity|]. unfold fval. vm_compute SF2R. unfold F2R. cbn. lra. Qed.
Lemma lit_thousand : fin (lit (A:=B64) 1000 0) /\ fval (lit (A:=B64) 1000 0) = 1000.
Proof. split; [split; reflexivity|]. unfold fval. vm_compute SF2R. unfold F2R. cbn. lra. Qed.

(** the time a move takes, once its travel and feed rates are known *)
Lemma time_pos : forall (travel f lastf t : num B64), pos 30000000 travel -> feeds f -> feeds lastf ->
  (if n_eqb f lastf then
     (if n_eqb f n0 then Ok n0 else Ok (n_div travel f))
   else
     let distance :=
       n_mul n2 (n_abs (n_div (n_mul (n_mul (n_add lastf f) (n_sub f lastf)) (lit 5 1))
                              (lit 2000 0))) in
     if n_leb distance travel && negb (n_eqb (n_add lastf f) n0) && negb (n_eqb f n0)
     then Ok (n_add (n_div (n_mul n2 distance) (n_add lastf f))
                    (n_div (n_sub travel distance) f))
     else py_div (n_mul n2 travel) (n_add lastf f)) = Ok t -> pos (10 ^ 30) t.
Proof.
  intros travel f lastf t Ht Hf Hl. pose proof (feeds_pos f Hf) as Pf. pose proof (feeds_pos lastf Hl) as Pl.
  assert (N0 : fin (n0 (A:=B64)) /\ fval (n0 (A:=B64)) = 0) by (split; [split; reflexivity|reflexivity]).
  change (@n_eqb B64) with SFeqb. change (@n_leb B64) with SFleb. change (@n_div B64) with fdiv.
  change (@n_mul B64) with fmul. change (@n_add B64) with fadd. change (@n_sub B64) with fsub. change (@n_abs B64) with SFabs.
  destruct (SFeqb f lastf) eqn:E1.
  { destruct (SFeqb f (n0 (A:=B64))) eqn:E2; intros H; apply ok_inj in H; subst t.
    - destruct N0 as [F0 V0]. split; [exact F0|]. rewrite V0. split; [lra|]. apply pow_le. lra.
    - assert (Hp : / 100000000 <= fval f).
      { destruct Hf as [Ff [V|V]]; [|lra]. exfalso.
        assert (SFeqb f (n0 (A:=B64)) = true) by (apply (feqb_val _ _ Ff (proj1 N0)); rewrite V; symmetry; apply N0). congruence. }
      eapply pos_le; [eapply (pos_div 30000000 (/ 100000000) 3000000000000000); try eassumption; try lra; [apply Hf|apply span_num; lra]|].
      cbn [pow]. lra. }
  assert (Hne : fval f <> fval lastf).
  { intros E. assert (SFeqb f lastf = true) by (apply (feqb_val _ _ (proj1 Hf) (proj1 Hl)); exact E). congruence. }
  destruct (feeds_sum lastf f Hl Hf Hne) as [S1 S2].
  assert (D1 : sized (2 * 2000000) (fsub f lastf)).
  { eapply sized_sub; [apply pos_sized, Pf|apply pos_sized, Pl|lra|apply span_num; lra]. }
  destruct (sized_mul _ _ 16000000000000 _ _ S1 D1 ltac:(lra) ltac:(apply span_num; lra)) as [M1 _].
  destruct (sized_mul _ _ 32000000000000 _ _ M1 lit_half ltac:(lra) ltac:(apply span_num; lra)) as [M2 _].
  destruct lit_acc as [Fa Va].
  destruct (sized_div _ 2000 32000000000 _ _ M2 Fa ltac:(lra) ltac:(lra) ltac:(lra) ltac:(apply span_num; lra)) as [M3 _].
  pose proof (pos_abs _ _ M3) as M4.
  pose proof (pos_mul _ _ 128000000000 _ _ lit_two M4 ltac:(lra) ltac:(apply span_num; lra)) as M5.
  cbv zeta.
  set (distance := fmul (n2 (A:=B64)) _) in *. set (total := fadd lastf f) in *.
  destruct (SFleb distance travel) eqn:E3; cbn [andb].
  - destruct (SFeqb total (n0 (A:=B64))) eqn:E4; cbn [negb andb].
    { exfalso. apply (feqb_val _ _ (proj1 S1) (proj1 N0)) in E4. rewrite (proj2 N0) in E4. lra. }
    destruct (SFeqb f (n0 (A:=B64))) eqn:E5; cbn [negb andb].
    + unfold py_div. change (@n_eqb B64) with SFeqb. rewrite E4. intros H. apply ok_inj in H. subst. change (@n_div B64) with fdiv.
      pose proof (pos_mul _ _ 60000000 _ _ lit_two Ht ltac:(lra) ltac:(apply span_num; lra)) as M6.
      eapply pos_le; [eapply (pos_div _ (/ 200000000) 24000000000000000); try exact M6; try exact S2; try lra; [apply S1|apply span_num; lra]|].
      cbn [pow]. lra.
    + intros H. apply ok_inj in H. subst.
      assert (Hp : / 100000000 <= fval f).
      { destruct Hf as [Ff [V|V]]; [|lra]. exfalso.
        assert (SFeqb f (n0 (A:=B64)) = true) by (apply (feqb_val _ _ Ff (proj1 N0)); rewrite V; symmetry; apply N0). congruence. }
      apply (fleb_val _ _ (proj1 M5) (proj1 Ht)) in E3.
      pose proof (pos_mul _ _ 512000000000 _ _ lit_two M5 ltac:(lra) ltac:(apply span_num; lra)) as M6.
      assert (M7 : pos (2 * 204800000000000000000) (fdiv (fmul (n2 (A:=B64)) distance) total)).
      { eapply (pos_div _ (/ 200000000)); try exact M6; try exact S2; try lra; [apply S1|apply span_num; lra]. }
      pose proof (pos_sub _ _ 256030000000 _ _ Ht M5 E3 ltac:(lra) ltac:(apply span_num; lra)) as M8.
      assert (M9 : pos (2 * 51206000000000000000) (fdiv (fsub travel distance) f)).
      { eapply (pos_div _ (/ 100000000)); try exact M8; try exact Hp; try lra; [apply Hf|apply span_num; lra]. }
      eapply pos_le; [eapply (pos_add _ _ 1000000000000000000000); [exact M7|exact M9|lra|apply span_num; lra]|]. cbn [pow]. lra.
  - unfold py_div. change (@n_eqb B64) with SFeqb.
    destruct (SFeqb total (n0 (A:=B64))) eqn:E4; [discriminate|]. intros H. apply ok_inj in H. subst. change (@n_div B64) with fdiv.
    pose proof (pos_mul _ _ 60000000 _ _ lit_two Ht ltac:(lra) ltac:(apply span_num; lra)) as M6.
    eapply pos_le; [eapply (pos_div _ (/ 200000000) 24000000000000000); try exact M6; try exact S2; try lra; [apply S1|apply span_num; lra]|].
    cbn [pow]. lra.
Qed.

Lemma hypot_pos : forall dx dy, sized (2 * 2000002) dx -> sized (2 * 2000002) dy -> pos 30000000 (n_hypot (a:=B64) dx dy).
Proof.
  intros dx dy Hx Hy. change (n_hypot (a:=B64) dx dy) with (fsqrt (fadd (fmul dx dx) (fmul dy dy))).
  assert (Hs : forall d, sized (2 * 2000002) d -> pos (2 * 17000000000000) (fmul d d)).
  { intros d Hd. destruct (sized_mul _ _ 17000000000000 _ _ Hd Hd ltac:(lra) ltac:(apply span_num; lra)) as [M V].
    apply sized_pos; [exact M|]. rewrite V. apply rnd_nonneg. apply Rle_0_sqr. }
  pose proof (pos_add _ _ 70000000000000 _ _ (Hs _ Hx) (Hs _ Hy) ltac:(lra) ltac:(apply span_num; lra)) as M.
  eapply pos_le; [eapply (pos_sqrt 15000000); [|lra|apply span_num; lra]|lra].
  eapply pos_le; [exact M|lra].
Qed.

Lemma move_time : forall (l : line B64) d d' w v, placed d -> fin (d_total d) -> 0 <= fval (d_total d) <= huge ->
  (forall k, held (w k) (get_arg k (largs l))) -> w LF = v -> (forall r, v = Some r -> r = 0 \/ / 10 ^ 6 <= r) ->
  move_duration l d = Ok d' -> placed d' /\ fin (d_total d') /\ fval (d_total d) <= fval (d_total d') <= huge.
Proof.
  intros l d d' w v (Px & Py & Pz & Pe & Pf) FT HT Hw Hv Hr. unfold move_duration.
  set (f := match l_f l with Some f => n_div f (lit 60 0) | None => d_f d end).
  set (lastf := if n_leb _ n0 then n0 else d_f d).
  pose proof (default_sized _ _ _ (Hw LX) Px) as Ax. pose proof (default_sized _ _ _ (Hw LY) Py) as Ay.
  pose proof (default_sized _ _ _ (Hw LZ) Pz) as Az. pose proof (default_sized _ _ _ (Hw LE) Pe) as Ae.
  cbn [get_arg] in Ax, Ay, Az, Ae.
  assert (Hf : feeds f).
  { unfold f. pose proof (Hw LF) as HF. cbn [get_arg] in HF. change (a_f (largs l)) with (l_f l) in HF.
    rewrite Hv in HF. destruct (l_f l) as [g|]; [|exact Pf]. destruct v as [r|]; [|contradiction].
    apply (feeds_read r); [exact HF|apply Hr; reflexivity]. }
  assert (Hlf : feeds lastf).
  { unfold lastf. destruct (n_leb _ n0); [apply feeds_0|exact Pf]. }
  pose proof (travel_sub _ _ Ax Px) as Dx. pose proof (travel_sub _ _ Ay Py) as Dy.
  pose proof (hypot_pos _ _ Dx Dy) as Hh.
  change (@n_sub B64) with fsub in *.
  set (travel := if n_eqb (n_hypot _ _) n0 then _ else _).
  assert (Htr : pos 30000000 travel).
  { unfold travel. destruct (n_eqb (n_hypot _ _) n0); [|exact Hh].
    change (@n_abs B64) with SFabs.
    pose proof (Hw LZ) as Lz. pose proof (Hw LE) as Le. cbn [get_arg] in Lz, Le.
    change (a_z (largs l)) with (l_z l) in Lz. change (a_e (largs l)) with (l_e l) in Le.
    assert (Ho : forall r o, held r o -> forall x, o = Some x -> sized 1000001 x).
    { intros r o H x ->. destruct r; [|contradiction]. eapply holds_sized, H. }
    destruct (l_z l) as [lz|].
    - pose proof (Ho _ _ Lz _ eq_refl) as Sz.
      destruct (t_relative (lnotes l)) as [[|]|]; eapply pos_le; try (apply pos_abs; first [exact Sz|apply (travel_sub _ _ Sz Pz)]); lra.
    - destruct (l_e l) as [le|]; [|exact Hh]. pose proof (Ho _ _ Le _ eq_refl) as Se.
      destruct (t_relative_e (lnotes l)) as [[|]|]; eapply pos_le; try (apply pos_abs; first [exact Se|apply (travel_sub _ _ Se Pe)]); lra. }
  pose proof (fun t => time_pos travel f lastf t Htr Hf Hlf) as Htime.
  change (@n_sub B64) with fsub in Htime.
  match goal with |- bind ?r _ = _ -> _ => destruct r as [t|e] end; cbn [bind]; [|discriminate].
  intros H. apply ok_inj in H. subst. cbn [d_x d_y d_z d_e d_f d_total].
  split; [split; [exact Ax|split; [exact Ay|split; [exact Az|split; [exact Ae|exact Hf]]]]|].
  apply (total_step _ _ FT HT). apply Htime. reflexivity.
Qed.

Lemma update_time : forall (l : line B64) s d d', freads s l -> modest_feed s -> modest_dwell s ->
  placed d -> fin (d_total d) -> 0 <= fval (d_total d) <= huge -> update_duration l d = Ok d' ->
  placed d' /\ fin (d_total d') /\ fval (d_total d) <= fval (d_total d') <= huge.
Proof.
  intros l s d d' Hr Hf Hd Hp FT HT H.
  assert (Hc : forall c, words c <> [] -> command l = Some c -> command_name s = Some c).
  { intros c Hw E. destruct Hr as (_ & [K|(K1 & K2 & K3)] & _); congruence. }
  unfold update_duration in H. destruct (cmd_in (command l) linear_move_gcodes) eqn:Em.
  - assert (Hg : exists c, command_name s = Some c /\ first_is "G" c = true).
    { unfold cmd_in in Em. destruct (command l) as [c|] eqn:Ec; [|discriminate Em].
      unfold linear_move_gcodes, str_mem in Em. cbn in Em.
      exists c. destruct (String.eqb_spec c "G0") as [-> |_]; [split; [apply Hc; [discriminate|reflexivity]|reflexivity]|].
      destruct (String.eqb_spec c "G1") as [-> |_]; [split; [apply Hc; [discriminate|reflexivity]|reflexivity]|discriminate Em]. }
    destruct Hg as (c & Hn & Hg). destruct Hr as (_ & _ & Hr). destruct (Hr c Hn Hg) as [_ Hw].
    refine (move_time l d d' (fun k => number_of (letter_code k) (words s)) _ Hp FT HT Hw eq_refl _ H).
    intros r E. apply Hf, E.
  - assert (Hsame : d' = d -> placed d' /\ fin (d_total d') /\ fval (d_total d) <= fval (d_total d') <= huge).
    { intros ->. split; [exact Hp|]. split; [exact FT|]. lra. }
    destruct (cmd_is (command l) "G4"); [|apply Hsame; injection H as <-; reflexivity].
    destruct Hr as (Hraw & _). unfold find_specific_code in H. rewrite Hraw in H. unfold modest_dwell in Hd.
    destruct (find_code "P" s) as [p|]; cbn [bind] in H; [|apply Hsame; injection H as <-; reflexivity].
    pose proof (py_float_B64 p) as Hpf. destruct (py_float (A:=B64) p) as [x|]; cbn [bind] in H; [|discriminate H].
    destruct (truthy x); [|apply Hsame; injection H as <-; reflexivity].
    clear Hsame. apply ok_inj in H. subst d'. cbn [d_x d_y d_z d_e d_f d_total]. split; [exact Hp|]. apply (total_step _ _ FT HT).
    destruct (py_float (A:=RA) p) as [v|]; [|contradiction]. specialize (Hd v eq_refl). cbn [pow] in Hd.
    destruct Hpf as [Fx Vx]; [apply million_big; rewrite Rabs_pos_eq; lra|].
    assert (Px : pos (2 * 1000000) x).
    { split; [exact Fx|]. rewrite Vx. split; [apply rnd_nonneg; lra|]. eapply Rle_trans; [apply Rle_abs|].
      apply rnd_sized; [rewrite Rabs_pos_eq; lra|apply span_num; lra]. }
    destruct lit_thousand as [F1 V1].
    eapply pos_le; [eapply (pos_div _ 1000 2000); try exact Px; try exact F1; try lra; apply span_num; lra|]. cbn [pow]. lra.
Qed.

(** ** A whole program *)

Record ftimed (ls : lstate B64) : Prop := FTimed {
  ft_placed : placed (ls_d ls);
  ft_total : fin (d_total (ls_d ls)) /\ fval (d_total (ls_d ls)) <= huge;
  ft_begin : fin (ls_begin ls) /\ 0 <= fval (ls_begin ls) <= fval (d_total (ls_d ls));
  ft_pos : Forall (fun y => fin (ly_dur y) /\ 0 <= fval (ly_dur y)) (ls_layers ls);
  ft_sum : Rabs (fsum_durations (ls_layers ls) - fval (ls_begin ls)) <= ulp1 * fval (ls_begin ls) }.

Lemma fsum_app : forall a b, fsum_durations (a ++ b) = fsum_durations a + fsum_durations b.
Proof.
  induction a as [|y a IH]; intros b; [unfold fsum_durations at 2; cbn [app fold_right]; lra|].
  unfold fsum_durations in *. cbn [app fold_right]. rewrite IH. lra.
Qed.

Lemma n0_val : fin (n0 (A:=B64)) /\ fval (n0 (A:=B64)) = 0.
Proof. split; [split; reflexivity|reflexivity]. Qed.

Lemma ftimed_init : ftimed (init_lstate (A:=B64)).
Proof.
  assert (Z : sized 1000001 (n0 (A:=B64))).
  { destruct n0_val as [F V]. split; [exact F|]. rewrite V, Rabs_R0. lra. }
  destruct n0_val as [F V]. constructor; cbn [ls_d ls_begin ls_layers init_lstate init_dstate d_total d_x d_y d_z d_e d_f].
  - repeat split; try apply Z; try apply feeds_0.
  - split; [exact F|]. rewrite V. apply bpow_ge_0.
  - split; [exact F|]. rewrite V. lra.
  - constructor.
  - rewrite V. unfold fsum_durations. cbn. rewrite Rminus_0_r, Rabs_R0, Rmult_0_r. lra.
Qed.

(** one more layer, from the beginning [b] to the end [t] *)
Lemma layer_dur : forall b t : num B64, fin b -> fin t -> 0 <= fval b <= fval t -> fval t <= huge ->
  fin (fsub t b) /\ 0 <= fval (fsub t b) /\ Rabs (fval (fsub t b) - (fval t - fval b)) <= ulp1 * (fval t - fval b).
Proof.
  intros b t Fb Ft Hb Ht.
  assert (Hbig : Rabs (fval t - fval b) <= big).
  { pose proof huge_big. pose proof (bpow_ge_0 radix2 200) as P. fold huge in P. rewrite Rabs_pos_eq by lra. lra. }
  destruct (fsub_rel t b Ft Fb Hbig) as [F K]. rewrite (Rabs_pos_eq (fval t - fval b)) in K by lra.
  split; [exact F|]. split; [|exact K]. destruct (fsub_val t b Ft Fb Hbig) as [_ ->]. apply rnd_nonneg. lra.
Qed.

Lemma sum_step : forall S d b t, Rabs (S - b) <= ulp1 * b -> Rabs (d - (t - b)) <= ulp1 * (t - b) ->
  Rabs (S + d - t) <= ulp1 * t.
Proof.
  intros S d b t H1 H2. replace (S + d - t) with ((S - b) + (d - (t - b))) by ring.
  eapply Rle_trans; [apply Rabs_triang|]. lra.
Qed.

Lemma ftimed_step : forall (m m' : mstate B64) s l (ls ls1 : lstate B64), m_imperial m = false -> modest_timing s ->
  motion_step m (new_line s) = Ok (m', l) -> layer_step l (m_max m') ls = Ok ls1 ->
  ftimed ls -> forall l', ftimed (push_line l' ls1) /\ m_imperial m' = false.
Proof.
  intros m m' s l ls ls1 Hi (Hm & Ho & Hf & Hw) Hs Hb [T1 [T2 T3] [T4 T5] T6 T7] l'.
  destruct (motion_freads _ _ _ _ Hs Hi Ho Hm) as [Hr Hi']. split; [|exact Hi']. unfold layer_step in Hb.
  assert (Hmain : ftimed ls1).
  { destruct (command l) as [c|]; [|apply ok_inj in Hb; subst ls1; constructor; auto].
    unfold layer_body in Hb. destruct (update_bbox l (m_max m') ls) as [bb bbe].
    destruct (update_duration l (ls_d ls)) as [d|e] eqn:Ed; cbn [bind] in Hb; [|discriminate Hb].
    destruct (update_time _ _ _ _ Hr Hf Hw T1 T2 ltac:(lra) Ed) as (D1 & D2 & D3).
    apply ok_inj in Hb. subst ls1. unfold update_layers. cbn [ls_cur_z ls_prev_z].
    destruct (opt_eqb _ _); [constructor; cbn [ls_d ls_begin ls_layers]; auto; split; auto; lra|].
    destruct (compute_base_z _) as [base est].
    destruct (match _ with Some b => opt_eqb base b | None => false end).
    { constructor; cbn [ls_d ls_begin ls_layers]; auto; split; auto; lra. }
    destruct (layer_dur _ _ T4 D2 ltac:(lra) ltac:(lra)) as (L1 & L2 & L3).
    constructor; cbn [ls_d ls_begin ls_layers]; auto.
    - split; [exact D2|lra].
    - split; [exact D2|lra].
    - apply Forall_app. split; [exact T6|]. constructor; [|constructor]. split; [exact L1|exact L2].
    - rewrite fsum_app. unfold fsum_durations at 2. cbn [fold_right ly_dur]. rewrite Rplus_0_r.
      exact (sum_step _ _ _ _ T7 L3). }
  destruct Hmain as [M1 M2 M3 M4 M5]. constructor; assumption.
Qed.

Lemma btrace_ftimed : forall light ts pl m m' ls ls', btrace (A:=B64) light m ls ts pl m' ls' ->
  m_imperial m = false -> Forall modest_timing ts -> ftimed ls -> ftimed ls'.
Proof.
  intros light ts pl m m' ls ls' H.
  induction H as [m ls|m ls s l m1 ls1 ts pl m' ls' Hs Hb Ht IH]; intros Hi Hok T; [exact T|].
  inversion Hok as [|? ? H1 H3]; subst.
  destruct (ftimed_step _ _ _ _ _ _ Hi H1 Hs Hb T (store light l)) as [T' Hi']. apply IH; assumption.
Qed.

Lemma load_durations_B64 : forall light home data (g : gcode B64),
  Forall modest_timing (program_text data) -> load_gen light home data = Ok g ->
  Forall (fun y => fin (ly_dur y) /\ 0 <= fval (ly_dur y)) (g_layers g) /\
  fin (g_total g) /\ 0 <= fval (g_total g) /\
  Rabs (fsum_durations (g_layers g) - fval (g_total g)) <= / 2 ^ 53 * fval (g_total g).
Proof.
  intros light home data g Hok H. destruct (load_btrace _ _ _ _ H) as (pl & ls & Hb & Hg).
  assert (Hi : m_imperial (init_mstate (A:=B64) home) = false) by (destruct home as [[hx hy] hz]; reflexivity).
  destruct (btrace_ftimed _ _ _ _ _ _ _ Hb Hi Hok ftimed_init) as [T1 [T2 T3] [T4 T5] T6 T7].
  replace (/ 2 ^ 53) with ulp1.
  2:{ unfold ulp1. cbn [bpow]. f_equal. rewrite pow_IZR. reflexivity. }
  assert (Hcur : ls_cur ls = [] -> ls_begin ls = d_total (ls_d ls)).
  { intros Hc. destruct (btrace_light light false _ _ _ _ _ _ Hb init_lstate eq_refl) as (ls2 & Hb2 & He).
    pose proof (btrace_cut _ _ _ _ _ _ Hb2 [] cut_init) as C. cbn [app] in C.
    assert (Hc2 : ls_cur ls2 = []).
    { apply (f_equal ls_cur) in He. cbn in He. rewrite Hc in He. destruct (ls_cur ls2); [reflexivity|discriminate He]. }
    assert (Hl2 : ls_layers ls2 = []).
    { destruct (ls_layers ls2) as [|y Y] eqn:EY; [reflexivity|].
      exfalso. apply (cut_cur _ _ C); [rewrite EY; discriminate|exact Hc2]. }
    assert (Hpl : pl = []).
    { rewrite <- (cut_concat _ _ C). unfold blocks_of. rewrite Hl2, Hc2. reflexivity. }
    subst pl. inversion Hb; subst. reflexivity. }
  destruct n0_val as [F0 V0].
  assert (Hend : Forall (fun y : layer B64 => fin (ly_dur y) /\ 0 <= fval (ly_dur y)) [Layer [] None n0]).
  { constructor; [|constructor]. cbn [ly_dur]. split; [exact F0|]. rewrite V0. lra. }
  assert (Hs0 : fsum_durations [Layer [] None n0] = 0).
  { unfold fsum_durations. cbn [fold_right ly_dur]. rewrite V0. lra. }
  rewrite Hg. unfold finalize. destruct (ls_cur ls) as [|a c].
  - cbn [g_layers g_total]. specialize (Hcur eq_refl). rewrite <- Hcur in *. split; [|split; [|split]].
    + apply Forall_app. split; assumption.
    + exact T4.
    + lra.
    + rewrite fsum_app, Hs0, Rplus_0_r. exact T7.
  - destruct (layer_dur _ _ T4 T2 ltac:(lra) ltac:(lra)) as (L1 & L2 & L3).
    cbn [g_layers g_total]. split; [|split; [|split]].
    + apply Forall_app. split; [|exact Hend].
      apply Forall_app. split; [exact T6|]. constructor; [|constructor]. split; [exact L1|exact L2].
    + exact T2.
    + lra.
    + rewrite !fsum_app, Hs0, Rplus_0_r. unfold fsum_durations at 2. cbn [fold_right ly_dur]. rewrite Rplus_0_r.
      exact (sum_step _ _ _ _ T7 L3).
Qed.

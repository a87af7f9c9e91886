(** * P_FloatStretchWhole: the stretch of a program, with doubles *)
From Coq Require Import List Ascii String ZArith NArith Bool Lia Reals Lra Psatz Floats.SpecFloat.
From Flocq Require Import Core Round BinarySingleNaN.
From Verif Require Import PyBase Arith ArithR ArithB64 Gcoder Filters SpecText SpecLoad SpecMachine SpecFilter SpecBinary64 SpecFloatStretch Stretch SpecStretch
  P_Load P_Text P_Measure P_Machine P_Format P_Stretch P_StretchIter P_StretchRead P_StretchTotal P_StretchGeo P_StretchProps P_Float P_FloatText P_FloatTrack P_FloatHypot P_FloatStretch.
Import ListNotations.
Local Open Scope list_scope.
Local Open Scope R_scope.

Local Existing Instance Hprec.
Local Existing Instance Hmax.

(** ** Settings *)

Lemma thousandth : bpow radix2 (-10) <= / 1000.
Proof. cbn. apply Rinv_le_contravar; lra. Qed.

Lemma mul_sized : forall i j k l a b, (-1074 <= i + k)%Z -> (j + l <= 1000)%Z -> (-1074 <= j + l)%Z -> (i + k <= 1000)%Z ->
  sized (bpow radix2 i) (bpow radix2 j) a -> sized (bpow radix2 k) (bpow radix2 l) b ->
  sized (bpow radix2 (i + k)) (bpow radix2 (j + l)) (fmul a b).
Proof.
  intros i j k l a b H1 H2 H3 H4 [Fa [La Ua]] [Fb [Lb Ub]]. pose proof (bpow_gt_0 radix2 i). pose proof (bpow_gt_0 radix2 k).
  assert (Ba : bnd j a) by (split; [exact Fa|rewrite Rabs_pos_eq by lra; exact Ua]).
  assert (Bb : bnd l b) by (split; [exact Fb|rewrite Rabs_pos_eq by lra; exact Ub]).
  destruct (mul_bnd j l a b ltac:(lia) Ba Bb) as [[F B] V]. split; [exact F|]. split.
  - rewrite V, <- (rnd_bpow (i + k)) by lia. apply rnd_le. rewrite bpow_plus. apply Rmult_le_compat; lra.
  - rewrite Rabs_pos_eq in B; [exact B|]. rewrite V. apply rnd_nonneg. nra.
Qed.

Lemma sized_le : forall a b c d x, a <= b -> c <= d -> sized b c x -> sized a d x.
Proof. intros a b c d x H1 H2 [F H]. split; [exact F|lra]. Qed.

Lemma half_fin : forall k x, fin x -> bpow radix2 k <= fval x -> (-1000 <= k)%Z -> rnd (fval x / 2) = fval x / 2.
Proof.
  intros k x F H Hk. apply fin_format in F. apply round_generic; [apply valid_rnd_N|].
  pose proof (bpow_gt_0 radix2 k) as P. pose proof (mag_ge_bpow radix2 (fval x) (k + 1)) as M.
  rewrite (Rabs_pos_eq (fval x)) in M by lra. replace (k + 1 - 1)%Z with k in M by lia. specialize (M H).
  replace (fval x / 2) with (fval x * bpow radix2 (-1)) by (cbn; lra).
  assert (Hx0 : fval x <> 0) by lra.
  apply generic_format_F2R' with (f := Float radix2 (Ztrunc (scaled_mantissa radix2 (SpecFloat.fexp prec emax) (fval x))) (cexp radix2 (SpecFloat.fexp prec emax) (fval x) + -1)).
  - assert (F' : fval x * bpow radix2 (-1) = F2R (Float radix2 (Ztrunc (scaled_mantissa radix2 (SpecFloat.fexp prec emax) (fval x))) (cexp radix2 (SpecFloat.fexp prec emax) (fval x))) * bpow radix2 (-1)) by (f_equal; exact F).
    rewrite F'. unfold F2R. cbn [Fnum Fexp]. rewrite bpow_plus. ring.
  - intros _. cbn [Fexp]. unfold cexp. rewrite mag_mult_bpow by exact Hx0.
    unfold SpecFloat.fexp, SpecFloat.emin, prec, emax. lia.
Qed.

Lemma lit3_val : fin (lit (A:=B64) 3 0) /\ fval (lit (A:=B64) 3 0) = 3.
Proof.
  change (lit (A:=B64) 3 0) with (f_of_dec false 3 0).
  assert (E : dval false 3 0 = 3) by (unfold dval; cbn; lra).
  destruct (f_of_dec_val false 3 0) as [F V]. { rewrite E, Rabs_pos_eq by lra. apply Rle_trans with (bpow radix2 2); [cbn; lra|apply bpow_le; lia]. }
  split; [exact F|]. rewrite V, E. apply round_generic; [apply valid_rnd_N|].
  replace 3 with (F2R (Float radix2 3 0)) by (unfold F2R; cbn; lra). apply generic_format_F2R. intros _. unfold cexp.
  replace (F2R (Float radix2 3 0)) with 3 by (unfold F2R; cbn; lra).
  rewrite (mag_unique radix2 3 2). { vm_compute. discriminate. }
  rewrite Rabs_pos_eq by lra. change (2 - 1)%Z with 1%Z. cbn. lra.
Qed.

Lemma fine_edges : forall o w, ordinary o w -> fine_lengths (edge_lengths (A:=B64) o w).
Proof.
  intros o w (Hw & Hf & Hc & _). pose proof thousandth as T.
  assert (K : forall x, sized (/ 1000) 1000 x -> sized (bpow radix2 (-10)) (bpow radix2 10) x).
  { intros x. apply sized_le; [exact T|cbn; lra]. }
  assert (Kw : sized (bpow radix2 (-10)) (bpow radix2 10) w) by (apply K; eapply sized_le; [| |exact Hw]; lra).
  apply K in Hf, Hc.
  pose proof (mul_sized (-10) 10 (-10) 10 _ _ ltac:(lia) ltac:(lia) ltac:(lia) ltac:(lia) Hf Kw) as Sf.
  pose proof (mul_sized (-10) 10 (-10) 10 _ _ ltac:(lia) ltac:(lia) ltac:(lia) ltac:(lia) Kw Hc) as Sc.
  change (-10 + -10)%Z with (-20)%Z in *. change (10 + 10)%Z with 20%Z in *.
  set (c := fmul w (o_cross o)) in *. destruct lit3_val as [F3 V3].
  pose proof (bpow_gt_0 radix2 (-20)) as P20.
  assert (Hc2 : Rabs (fval c / 3) <= bpow radix2 20).
  { destruct Sc as [_ [L U]]. rewrite Rabs_pos_eq by lra. lra. }
  destruct (fdiv_val c (lit (A:=B64) 3 0) (proj1 Sc) F3) as [Fd Vd]; [lra|rewrite V3; apply (bpow_big 20); [lia|exact Hc2]|]. rewrite V3 in Vd.
  set (fr := fdiv c (lit (A:=B64) 3 0)) in *.
  assert (L22 : bpow radix2 (-22) <= fval fr).
  { rewrite Vd, <- (rnd_bpow (-22)) by lia. apply rnd_le. destruct Sc as [_ [L _]]. change (-20)%Z with (2 + -22)%Z in L. rewrite bpow_plus in L. change (bpow radix2 2) with 4 in L.
    pose proof (bpow_gt_0 radix2 (-22)). lra. }
  assert (U2 : fval fr <= fval c / 2).
  { rewrite Vd, <- (half_fin (-20) c (proj1 Sc) (proj1 (proj2 Sc)) ltac:(lia)). apply rnd_le. destruct Sc as [_ [L _]]. lra. }
  destruct Sc as [Fc [Lc Uc]].
  assert (Hs : Rabs (fval c - fval fr) <= bpow radix2 20). { pose proof (bpow_gt_0 radix2 (-22)). rewrite Rabs_pos_eq by lra. lra. }
  destruct (fsub_val c fr Fc Fd) as [Fs Vs]; [apply (bpow_big 20); [lia|exact Hs]|].
  constructor; cbn [w_from w_fraction w_cross w_remainder edge_lengths].
  - exact Sf.
  - split; [exact Fd|]. split; [exact L22|]. change (fval fr <= bpow radix2 20). lra.
  - split; [exact Fc|split; assumption].
  - split; [exact Fs|]. change (bpow radix2 (-21) <= fval (fsub c fr) <= bpow radix2 21). rewrite Vs. split.
    + rewrite <- (rnd_bpow (-21)) by lia. apply rnd_le.
      change (-20)%Z with (1 + -21)%Z in Lc. rewrite bpow_plus in Lc. change (bpow radix2 1) with 2 in Lc. lra.
    + pose proof (rnd_bnd 20 _ ltac:(lia) Hs) as K2. apply Rabs_le_both in K2. apply Rle_trans with (bpow radix2 20); [lra|apply bpow_le; lia].
Qed.

Lemma int_rnd : forall n, (0 < n < 4096)%Z -> rnd (IZR n) = IZR n.
Proof.
  intros n H. apply round_generic; [apply valid_rnd_N|]. apply (generic_format_FLT radix2 (-1074) 53).
  exists (Float radix2 n 0); [unfold F2R; cbn; lra| |cbn; lia]. cbn [Fnum]. change (radix2 ^ 53)%Z with 9007199254740992%Z. lia.
Qed.

Lemma sized_limit : forall o w k, ordinary o w -> sized 0 1000 (limit (A:=B64) o (Some w) k).
Proof.
  intros o w k (Hw & _ & _ & H1 & H2 & H3 & Hs).
  assert (Hw' : sized 0 10 w) by (eapply sized_le; [| |exact Hw]; lra).
  assert (K : forall m n a b, (0 < m < 4096)%Z -> (0 < n < 4096)%Z -> (0 < m * n < 4096)%Z -> sized 0 (IZR m) a -> sized 0 (IZR n) b -> sized 0 (IZR (m * n)) (fmul a b)).
  { intros m n a b Hm Hn Hmn [Fa Ha] [Fb Hb].
    assert (Hp : 0 <= fval a * fval b <= IZR (m * n)) by (rewrite mult_IZR; split; [nra|apply Rmult_le_compat; lra]).
    assert (Hmn' : IZR (m * n) <= 4096) by (apply IZR_le; lia).
    destruct (fmul_val a b Fa Fb) as [F V]. { rewrite Rabs_pos_eq by lra. apply Rle_trans with (bpow radix2 12); [cbn; lra|apply bpow_le; lia]. }
    split; [exact F|]. rewrite V. split; [apply rnd_nonneg; lra|]. rewrite <- (int_rnd (m * n) Hmn). apply rnd_le. lra. }
  assert (K2 : forall r, sized 0 10 r -> sized 0 1000 (n_mul (a:=B64) w (n_mul r (o_strength o)))).
  { intros r Hr. apply (K 10%Z 100%Z); try lia; [exact Hw'|]. apply (K 10%Z 10%Z); try lia; assumption. }
  unfold limit. destruct k as [[]|]; try (apply K2; assumption).
  destruct n0_fin as [F V]. split; [exact F|]. rewrite V. lra.
Qed.

(** ** Numbers of the lines *)

Definition million (x : num B64) : Prop := fin x /\ Rabs (fval x) <= 10 ^ 6.
(** the words of a move are numbers of at most a million *)
Definition fine_line (l : line B64) : Prop := xy_move l = true -> forall k v, get_arg k (largs l) = Some v -> million v.

Lemma million_bnd : forall x, million x -> bnd 20 x.
Proof. intros x [F H]. split; [exact F|]. eapply Rle_trans; [exact H|]. cbn. lra. Qed.

Lemma fine_near : forall l, fine_line l -> near_line l.
Proof. intros l H Hm. split; intros v Hv; apply million_bnd; [apply (H Hm LX)|apply (H Hm LY)]; exact Hv. Qed.

(** a loop move is a move in X or Y *)
Lemma loop_move_xy : forall (m : line B64) seen, loop_move (m :: seen) = true -> xy_move m = true.
Proof. intros m seen H. unfold loop_move in H. apply andb_prop in H as [H _]. exact H. Qed.

Lemma zero_million : million (n0 (A:=B64)).
Proof. destruct n0_fin as [F V]. split; [exact F|]. rewrite V, Rabs_R0. cbn. lra. Qed.

Lemma point_million : forall seen, Forall fine_line seen -> million (fst (point_of seen)) /\ million (snd (point_of seen)).
Proof.
  induction seen as [|l t IH]; intros H; cbn [point_of]; [split; apply zero_million|].
  apply Forall_cons_iff in H as [Hl Ht]. destruct (IH Ht) as [I1 I2]. destruct (point_of t) as [x y]. cbn [fst snd] in *.
  destruct (loop_move (l :: t)) eqn:E; [|split; assumption]. pose proof (Hl (loop_move_xy _ _ E)) as K. cbn [fst snd]. split.
  - destruct (l_x l) as [v|] eqn:Ex; [apply (K LX), Ex|exact I1].
  - destruct (l_y l) as [v|] eqn:Ey; [apply (K LY), Ey|exact I2].
Qed.

Lemma feed_million : forall seen, Forall fine_line seen -> million (feed_of seen).
Proof.
  induction seen as [|l t IH]; intros H; cbn [feed_of].
  - change (lit (A:=B64) 9590 1) with (f_of_dec false 9590 1).
    assert (E : dval false 9590 1 = 959) by (unfold dval; cbn; lra).
    destruct (f_of_dec_val false 9590 1) as [F V]. { rewrite E. apply million_big. rewrite Rabs_pos_eq; lra. }
    split; [exact F|]. rewrite V, E, (int_rnd 959) by lia. rewrite Rabs_pos_eq by lra. cbn. lra.
  - apply Forall_cons_iff in H as [Hl Ht]. destruct (loop_move (l :: t)) eqn:E; [|apply IH, Ht].
    destruct (l_f l) as [f|] eqn:Ef; [|apply IH, Ht]. destruct (truthy f); [|apply IH, Ht].
    apply (Hl (loop_move_xy _ _ E) LF), Ef.
Qed.

Lemma fates_fine : forall fuel d o w seen before rest out, fates (A:=B64) fuel d o w seen before rest out ->
  Forall near_line before -> Forall (fun m => near_line m /\ forall m', reparse m = Ok m' -> near_line m') rest ->
  forall k m l', nth_error rest k = Some m -> nth_error out k = Some l' ->
    exists layer_ i, Forall near_line layer_ /\ line_fate fuel d o w layer_ i (rev (firstn k rest) ++ seen) m l'.
Proof.
  intros fuel d o w seen before rest out H. induction H as [|seen before m t l' t' Hf H IH]; intros Hb Hr k m0 l0 H1 H2.
  - destruct k; discriminate H1.
  - apply Forall_cons_iff in Hr as [[Hm Hm'] Ht]. destruct k as [|k]; cbn [nth_error] in H1, H2.
    + apply (f_equal (fun o => match o with Some x => x | None => m end)) in H1. cbn in H1.
      apply (f_equal (fun o => match o with Some x => x | None => l' end)) in H2. cbn in H2. subst m0 l0.
      exists (before ++ m :: t), (List.length before). split; [|exact Hf]. apply Forall_app. split; [exact Hb|]. constructor; [exact Hm|].
      eapply Forall_impl; [|exact Ht]. intros a Ha. exact (proj1 Ha).
    + destruct (IH) with (k := k) (m := m0) (l' := l0) as (la & i & Q1 & Q2); try assumption.
      * apply Forall_app. split; [exact Hb|]. constructor; [|constructor].
        destruct (to_stretch o w (m :: seen)) eqn:Et; [exact Hm|]. inversion Hf as [? Hn Hre|]; subst; [|congruence]. apply Hm', Hre.
      * exists la, i. split; [exact Q1|]. cbn [firstn rev]. rewrite <- app_assoc. exact Q2.
Qed.

Lemma layers_fine : forall fuel d o w ys seen s ys2 p, state_ok (A:=B64) o w seen s -> stretch_layers fuel d s ys = Ok (ys2, p) ->
  Forall (fun m => near_line m /\ forall m', reparse m = Ok m' -> near_line m') (lines_of ys) ->
  forall k m l', nth_error (lines_of ys) k = Some m -> nth_error (lines_of ys2) k = Some l' ->
    exists layer_ i, Forall near_line layer_ /\ line_fate fuel d o w layer_ i (rev (firstn k (lines_of ys)) ++ seen) m l'.
Proof.
  intros fuel d o w. induction ys as [|y t IH]; intros seen s ys2 p Hs H Hfine k m l' H1 H2; cbn [stretch_layers] in H.
  - destruct k; discriminate H1.
  - destruct (stretch_lines _ _ _ _ _) as [[[s1 ls] p1]|e] eqn:E1; cbn [bind] in H; [|discriminate H].
    destruct (stretch_layers _ _ _ _) as [[t2 p2]|e] eqn:E2; cbn [bind] in H; [|discriminate H].
    apply ok_inj in H. apply (f_equal fst) in H. cbn [fst] in H. subst ys2.
    destruct (stretch_lines_ok _ _ _ _ _ _ _ _ _ _ _ Hs E1) as (G1 & G2).
    assert (HL : List.length ls = List.length (ly_lines y)) by (apply fates_flat, flat_nth in G2 as [G2 _]; exact G2).
    change (lines_of (y :: t)) with (ly_lines y ++ lines_of t) in *. change (lines_of (set_ly_lines ls y :: t2)) with (ls ++ lines_of t2) in H2.
    apply Forall_app in Hfine as [Hf1 Hf2].
    destruct (Nat.lt_ge_cases k (List.length (ly_lines y))) as [Hk|Hk].
    + rewrite nth_error_app1 in H1 by exact Hk. rewrite nth_error_app1 in H2 by (rewrite HL; exact Hk).
      rewrite firstn_app. replace (k - List.length (ly_lines y))%nat with 0%nat by lia. cbn [firstn]. rewrite app_nil_r.
      eapply fates_fine; try eassumption. constructor.
    + rewrite nth_error_app2 in H1 by exact Hk. rewrite nth_error_app2 in H2 by (rewrite HL; exact Hk). rewrite HL in H2.
      destruct (IH _ _ _ _ G1 E2 Hf2 _ _ _ H1 H2) as (la & i & Q1 & Q2). exists la, i. split; [exact Q1|].
      rewrite firstn_app, firstn_all2 by exact Hk. rewrite rev_app_distr, <- app_assoc. exact Q2.
Qed.

(** ** Written numbers *)

Lemma round_near : forall d x, fin x -> (d <= 5)%nat -> Rabs (fval x) <= 2000000 ->
  fin (py_round (A:=B64) d x) /\ Rabs (fval (py_round (A:=B64) d x) - fval x) <= / 2 / 10 ^ d + / 4000000000.
Proof.
  intros d x F Hd H. pose proof (shown_near d x F) as K.
  destruct (f_dec_val d x F) as (neg & m & E & _). unfold py_round. unfold shown in K.
  change (n_dec (a:=B64) d x) with (f_dec d x) in *. rewrite E in *.
  assert (P : / 2 / 10 ^ d <= 1).
  { unfold Rdiv. assert (1 <= 10 ^ d) by (apply pow_R1_Rle; lra). assert (/ 10 ^ d <= 1) by (rewrite <- Rinv_1; apply Rinv_le_contravar; lra).
    assert (0 < / 10 ^ d) by (apply Rinv_0_lt_compat; lra). lra. }
  pose proof (Rabs_le_both _ _ K) as K'. pose proof (Rabs_le_both _ _ H) as H'.
  assert (Hs : Rabs (dval neg m d) <= 2100000) by (apply Rabs_le; lra).
  destruct (f_of_dec_val neg m d) as [G V]. { apply million_big. lra. }
  split; [exact G|]. change (n_of_dec (a:=B64) neg m d) with (f_of_dec neg m d). rewrite V.
  pose proof (rnd_between _ Hs) as N. apply Rabs_le_both in N. apply Rabs_le. lra.
Qed.

(** ** All of it *)

Lemma stretched_float : forall profile fuel d (o : options (A:=B64)) (g g' : gcode B64) printed w ys,
  stretch profile fuel d o g = Ok (g', printed) -> setup_filter profile d (g_layers g) = Ok (w, ys) ->
  Forall (fun m => fine_line m /\ forall m', reparse m = Ok m' -> fine_line m') (lines_of ys) ->
  (forall we, w = Some we -> ordinary o we) ->
  forall k m l', nth_error (lines_of ys) k = Some m -> nth_error (all_lines g') k = Some l' ->
    to_stretch o w (upto k (lines_of ys)) = true ->
    let L := fval (limit o w (loop_of (map raw (upto k (lines_of ys))))) in
    let p := point_of (upto k (lines_of ys)) in
    0 < L <= 1000 /\ loop_move (upto k (lines_of ys)) = true /\ million (fst p) /\ million (snd p) /\
    (forall v, l_x m = Some v -> fst p = v) /\ (forall v, l_y m = Some v -> snd p = v) /\
    command l' = command m /\
    exists move, bnd2 11 move /\
      fval (fst move) * fval (fst move) + fval (snd move) * fval (snd move) <= (L + / 2000000000) * (L + / 2000000000) /\
      largs l' = rounded_args (moved_args m p move (feed_of (upto k (lines_of ys)))) /\
      million (feed_of (upto k (lines_of ys))).
Proof.
  intros profile fuel d o g g' printed w ys H Hset Hfine Ho k m l' Hm Hl' Ht L p.
  unfold stretch in H. rewrite Hset in H. cbn [bind] in H.
  destruct (stretch_layers _ _ _ _) as [[ys2 p2]|e] eqn:E2; cbn [bind] in H; [|discriminate H].
  apply ok_inj in H. apply (f_equal fst) in H. cbn [fst] in H. subst g'.
  change (nth_error (lines_of ys2) k = Some l') in Hl'.
  assert (Hnear : Forall (fun m => near_line m /\ forall m', reparse m = Ok m' -> near_line m') (lines_of ys)).
  { eapply Forall_impl; [|exact Hfine]. intros a [A1 A2]. split; [apply fine_near, A1|]. intros a' Ha. apply fine_near, A2, Ha. }
  destruct (layers_fine _ _ _ _ _ _ _ _ _ (init_state o w) E2 Hnear _ _ _ Hm Hl') as (la & i & Hla & Hfate).
  rewrite app_nil_r in Hfate. unfold L, p in *. clear L p. rewrite (upto_cons _ _ _ Hm) in *.
  set (seen := rev (firstn k (lines_of ys))) in *.
  assert (Hall : Forall fine_line (lines_of ys)) by (eapply Forall_impl; [|exact Hfine]; intros a Ha; exact (proj1 Ha)).
  assert (Hseen : Forall fine_line (m :: seen)).
  { rewrite Forall_forall in *. intros a [<-|Ha]; [apply Hall, (nth_error_In _ _ Hm)|]. apply Hall.
    unfold seen in Ha. rewrite <- in_rev in Ha. rewrite <- (firstn_skipn k). apply in_or_app. left. exact Ha. }
  destruct Hfate as [l' Hno _|we move pr old l' Hw _ Hold Ha Hr]; [congruence|]. subst w. specialize (Ho we eq_refl).
  pose proof (point_million _ Hseen) as [P1 P2]. pose proof (feed_million _ Hseen) as PF.
  pose proof (sized_limit o we (loop_of (map raw (m :: seen))) Ho) as SL.
  pose proof Ht as Ht'. unfold to_stretch in Ht'. apply andb_prop in Ht' as [Hlm Hpos].
  assert (Hpos' : 0 < fval (limit o (Some we) (loop_of (map raw (m :: seen))))).
  { destruct n0_fin as [F0 V0]. rewrite <- V0. apply (fltb_val _ _ F0 (proj1 SL)), Hpos. }
  assert (Bp : bnd2 20 (point_of (m :: seen))) by (split; apply million_bnd; assumption).
  destruct (stretch_bound _ _ _ _ _ _ _ _ _ _ (fine_edges o we Ho) Hla ltac:(rewrite Hold; exact Bp) Bp SL Ha) as [Bm Hb].
  pose proof (loop_move_xy _ _ Hlm) as Hxy.
  split; [destruct SL as [_ SL]; lra|]. split; [exact Hlm|]. split; [exact P1|]. split; [exact P2|].
  assert (HX : forall v, l_x m = Some v -> fst (point_of (m :: seen)) = v).
  { intros v Hv. cbn [point_of]. destruct (point_of seen) as [x y]. rewrite Hlm, Hv. reflexivity. }
  assert (HY : forall v, l_y m = Some v -> snd (point_of (m :: seen)) = v).
  { intros v Hv. cbn [point_of]. destruct (point_of seen) as [x y]. rewrite Hlm, Hv. reflexivity. }
  split; [exact HX|]. split; [exact HY|].
  pose proof (Hall) as Hall'. rewrite Forall_forall in Hall'. pose proof (Hall' _ (nth_error_In _ _ Hm) Hxy) as Hargs.
  destruct (move_factor move _ Bm ltac:(destruct SL as [_ SL]; exact SL) Hb) as [Bf _].
  assert (Hfin : all_fin (moved_args m (point_of (m :: seen)) move (feed_of (m :: seen)))).
  { intros c x Hc. destruct c; cbn [moved_args get_arg a_x a_y a_z a_e a_f a_i a_j] in Hc.
    - injection Hc as <-. apply (add_bnd 20 _ _ ltac:(lia) (proj1 Bp) (bnd_weak 11 20 _ ltac:(lia) (proj1 Bm))).
    - injection Hc as <-. apply (add_bnd 20 _ _ ltac:(lia) (proj2 Bp) (bnd_weak 11 20 _ ltac:(lia) (proj2 Bm))).
    - apply (Hargs LZ x Hc).
    - destruct (l_e m) as [e|] eqn:Ee; [|discriminate Hc]. injection Hc as <-.
      apply (mul_bnd 20 13 _ _ ltac:(lia) (million_bnd _ (Hargs LE e Ee)) Bf).
    - injection Hc as <-. apply PF.
    - discriminate Hc.
    - discriminate Hc. }
  destruct (stretched_reads m _ _ _ _ Hxy (all_fin_finite _ Hfin) Hr) as (R1 & _ & R3).
  split; [exact R1|]. exists move. split; [exact Bm|]. split; [exact Hb|]. split; [exact R3|exact PF].
Qed.

(** ** A loaded program *)

Lemma metric_ops : forall s, command_name s <> Some "G20"%string -> op_of s <> Inches.
Proof.
  intros s H E. unfold op_of in E. destruct (command_name s) as [c|]; [|discriminate E].
  destruct (str_mem c _); [discriminate E|]. destruct (String.eqb c "G28"); [discriminate E|]. destruct (String.eqb c "G92"); [discriminate E|].
  destruct (String.eqb c "G20") eqn:E20; [apply String.eqb_eq in E20; subst c; congruence|].
  destruct (String.eqb c "G21"); [discriminate E|]. destruct (String.eqb c "G90"); [discriminate E|]. destruct (String.eqb c "G91"); [discriminate E|].
  destruct (String.eqb c "M82"); [discriminate E|]. destruct (String.eqb c "M83"); [discriminate E|].
  destruct c as [|[[][][][][][][][]] c]; discriminate E.
Qed.

Lemma freads_fine : forall s l, freads s l -> fine_line l.
Proof.
  intros s l Hr Hm k v Hv. unfold xy_move in Hm. apply andb_prop in Hm as [Hm _]. apply orb_prop in Hm.
  assert (Hc : exists c, command_name s = Some c /\ first_is "G" c = true).
  { destruct Hm as [Hm|Hm]; rewrite (freads_command s l _ Hr) in Hm by discriminate;
      (destruct (command_name s) as [c|]; [|discriminate Hm]); apply String.eqb_eq in Hm; subst c; eexists; split; reflexivity. }
  destruct Hc as (c & Hc & Hg). destruct Hr as (_ & _ & Hr). destruct (Hr c Hc Hg) as [_ Hh]. specialize (Hh k). rewrite Hv in Hh.
  destruct (number_of (letter_code k) (words s)) as [u|]; [|contradiction]. destruct Hh as (H1 & F & V). split; [exact F|].
  rewrite V. apply rnd_abs; [exact H1|]. replace (10 ^ 6) with (IZR 1000000) by (cbn; lra).
  apply round_generic; [apply valid_rnd_N|]. apply (generic_format_FLT radix2 (-1074) 53).
  exists (Float radix2 1000000 0); [unfold F2R; cbn; lra| |cbn; lia]. cbn [Fnum]. change (radix2 ^ 53)%Z with 9007199254740992%Z. lia.
Qed.

Lemma loaded_fine : forall profile d home data (g : gcode B64) w ys, load_gen false home data = Ok g ->
  Forall plain_text (program_text data) -> setup_filter profile d (g_layers g) = Ok (w, ys) ->
  Forall2 marked_line (all_lines g) (lines_of ys) /\
  Forall (fun m => fine_line m /\ forall m', reparse m = Ok m' -> fine_line m') (lines_of ys).
Proof.
  intros profile d home data g w ys Hl Ht Hset.
  assert (Hmo : Forall modest (program_text data)) by (eapply Forall_impl; [|exact Ht]; intros s (H1 & _); exact H1).
  assert (Hmt : Forall (fun s => op_of s <> Inches) (program_text data)) by (eapply Forall_impl; [|exact Ht]; intros s (_ & H1 & _); apply metric_ops, H1).
  assert (Hno : Forall (fun s => command_name s <> Some "G20"%string) (program_text data)) by (eapply Forall_impl; [|exact Ht]; intros s (_ & H1 & _); exact H1).
  pose proof (load_freads _ _ _ Hl Hmt Hmo) as Hr. destruct (load_settled _ _ _ Hl Hno) as [Hs Hraw].
  pose proof (setup_marked _ _ _ _ _ Hset) as Hm. apply marked_layers_lines in Hm as (Hm & _). rewrite lines_of_all in Hm.
  split; [exact Hm|].
  assert (Hall : Forall (fun l => fine_line l /\ settled l /\ markable (raw l)) (all_lines g)).
  { rewrite <- Hraw in Ht. rewrite Forall_map in Ht. rewrite Forall_forall in *. intros l Hin.
    split; [|split; [exact (Hs l Hin)|exact (proj2 (proj2 (Ht l Hin)))]].
    assert (Hex : exists s, freads s l).
    { clear - Hr Hin. induction Hr as [|s a ss ls H1 H IH]; [contradiction|]. destruct Hin as [<-|Hin]; [eauto|auto]. }
    destruct Hex as [s Hf]. exact (freads_fine _ _ Hf). }
  clear - Hm Hall. induction Hm as [|l m ls ms Hlm Hm IH]; [constructor|]. apply Forall_cons_iff in Hall as [(Hf & Hs & Hk) Hall].
  constructor; [|exact (IH Hall)].
  assert (Hx : xy_move m = xy_move l) by (destruct Hlm as [(H1 & _ & H3 & _) _]; unfold xy_move, is_command, l_x, l_y; rewrite H1, H3; reflexivity).
  assert (Ha : largs m = largs l) by (destruct Hlm as [(_ & _ & H3 & _) _]; exact H3).
  split.
  - unfold fine_line. rewrite Hx, Ha. exact Hf.
  - intros m' Hr. unfold fine_line. rewrite (marked_steady l m Hs Hk Hlm m' Hr), Hx.
    destruct Hlm as [Hlm Hmk]. destruct (settled_marked l m m' Hs Hk Hlm Hmk Hr) as (_ & _ & -> & _). exact Hf.
Qed.

(** how far the written coordinates are from the computed ones *)
Lemma coordinate_near : forall p m, million p -> bnd 11 m ->
  fin (py_round (A:=B64) 3 (fadd p m)) /\
  Rabs (fval (py_round (A:=B64) 3 (fadd p m)) - (fval p + fval m)) <= / 2000 + / 1000000000.
Proof.
  intros p m [Fp Hp] [Fm Hm]. replace (10 ^ 6) with 1000000 in Hp by (cbn; lra). change (bpow radix2 11) with 2048 in Hm.
  pose proof (Rabs_le_both _ _ Hp) as Hp'. pose proof (Rabs_le_both _ _ Hm) as Hm'.
  assert (Hs : Rabs (fval p + fval m) <= 1100000) by (apply Rabs_le; lra).
  destruct (fadd_val p m Fp Fm) as [F V]; [apply million_big; lra|].
  pose proof (Rabs_le_both _ _ (rnd_between _ ltac:(eapply Rle_trans; [exact Hs|lra]))) as N. pose proof (Rabs_le_both _ _ Hs) as Hs'.
  destruct (round_near 3 (fadd p m) F ltac:(lia)) as [G K]. { rewrite V. apply Rabs_le. lra. }
  split; [exact G|]. apply Rabs_le_both in K. rewrite V in K. cbn [pow] in K. apply Rabs_le. lra.
Qed.

Lemma sqrt_le2 : forall s r : R, 0 <= r -> s <= r * r -> sqrt s <= r.
Proof. intros s r Hr H. rewrite <- (sqrt_square r) by exact Hr. apply sqrt_le_1_alt, H. Qed.

(** how far a written word is from the number *)
Lemma written_near : forall x, million x -> Rabs (fval (py_round (A:=B64) 3 x) - fval x) <= / 2000 + / 1000000000.
Proof.
  intros x [F H]. replace (10 ^ 6) with 1000000 in H by (cbn; lra).
  destruct (round_near 3 x F ltac:(lia)) as [_ K]; [lra|]. cbn [pow] in K. eapply Rle_trans; [exact K|]. lra.
Qed.

(** the words of a stretched line of a loaded program *)
Lemma loaded_core : forall profile fuel d (o : options (A:=B64)) home data (g g' : gcode B64) printed,
  load_gen false home data = Ok g -> Forall plain_text (program_text data) ->
  stretch profile fuel d o g = Ok (g', printed) ->
  exists w ms, marking profile d g w ms /\ Forall2 marked_line (all_lines g) ms /\
    Forall fine_line (all_lines g) /\ List.length (all_lines g') = List.length (all_lines g) /\
    ((forall we, w = Some we -> ordinary o we) ->
     forall k l l', nth_error (all_lines g) k = Some l -> nth_error (all_lines g') k = Some l' ->
      to_stretch o w (upto k ms) = true ->
      let L := fval (limit o w (loop_of (map raw (upto k ms)))) in
      let p := point_of (upto k ms) in
      L <= 1000 /\ command l' = command l /\ loop_move (upto k ms) = true /\
      (forall v, l_x l = Some v -> fst p = v) /\ (forall v, l_y l = Some v -> snd p = v) /\
      exists dx dy x' y',
        sqrt (dx * dx + dy * dy) <= L + / 1000000000 /\
        l_x l' = Some x' /\ Rabs (fval x' - (fval (fst p) + dx)) <= / 2000 + / 1000000000 /\
        l_y l' = Some y' /\ Rabs (fval y' - (fval (snd p) + dy)) <= / 2000 + / 1000000000 /\
        match l_z l, l_z l' with
        | Some z, Some z' => Rabs (fval z' - fval z) <= / 2000 + / 1000000000
        | None, None => True
        | _, _ => False
        end /\
        match l_e l, l_e l' with
        | Some e, Some e' => exists f, 1 - L - / 1000000000 <= f <= 1 /\
                               (L <= 1 -> Rabs (fval e' - fval e * f) <= / 200000 + / 1000000000)
        | None, None => True
        | _, _ => False
        end /\
        exists f', l_f l' = Some f' /\ Rabs (fval f' - fval (feed_of (upto k ms))) <= / 2000 + / 1000000000).
Proof.
  intros profile fuel d o home data g g' printed Hl Ht H.
  destruct (stretch_ok _ _ _ _ _ _ _ H) as (w & ys & Hset & _ & _ & Hm2 & Hlen & _).
  destruct (loaded_fine _ _ _ _ _ _ _ Hl Ht Hset) as [Hm Hfine].
  exists w, (lines_of ys). split; [exists ys; split; [exact Hset|reflexivity]|]. split; [exact Hm|].
  split. { clear - Hm Hfine. induction Hm as [|l m ls ms Hlm Hm IH]; [constructor|]. apply Forall_cons_iff in Hfine as [[Hf _] Ht]. constructor; [|exact (IH Ht)].
    destruct Hlm as [(H1 & _ & H3 & _) _]. revert Hf. unfold fine_line, xy_move, is_command, l_x, l_y. rewrite H1, H3. exact (fun x => x). }
  split. { rewrite Hlen. symmetry. clear - Hm. induction Hm; cbn; congruence. }
  intros Ho k l l' Hk Hk' Hts L p.
  assert (Hmk : exists m, nth_error (lines_of ys) k = Some m /\ marked_line l m).
  { clear - Hm Hk. revert k Hk. induction Hm as [|a m ls ms H1 Hm IH]; intros [|k] Hk; try discriminate Hk; cbn in *.
    - apply (f_equal (fun o => match o with Some x => x | None => a end)) in Hk. cbn in Hk. subst l. eauto.
    - apply IH, Hk. }
  destruct Hmk as (m & Hmk & [(M1 & _ & M3 & _) _]).
  destruct (stretched_float _ _ _ _ _ _ _ _ _ H Hset Hfine Ho k m l' Hmk Hk' Hts)
    as (HL & Hlm & P1 & P2 & HX & HY & Hc & move & [B1 B2] & Hb & Ha & PF). fold L in HL, Hb. fold p in P1, P2, HX, HY, Ha.
  set (feed := feed_of _) in *. clearbody p feed.
  split; [lra|]. split; [congruence|]. split; [exact Hlm|].
  assert (Hxy : xy_move m = true) by (rewrite (upto_cons _ _ _ Hmk) in Hlm; exact (loop_move_xy _ _ Hlm)).
  assert (Hargs : forall c v, get_arg c (largs m) = Some v -> million v).
  { rewrite Forall_forall in Hfine. exact (proj1 (Hfine m (nth_error_In _ _ Hmk)) Hxy). }
  split. { intros v Hv. rewrite (HX v); [reflexivity|]. unfold l_x in *. rewrite M3. exact Hv. }
  split. { intros v Hv. rewrite (HY v); [reflexivity|]. unfold l_y in *. rewrite M3. exact Hv. }
  exists (fval (fst move)), (fval (snd move)), (py_round (A:=B64) 3 (fadd (fst p) (fst move))), (py_round (A:=B64) 3 (fadd (snd p) (snd move))).
  split. { apply Rle_trans with (L + / 2000000000); [|lra]. apply sqrt_le2; [lra|exact Hb]. }
  split. { unfold l_x. rewrite Ha. reflexivity. }
  split. { apply coordinate_near; assumption. }
  split. { unfold l_y. rewrite Ha. reflexivity. }
  split. { apply coordinate_near; assumption. }
  assert (Ez : l_z l' = option_map (py_round (A:=B64) 3) (l_z l)) by (unfold l_z; rewrite Ha, <- M3; reflexivity).
  assert (Ee : l_e l' = match l_e l with Some e => Some (py_round (A:=B64) 5 (fmul e (fsub (n1 (A:=B64)) (c_abs (A:=B64) move)))) | None => None end).
  { unfold l_e. rewrite Ha, <- M3. unfold moved_args, rounded_args, l_e. cbn [a_e]. destruct (a_e (largs m)); reflexivity. }
  rewrite Ez, Ee. split; [|split].
  - destruct (l_z l) as [z|] eqn:E; [|exact I]. cbn [option_map]. apply written_near, (Hargs LZ). cbn [get_arg]. rewrite M3. exact E.
  - destruct (l_e l) as [e|] eqn:E; [|exact I].
    destruct (Hargs LE e) as [Fe He]. { cbn [get_arg]. rewrite M3. exact E. } replace (10 ^ 6) with 1000000 in He by (cbn; lra).
    destruct (move_factor move L (conj B1 B2) ltac:(lra) Hb) as [Bf Hf].
    exists (fval (fsub (n1 (A:=B64)) (c_abs (A:=B64) move))). split; [exact Hf|]. intros HL1.
    set (f := fsub (n1 (A:=B64)) (c_abs (A:=B64) move)) in *.
    assert (Hp : Rabs (fval e * fval f) <= 1000001).
    { rewrite Rabs_mult. apply Rle_trans with (1000000 * (1 + / 1000000000)); [|lra]. apply Rmult_le_compat; try apply Rabs_pos; [exact He|].
      apply Rabs_le. lra. }
    destruct (fmul_val e f Fe (proj1 Bf)) as [F V]; [apply million_big; lra|].
    pose proof (Rabs_le_both _ _ (rnd_between _ ltac:(eapply Rle_trans; [exact Hp|lra]))) as N. pose proof (Rabs_le_both _ _ Hp) as Hp'.
    destruct (round_near 5 (fmul e f) F ltac:(lia)) as [_ K]. { rewrite V. apply Rabs_le. lra. }
    apply Rabs_le_both in K. rewrite V in K. cbn [pow] in K. apply Rabs_le. lra.
  - exists (py_round (A:=B64) 3 feed). split; [unfold l_f; rewrite Ha; reflexivity|]. apply written_near, PF.
Qed.

(** C57 *)
Lemma loaded_point : forall profile fuel d (o : options (A:=B64)) home data (g g' : gcode B64) printed,
  load_gen false home data = Ok g -> Forall plain_text (program_text data) ->
  stretch profile fuel d o g = Ok (g', printed) ->
  exists w ms, marking profile d g w ms /\
    ((forall we, w = Some we -> ordinary o we) ->
     forall k l l', nth_error (all_lines g) k = Some l -> nth_error (all_lines g') k = Some l' ->
      to_stretch o w (upto k ms) = true ->
      exists x y dx dy x' y',
        (forall v, l_x l = Some v -> x = fval v) /\ (forall v, l_y l = Some v -> y = fval v) /\
        sqrt (dx * dx + dy * dy) <= fval (limit o w (loop_of (map raw (upto k ms)))) + / 1000000000 /\
        l_x l' = Some x' /\ Rabs (fval x' - (x + dx)) <= / 2000 + / 1000000000 /\
        l_y l' = Some y' /\ Rabs (fval y' - (y + dy)) <= / 2000 + / 1000000000).
Proof.
  intros profile fuel d o home data g g' printed Hl Ht H.
  destruct (loaded_core _ _ _ _ _ _ _ _ _ Hl Ht H) as (w & ms & Hm & _ & _ & _ & K).
  exists w, ms. split; [exact Hm|]. intros Ho k l l' Hk Hk' Hts.
  destruct (K Ho k l l' Hk Hk' Hts) as (_ & _ & _ & HX & HY & dx & dy & x' & y' & Hb & E1 & N1 & E2 & N2 & _).
  exists (fval (fst (point_of (upto k ms)))), (fval (snd (point_of (upto k ms)))), dx, dy, x', y'.
  split; [intros v Hv; rewrite (HX v Hv); reflexivity|]. split; [intros v Hv; rewrite (HY v Hv); reflexivity|]. auto.
Qed.

(** C59 *)
Lemma loaded_words : forall profile fuel d (o : options (A:=B64)) home data (g g' : gcode B64) printed,
  load_gen false home data = Ok g -> Forall plain_text (program_text data) ->
  stretch profile fuel d o g = Ok (g', printed) ->
  exists w ms, marking profile d g w ms /\
    ((forall we, w = Some we -> ordinary o we) ->
     forall k l l', nth_error (all_lines g) k = Some l -> nth_error (all_lines g') k = Some l' ->
      to_stretch o w (upto k ms) = true ->
      fval (limit o w (loop_of (map raw (upto k ms)))) <= 1 ->
      command l' = command l /\
      match l_z l, l_z l' with
      | Some z, Some z' => Rabs (fval z' - fval z) <= / 2000 + / 1000000000
      | None, None => True
      | _, _ => False
      end /\
      match l_e l, l_e l' with
      | Some e, Some e' =>
          exists f, 1 - fval (limit o w (loop_of (map raw (upto k ms)))) - / 1000000000 <= f <= 1 /\
                    Rabs (fval e' - fval e * f) <= / 200000 + / 1000000000
      | None, None => True
      | _, _ => False
      end).
Proof.
  intros profile fuel d o home data g g' printed Hl Ht H.
  destruct (loaded_core _ _ _ _ _ _ _ _ _ Hl Ht H) as (w & ms & Hm & _ & _ & _ & K).
  exists w, ms. split; [exact Hm|]. intros Ho k l l' Hk Hk' Hts HL.
  destruct (K Ho k l l' Hk Hk' Hts) as (_ & Hc & _ & _ & _ & dx & dy & x' & y' & _ & _ & _ & _ & _ & Hz & He & _).
  split; [exact Hc|]. split; [exact Hz|]. destruct (l_e l) as [e|], (l_e l') as [e'|]; try exact He.
  destruct He as (f & Hf & He). exists f. split; [exact Hf|exact (He HL)].
Qed.

(** C60 *)
Lemma loaded_feed : forall profile fuel d (o : options (A:=B64)) home data (g g' : gcode B64) printed,
  load_gen false home data = Ok g -> Forall plain_text (program_text data) ->
  stretch profile fuel d o g = Ok (g', printed) ->
  exists w ms, marking profile d g w ms /\
    ((forall we, w = Some we -> ordinary o we) ->
     forall k l', nth_error (all_lines g') k = Some l' -> to_stretch o w (upto k ms) = true ->
      forall j lj f, (j <= k)%nat -> nth_error (all_lines g) j = Some lj -> loop_move (upto j ms) = true ->
        l_f lj = Some f -> fval f <> 0 ->
        (forall i li, (j < i <= k)%nat -> nth_error (all_lines g) i = Some li -> l_f li = None) ->
        exists f', l_f l' = Some f' /\ Rabs (fval f' - fval f) <= / 2000 + / 1000000000).
Proof.
  intros profile fuel d o home data g g' printed Hl Ht H.
  destruct (loaded_core _ _ _ _ _ _ _ _ _ Hl Ht H) as (w & ms & Hm & H2 & Hfine & Hlen & K).
  exists w, ms. split; [exact Hm|]. intros Ho k l' Hl' Hts j lj f Hjk Hlj Hlp Hf Hnz Hno.
  destruct (nth_of_length _ _ _ _ _ _ Hlen Hl') as (l & Hk).
  destruct (K Ho k l l' Hk Hl' Hts) as (_ & _ & _ & _ & _ & dx & dy & x' & y' & _ & _ & _ & _ & _ & _ & _ & f' & Ef & Nf).
  exists f'. split; [exact Ef|].
  destruct (forall2_nth _ _ _ _ _ _ _ H2 Hlj) as (mj & Hmj & (_ & _ & Hs & _) & _).
  rewrite (feed_after j k ms mj f Hmj Hlp) in Nf; [exact Nf| | |exact Hjk|].
  - unfold l_f. rewrite Hs. exact Hf.
  - unfold truthy. destruct (n_eqb (a:=B64) f n0) eqn:Eq; [|reflexivity]. exfalso. destruct n0_fin as [F0 V0].
    assert (Ff : fin f).
    { rewrite Forall_forall in Hfine. apply (Hfine lj (nth_error_In _ _ Hlj)) with (k := LF); [|exact Hf].
      rewrite (upto_cons _ _ _ Hmj) in Hlp. apply loop_move_xy in Hlp.
      destruct (forall2_nth _ _ _ _ _ _ _ H2 Hlj) as (mj' & Hmj' & (Hc' & _ & Hs' & _) & _). assert (mj' = mj) by congruence. subst mj'.
      revert Hlp. unfold xy_move, is_command, l_x, l_y. rewrite Hc', Hs'. exact (fun x => x). }
    apply (feqb_val _ _ Ff F0) in Eq. congruence.
  - intros i mi Hi Hmi. destruct (forall2_nth_l _ _ _ _ _ _ _ H2 Hmi) as (li & Hli & (_ & _ & Hsi & _) & _).
    unfold l_f. rewrite Hsi. exact (Hno i li Hi Hli).
Qed.

(** C61 *)
Lemma loaded_from : forall profile fuel d (o : options (A:=B64)) home data (g g' : gcode B64) printed,
  load_gen false home data = Ok g -> Forall plain_text (program_text data) ->
  stretch profile fuel d o g = Ok (g', printed) ->
  exists w ms, marking profile d g w ms /\
    ((forall we, w = Some we -> ordinary o we) ->
     forall j k lj l l' x0 y0, (j < k)%nat -> nth_error (all_lines g) j = Some lj -> loop_move (upto j ms) = true ->
      l_x lj = Some x0 -> l_y lj = Some y0 ->
      (forall i li, (j < i < k)%nat -> nth_error (all_lines g) i = Some li -> xy_move li = false) ->
      nth_error (all_lines g) k = Some l -> nth_error (all_lines g') k = Some l' ->
      to_stretch o w (upto k ms) = true ->
      exists dx dy x' y',
        sqrt (dx * dx + dy * dy) <= fval (limit o w (loop_of (map raw (upto k ms)))) + / 1000000000 /\
        l_x l' = Some x' /\ Rabs (fval x' - (fval (match l_x l with Some x => x | None => x0 end) + dx)) <= / 2000 + / 1000000000 /\
        l_y l' = Some y' /\ Rabs (fval y' - (fval (match l_y l with Some y => y | None => y0 end) + dy)) <= / 2000 + / 1000000000).
Proof.
  intros profile fuel d o home data g g' printed Hload Htext H.
  destruct (loaded_core _ _ _ _ _ _ _ _ _ Hload Htext H) as (w & ms & Hm & H2 & _ & _ & K).
  exists w, ms. split; [exact Hm|]. intros Ho j k lj l l' x0 y0 Hjk Hlj Hlp Hx0 Hy0 Hno Hl Hl' Ht.
  destruct (K Ho k l l' Hl Hl' Ht) as (_ & _ & Hlk & _ & _ & dx & dy & x' & y' & Hb & E1 & N1 & E2 & N2 & _).
  assert (Hp : point_of (upto k ms) = (match l_x l with Some x => x | None => x0 end,
                                       match l_y l with Some y => y | None => y0 end)).
  { destruct (forall2_nth _ _ _ _ _ _ _ H2 Hlj) as (mj & Hmj & (_ & _ & Hsj & _) & _).
    destruct (forall2_nth _ _ _ _ _ _ _ H2 Hl) as (mk & Hmk & (_ & _ & Hsk & _) & _).
    rewrite (upto_cons _ _ _ Hmk) in *. cbn [point_of]. rewrite Hlk.
    destruct k as [|k]; [lia|].
    assert (Hpre : point_of (rev (firstn (S k) ms)) = (x0, y0)).
    { change (rev (firstn (S k) ms)) with (upto k ms).
      apply (point_after j k ms mj); try (unfold l_x, l_y; rewrite Hsj; assumption); try assumption; [lia|].
      intros i mi Hi Hmi. destruct (forall2_nth_l _ _ _ _ _ _ _ H2 Hmi) as (li & Hli & (Hci & _ & Hsi & _) & _).
      pose proof (Hno i li ltac:(lia) Hli) as Hx. revert Hx. unfold xy_move, is_command, l_x, l_y. now rewrite Hci, Hsi. }
    rewrite Hpre. unfold l_x, l_y. rewrite Hsk. reflexivity. }
  rewrite Hp in N1, N2. cbn [fst snd] in N1, N2. exists dx, dy, x', y'. auto.
Qed.

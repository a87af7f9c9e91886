(** * P_FloatStretch: how far a point is moved, with doubles *)
From Coq Require Import List Ascii String ZArith NArith Bool Lia Reals Lra Psatz Floats.SpecFloat.
From Flocq Require Import Core Round BinarySingleNaN.
From Verif Require Import PyBase Arith ArithR ArithB64 Gcoder Filters SpecText SpecLoad SpecFilter SpecBinary64 SpecFloatStretch Stretch SpecStretch
  P_Load P_Text P_Measure P_Stretch P_StretchIter P_Float P_FloatText P_FloatTrack P_FloatHypot.
Import ListNotations.
Local Open Scope list_scope.
Local Open Scope R_scope.

Local Existing Instance Hprec.
Local Existing Instance Hmax.

(** widths a stretch can be computed with *)
Record fine_lengths (w : lengths (A:=B64)) : Prop := Fine {
  fl_from : sized (bpow radix2 (-20)) (bpow radix2 20) (w_from w);
  fl_fraction : sized (bpow radix2 (-22)) (bpow radix2 20) (w_fraction w);
  fl_cross : sized (bpow radix2 (-20)) (bpow radix2 20) (w_cross w);
  fl_remainder : sized (bpow radix2 (-21)) (bpow radix2 21) (w_remainder w) }.

Lemma sized_bnd : forall lo k x, 0 <= lo -> sized lo (bpow radix2 k) x -> bnd k x.
Proof. intros lo k x H [F [L U]]. split; [exact F|]. rewrite Rabs_pos_eq by lra. exact U. Qed.

(** the X and Y words of the line are numbers of at most 2^20 *)
Definition near_line (l : line B64) : Prop :=
  xy_move l = true -> (forall v, l_x l = Some v -> bnd 20 v) /\ (forall v, l_y l = Some v -> bnd 20 v).

Lemma near_location : forall old l, bnd2 20 (fst old) -> near_line l -> xy_move l = true -> bnd2 20 (drop_axis (get_location (A:=B64) (Some old) l)).
Proof.
  intros [[x y] z] l [H1 H2] HL Hm. destruct (HL Hm) as [L1 L2]. cbn [fst snd] in *. unfold get_location, drop_axis, bnd2. cbn [fst snd]. split.
  - unfold or_else. destruct (l_x l) as [v|]; [apply L1; reflexivity|exact H1].
  - unfold or_else. destruct (l_y l) as [v|]; [apply L2; reflexivity|exact H2].
Qed.

Lemma next_near : forall fuel d dir (ls : list (line B64)) it l it', Forall near_line ls ->
  get_next fuel d dir ls it = Ok (Next l it') -> near_line l /\ xy_move l = true.
Proof.
  intros fuel d dir ls it l it' H Hn. apply next_returns in Hn as [Hn Hm]. split; [|exact Hm]. unfold line_at in Hn.
  destruct (_ <? 0)%Z; [discriminate Hn|]. apply nth_error_In in Hn. rewrite Forall_forall in H. apply H, Hn.
Qed.

Lemma not_zero : forall x, fin x -> n_eqb (a:=B64) x n0 = false -> fval x <> 0.
Proof.
  intros x F E Z. destruct n0_fin as [F0 V0].
  assert (T : SFeqb x (n0 (A:=B64)) = true) by (apply feqb_val; [exact F|exact F0|congruence]).
  change (n_eqb (a:=B64) x n0) with (SFeqb x (n0 (A:=B64))) in E. congruence.
Qed.

(** a unit vector, or the null vector *)
Lemma unit_bnd : forall k p r, (-500 <= k < 400)%Z -> bnd2 k p -> c_div (A:=B64) p (c_abs p) = Ok r -> bnd2 1 r.
Proof.
  intros k p r Hk Hp H. destruct (abs_bnd k p ltac:(lia) Hp) as ([Fl Bl] & Nl & _).
  assert (Hz : fval (c_abs (A:=B64) p) <> 0).
  { apply not_zero; [exact Fl|]. unfold c_div in H. destruct (n_eqb (c_abs p) n0); [discriminate H|reflexivity]. }
  destruct (abs_low k p ltac:(lia) Hp ltac:(lra)) as [L1 L2].
  destruct (c_div_val k 1 p _ r ltac:(lia) ltac:(lia) Hp Fl) as (_ & B & _); try exact H; [| | |exact B].
  - rewrite (Rabs_pos_eq _ Nl). exact L1.
  - rewrite (Rabs_pos_eq _ Nl). exact L2.
  - eapply Rle_trans; [exact Bl|]. apply bpow_le. lia.
Qed.

(** rounding a sum whose first part is a double *)
Lemma sum_overshoot : forall t l, fin t -> 0 <= fval t -> 0 <= l -> rnd (fval t + l) <= fval t + 2 * l.
Proof.
  intros t l F Ht Hl.
  destruct (Rle_dec (rnd (fval t + l)) (fval t + l)) as [H|H]; [lra|]. apply Rnot_le_lt in H.
  pose proof (@round_N_pt radix2 (SpecFloat.fexp prec emax) (fexp_correct prec emax Hprec) (fun z => negb (Z.even z)) (fval t + l)) as [_ K].
  specialize (K (fval t)). change (round radix2 (SpecFloat.fexp prec emax) (Znearest (fun z => negb (Z.even z))) (fval t + l)) with (rnd (fval t + l)) in K.
  assert (G : generic_format radix2 (SpecFloat.fexp prec emax) (fval t)).
  { apply fin_B in F as (b & -> & _ & ->). apply generic_format_B2R. }
  specialize (K G). rewrite (Rabs_pos_eq (rnd _ - _)) in K by lra. rewrite Rabs_left1 in K by lra. lra.
Qed.

Lemma fin_format : forall x, fin x -> generic_format radix2 (SpecFloat.fexp prec emax) (fval x).
Proof. intros x F. apply fin_B in F as (b & -> & _ & ->). apply generic_format_B2R. Qed.

Lemma twice_fin : forall x, fin x -> rnd (2 * fval x) = 2 * fval x.
Proof.
  intros x F. apply fin_format in F. apply round_generic; [apply valid_rnd_N|].
  apply (generic_format_FLT radix2 (-1074) 53). apply (FLT_format_generic radix2 (-1074) 53) in F.
  destruct F as [f E1 E2 E3]. exists (Float radix2 (Fnum f) (Fexp f + 1)); [|exact E2|cbn; lia].
  rewrite E1. unfold F2R. cbn [Fnum Fexp]. rewrite bpow_plus. change (bpow radix2 1) with 2. ring.
Qed.

Lemma loop_bnd : forall n fuel d dir w ls old loc lastl total it r pr,
  fine_lengths w -> Forall near_line ls -> bnd2 20 (fst old) -> bnd2 20 loc -> bnd2 20 lastl ->
  fin total -> 0 <= fval total < fval (w_from w) ->
  relative_loop (A:=B64) n fuel d dir w ls (Some old) loc lastl lastl total total it = Ok (r, pr) -> bnd2 44 r.
Proof.
  induction n as [|n IH]; intros fuel d dir w ls old loc lastl total it r pr Hw Hls Hold Hloc Hlast Ft Ht H;
    cbn [relative_loop] in H; [discriminate H|].
  destruct (get_next fuel d dir ls it) as [nx|e] eqn:En; cbn [bind] in H; [|discriminate H].
  destruct nx as [l it1|printed].
  2:{ pose proof (c_sub_bnd 20 _ _ ltac:(lia) Hloc Hlast) as Hd. change (20 + 1)%Z with 21%Z in Hd.
    destruct (n_ltb (a:=B64) n0 (c_abs (c_sub loc lastl))).
    + destruct (c_div (c_sub loc lastl) _) as [q|e] eqn:Eq; cbn [bind] in H; [|discriminate H].
      apply ok_inj in H. apply (f_equal fst) in H. cbn [fst] in H. subst q.
      apply (bnd2_weak 1); [lia|]. exact (unit_bnd 21 _ _ ltac:(lia) Hd Eq).
    + apply ok_inj in H. apply (f_equal fst) in H. cbn [fst] in H. subst r. split; apply zero_bnd. }
  { destruct (next_near _ _ _ _ _ _ _ Hls En) as [N1 N2]. pose proof (near_location old l Hold N1 N2) as Hp1.
    set (point1 := drop_axis (get_location (Some old) l)) in *.
    pose proof (c_sub_bnd 20 _ _ ltac:(lia) Hlast Hp1) as Hd. change (20 + 1)%Z with 21%Z in Hd.
    destruct (abs_bnd 21 _ ltac:(lia) Hd) as (Bl & Nl & _). change (21 + 1)%Z with 22%Z in Bl.
    set (len := c_abs (c_sub lastl point1)) in *.
    pose proof (fl_from w Hw) as [Ff Hf]. pose proof (bpow_gt_0 radix2 (-20)) as P20.
    assert (Bf : bnd 20 (w_from w)) by (split; [exact Ff|rewrite Rabs_pos_eq by lra; lra]).
    assert (Bt : bnd 20 total) by (split; [exact Ft|rewrite Rabs_pos_eq by lra; lra]).
    destruct (add_bnd 22 total len ltac:(lia) (bnd_weak 20 22 _ ltac:(lia) Bt) Bl) as [[F1 _] V1].
    change (n_add (a:=B64) total len) with (fadd total len) in H.
    destruct (n_leb (a:=B64) (w_from w) (fadd total len)) eqn:Ele.
    + assert (Hle : fval (w_from w) <= fval (fadd total len)) by (apply (fleb_val _ _ Ff F1), Ele).
      rewrite V1 in Hle. pose proof (sum_overshoot total _ Ft ltac:(lra) Nl) as Ho.
      unfold py_div in H. destruct (n_eqb (a:=B64) len n0) eqn:E0; cbn [bind] in H; [discriminate H|].
      pose proof (not_zero _ (proj1 Bl) E0) as Hnz.
      destruct (sub_bnd 20 (w_from w) total ltac:(lia) Bf Bt) as [[F2 _] V2].
      destruct (div_ratio 1 (fsub (w_from w) total) len ltac:(lia) F2 (proj1 Bl) Hnz) as [Br _].
      { rewrite V2. rewrite (Rabs_pos_eq _ Nl). change (bpow radix2 1) with 2.
        apply rnd_abs; [|apply twice_fin, Bl]. rewrite Rabs_pos_eq by lra. lra. }
      change (n_sub (a:=B64) (w_from w) total) with (fsub (w_from w) total) in H.
      change (n_div (a:=B64) (fsub (w_from w) total) len) with (fdiv (fsub (w_from w) total) len) in H.
      set (ratio := fdiv (fsub (w_from w) total) len) in *.
      destruct one_bnd as [O1 _].
      destruct (sub_bnd 1 (n1 (A:=B64)) ratio ltac:(lia) (bnd_weak 0 1 _ ltac:(lia) O1) Br) as [B1 _]. change (1 + 1)%Z with 2%Z in B1.
      destruct (c_scale_bnd 20 1 point1 ratio ltac:(lia) ltac:(lia) Hp1 Br) as [C1 _].
      destruct (c_scale_bnd 20 2 lastl _ ltac:(lia) ltac:(lia) Hlast B1) as [C2 _].
      change (n_sub (a:=B64) n1 ratio) with (fsub (n1 (A:=B64)) ratio) in H.
      pose proof (c_add_bnd 22 _ _ ltac:(lia) (bnd2_weak (20 + 1) 22 _ ltac:(lia) C1) C2) as C3.
      pose proof (c_sub_bnd 23 _ _ ltac:(lia) (bnd2_weak 20 23 _ ltac:(lia) Hloc) C3) as C4. change (23 + 1)%Z with 24%Z in C4.
      destruct (c_div (c_sub loc _) (w_from w)) as [q|e] eqn:Eq; cbn [bind] in H; [|discriminate H].
      apply ok_inj in H. apply (f_equal fst) in H. cbn [fst] in H. subst q.
      assert (Hk : forall x, bnd 24 x -> Rabs (fval x) <= bpow radix2 44 * Rabs (fval (w_from w))).
      { intros x [_ Bx]. rewrite (Rabs_pos_eq (fval (w_from w))) by lra. eapply Rle_trans; [exact Bx|].
        apply Rle_trans with (bpow radix2 44 * bpow radix2 (-20)); [rewrite <- bpow_plus; apply bpow_le; lia|].
        apply Rmult_le_compat_l; [apply bpow_ge_0|lra]. }
      destruct (c_div_val 24 44 _ _ r ltac:(lia) ltac:(lia) C4 Ff (Hk _ (proj1 C4)) (Hk _ (proj2 C4))) as (_ & B & _); [|exact Eq|exact B].
      eapply Rle_trans; [apply Bf|]. apply bpow_le. lia.
    + assert (Hlt : fval (fadd total len) < fval (w_from w)).
      { apply Rnot_le_lt. intros C. apply (fleb_val _ _ Ff F1) in C. change (n_leb (a:=B64)) with SFleb in Ele. congruence. }
      refine (IH _ _ _ _ _ _ _ _ _ _ _ _ Hw Hls Hold Hloc Hp1 F1 _ H).
      split; [|exact Hlt]. rewrite V1. apply rnd_nonneg. lra. }
Qed.

Lemma limited_bnd : forall fuel d w ls old v dir start loc r pr k, (1 <= k <= 200)%Z ->
  fine_lengths w -> Forall near_line ls -> bnd2 20 (fst old) -> bnd2 20 loc -> bnd2 k v ->
  cross_limited (A:=B64) fuel d w ls (Some old) v dir start loc = Ok (r, pr) -> bnd2 (k + 60) r.
Proof.
  intros fuel d w ls old v dir start loc r pr k Hk Hw Hls Hold Hloc Hv H. unfold cross_limited in H.
  destruct (get_next _ _ _ _ _) as [nx|e] eqn:En; cbn [bind] in H; [|discriminate H].
  destruct nx as [l it1|printed].
  2:{ apply ok_inj in H. apply (f_equal fst) in H. cbn [fst] in H. subst r. apply (bnd2_weak k); [lia|exact Hv]. }
  destruct (next_near _ _ _ _ _ _ _ Hls En) as [N1 N2]. pose proof (near_location old l Hold N1 N2) as Hp1.
  set (point1 := drop_axis (get_location (Some old) l)) in *.
  pose proof (c_sub_bnd 20 _ _ ltac:(lia) Hloc Hp1) as Hd. change (20 + 1)%Z with 21%Z in Hd.
  destruct (abs_bnd 21 _ ltac:(lia) Hd) as (Bl & Nl & _). change (21 + 1)%Z with 22%Z in Bl.
  set (diff := c_sub loc point1) in *.
  destruct (n_leb (a:=B64) (c_abs diff) (w_fraction w)).
  { apply ok_inj in H. apply (f_equal fst) in H. cbn [fst] in H. subst r. apply (bnd2_weak k); [lia|exact Hv]. }
  destruct (c_div diff (c_abs diff)) as [pa|e] eqn:Ep; cbn [bind] in H; [|discriminate H].
  pose proof (unit_bnd 21 _ _ ltac:(lia) Hd Ep) as Bp.
  assert (Hdot : forall q, bnd2 1 q -> bnd (k + 2) (dot (A:=B64) q v)).
  { intros q [Q1 Q2]. unfold dot. destruct Hv as [V1 V2].
    destruct (mul_bnd 1 k _ _ ltac:(lia) Q1 V1) as [M1 _]. destruct (mul_bnd 1 k _ _ ltac:(lia) Q2 V2) as [M2 _].
    replace (k + 2)%Z with (1 + k + 1)%Z by lia. apply (add_bnd (1 + k) _ _ ltac:(lia) M1 M2). }
  destruct (c_scale_bnd 1 (k + 2) pa _ ltac:(lia) ltac:(lia) Bp (Hdot pa Bp)) as [Ba _].
  destruct (n_ltb (a:=B64) (w_cross w) (c_abs diff)).
  { apply ok_inj in H. apply (f_equal fst) in H. cbn [fst] in H. subst r. apply (bnd2_weak (1 + (k + 2))); [lia|exact Ba]. }
  assert (Bc : bnd2 1 (snd pa, n_opp (a:=B64) (fst pa))).
  { destruct Bp as [B1 B2]. split; cbn [fst snd]; [exact B2|]. apply opp_bnd, B1. }
  destruct (c_scale_bnd 1 (k + 2) _ _ ltac:(lia) ltac:(lia) Bc (Hdot _ Bc)) as [Bx _].
  pose proof (sized_bnd _ 20 _ (bpow_ge_0 _ _) (fl_cross w Hw)) as Bcr.
  destruct (sub_bnd 22 (w_cross w) (c_abs diff) ltac:(lia) (bnd_weak 20 22 _ ltac:(lia) Bcr) Bl) as [Bs _].
  pose proof (fl_remainder w Hw) as [Fr Hr]. pose proof (bpow_gt_0 radix2 (-21)) as P21.
  destruct (div_bnd (-21) (22 + 1) _ (w_remainder w) ltac:(lia) Bs Fr) as [Bq _]. { rewrite Rabs_pos_eq by lra. lra. }
  unfold py_div in H. destruct (n_eqb (a:=B64) (w_remainder w) n0); cbn [bind] in H; [discriminate H|].
  change (n_div (a:=B64) (n_sub (w_cross w) (c_abs diff)) (w_remainder w)) with (fdiv (fsub (w_cross w) (c_abs (A:=B64) diff)) (w_remainder w)) in H.
  apply ok_inj in H. apply (f_equal fst) in H. cbn [fst] in H. subst r.
  destruct (c_scale_bnd (1 + (k + 2)) (22 + 1 - -21) _ _ ltac:(lia) ltac:(lia) Bx Bq) as [By _].
  apply (bnd2_weak (1 + (k + 2) + (22 + 1 - -21) + 1)); [lia|]. apply c_add_bnd; [lia| |exact By].
  apply (bnd2_weak (1 + (k + 2))); [lia|exact Ba].
Qed.

(** ** The clip *)

Lemma near4 : forall x, Rabs x <= 4 -> Rabs (rnd x - x) <= / 1000000000000000.
Proof.
  intros x H. pose proof (rnd_err x) as K. pose proof ulp1_small as U. pose proof tiny_small' as T. pose proof ulp1_pos as P.
  eapply Rle_trans; [exact K|]. apply Rle_trans with (/ 9000000000000000 * 4 + / 100000000000000000000); [|lra].
  apply Rplus_le_compat; [|exact T]. apply Rmult_le_compat; try lra. apply Rabs_pos.
Qed.
Lemma near2000 : forall x, Rabs x <= 4000 -> Rabs (rnd x - x) <= / 1000000000000.
Proof.
  intros x H. pose proof (rnd_err x) as K. pose proof ulp1_small as U. pose proof tiny_small' as T. pose proof ulp1_pos as P.
  eapply Rle_trans; [exact K|]. apply Rle_trans with (/ 9000000000000000 * 4000 + / 100000000000000000000); [|lra].
  apply Rplus_le_compat; [|exact T]. apply Rmult_le_compat; try lra. apply Rabs_pos.
Qed.

(** the square of a number next to [x] *)
Lemma sq_near : forall x y d m, Rabs (y - x) <= d -> Rabs x <= m -> 0 <= d <= 1 -> y * y <= x * x + (2 * m + 1) * d.
Proof.
  intros x y d m H Hx Hd. apply Rabs_le_both in H, Hx. assert (E : y * y = x * x + (y - x) * (2 * x + (y - x))) by ring. rewrite E.
  assert (K : Rabs ((y - x) * (2 * x + (y - x))) <= d * (2 * m + 1)).
  { rewrite Rabs_mult. apply Rmult_le_compat; try apply Rabs_pos; apply Rabs_le; lra. }
  apply Rabs_le_both in K. lra.
Qed.

Lemma clipped : forall k p r, (1 <= k < 400)%Z -> bnd2 k p ->
  (if n_ltb (a:=B64) n1 (c_abs p) then c_div p (c_abs p) else Ok p) = Ok r ->
  bnd2 1 r /\ fval (fst r) * fval (fst r) + fval (snd r) * fval (snd r) <= 1 + / 10000000000000.
Proof.
  intros k p r Hk Hp H. destruct (abs_bnd k p ltac:(lia) Hp) as ([Fl Bl] & Nl & _).
  destruct (abs_acc k p ltac:(lia) Hp) as [Ha _]. cbv zeta in Ha.
  destruct one_bnd as [[F1 _] V1].
  set (len := c_abs (A:=B64) p) in *. set (a := fval (fst p)) in *. set (b := fval (snd p)) in *.
  destruct (n_ltb (a:=B64) n1 len) eqn:E.
  - apply (fltb_val _ _ F1 Fl) in E. rewrite V1 in E.
    destruct (abs_low k p ltac:(lia) Hp ltac:(unfold len in E; lra)) as [L1 L2]. fold len in L1, L2. fold a in L1. fold b in L2.
    destruct (c_div_val k 1 p len r ltac:(lia) ltac:(lia) Hp Fl) as (Hz & B & E1 & E2); try exact H.
    { rewrite (Rabs_pos_eq _ Nl). exact L1. } { rewrite (Rabs_pos_eq _ Nl). exact L2. }
    { eapply Rle_trans; [exact Bl|]. apply bpow_le. lia. }
    split; [exact B|]. fold a in E1. fold b in E2. rewrite E1, E2. set (q := fval len) in *.
    assert (Hx : forall x, Rabs x <= 2 * q -> Rabs (x / q) <= 2).
    { intros x Hx. unfold Rdiv. rewrite Rabs_mult, Rabs_inv, (Rabs_pos_eq q) by lra.
      apply Rmult_le_reg_r with q; [lra|]. rewrite Rmult_assoc, Rinv_l by lra. lra. }
    pose proof (Hx a L1) as X1. pose proof (Hx b L2) as X2.
    pose proof (sq_near _ _ _ 2 (near4 (a / q) ltac:(lra)) X1 ltac:(lra)) as S1.
    pose proof (sq_near _ _ _ 2 (near4 (b / q) ltac:(lra)) X2 ltac:(lra)) as S2.
    assert (S : a / q * (a / q) + b / q * (b / q) <= 1 + / 100000000000000 + / 1000000000000000000000000000000).
    { replace (a / q * (a / q) + b / q * (b / q)) with ((a * a + b * b) / (q * q)) by (field; lra).
      apply Rmult_le_reg_r with (q * q); [nra|]. unfold Rdiv. rewrite Rmult_assoc, Rinv_l by nra. nra. }
    lra.
  - apply ok_inj in H. subst r. fold a. fold b.
    assert (Hle : fval len <= 1).
    { apply Rnot_lt_le. intros C. rewrite <- V1 in C. apply (fltb_val _ _ F1 Fl) in C. change (n_ltb (a:=B64)) with SFltb in E. congruence. }
    assert (Hll : fval len * fval len <= 1) by nra.
    assert (S : a * a + b * b <= 1 + / 10000000000000) by lra. split; [|exact S].
    assert (K : forall x, x * x <= 2 -> Rabs x <= bpow radix2 1).
    { intros x Hx. change (bpow radix2 1) with 2. apply Rsqr_incr_0_var; [|lra]. unfold Rsqr. rewrite sq_abs. lra. }
    destruct Hp as [[G1 _] [G2 _]]. split; (split; [assumption|]); apply K; [fold a|fold b]; nra.
Qed.

(** the move: not longer than the limit, up to rounding *)
Lemma scaled_move : forall r max, bnd2 1 r -> fval (fst r) * fval (fst r) + fval (snd r) * fval (snd r) <= 1 + / 10000000000000 ->
  sized 0 1000 max ->
  let m := c_scale (A:=B64) r max in
  bnd2 11 m /\ fval (fst m) * fval (fst m) + fval (snd m) * fval (snd m) <= (fval max + / 2000000000) * (fval max + / 2000000000).
Proof.
  intros r max Hr Hs [Fm Hm] m.
  assert (Bm : bnd 10 max) by (split; [exact Fm|rewrite Rabs_pos_eq by lra; cbn; lra]).
  destruct (c_scale_bnd 1 10 r max ltac:(lia) ltac:(lia) Hr Bm) as (B & E1 & E2). fold m in B, E1, E2. change (1 + 10)%Z with 11%Z in B. split; [exact B|].
  rewrite E1, E2. destruct Hr as [[_ R1] [_ R2]]. change (bpow radix2 1) with 2 in R1, R2.
  set (x := fval (fst r)) in *. set (y := fval (snd r)) in *. set (L := fval max) in *. clearbody x y L.
  assert (K : forall z, Rabs z <= 2 -> Rabs (z * L) <= 2 * L /\ Rabs (rnd (z * L) - z * L) <= / 1000000000000).
  { intros z Hz. assert (Hb : Rabs (z * L) <= 2 * L).
    { rewrite Rabs_mult, (Rabs_pos_eq L) by lra. apply Rmult_le_compat_r; lra. }
    split; [exact Hb|]. apply near2000. lra. }
  destruct (K x R1) as [X1 X2]. destruct (K y R2) as [Y1 Y2].
  assert (Q : forall z w, Rabs (z * L) <= 2 * L -> Rabs (w - z * L) <= / 1000000000000 -> w * w <= (z * z) * (L * L) + 4 * L * / 1000000000000 + / 1000000000000 * / 1000000000000).
  { intros z w H1 H2. apply Rabs_le_both in H1. assert (E : w * w = (z * z) * (L * L) + 2 * ((w - z * L) * (z * L)) + (w - z * L) * (w - z * L)) by ring. rewrite E.
    assert (K1 : (w - z * L) * (w - z * L) <= / 1000000000000 * / 1000000000000).
    { rewrite <- sq_abs. apply Rmult_le_compat; try apply Rabs_pos; assumption. }
    assert (K2 : Rabs ((w - z * L) * (z * L)) <= / 1000000000000 * (2 * L)).
    { rewrite Rabs_mult. apply Rmult_le_compat; try apply Rabs_pos; [exact H2|apply Rabs_le; lra]. }
    apply Rabs_le_both in K2. lra. }
  pose proof (Q x _ X1 X2) as S1. pose proof (Q y _ Y1 Y2) as S2.
  assert (S3 : (x * x + y * y) * (L * L) <= (1 + / 10000000000000) * (L * L)) by (apply Rmult_le_compat_r; [nra|exact Hs]).
  assert (S4 : L * L <= 1000 * L) by (apply Rmult_le_compat_r; lra).
  replace ((L + / 2000000000) * (L + / 2000000000)) with (L * L + L * / 1000000000 + / 2000000000 * / 2000000000) by field.
  lra.
Qed.

(** what is left of the filament *)
Lemma move_factor : forall m L, bnd2 11 m -> 0 <= L <= 1000 ->
  fval (fst m) * fval (fst m) + fval (snd m) * fval (snd m) <= (L + / 2000000000) * (L + / 2000000000) ->
  bnd 13 (fsub (n1 (A:=B64)) (c_abs (A:=B64) m)) /\
  1 - L - / 1000000000 <= fval (fsub (n1 (A:=B64)) (c_abs (A:=B64) m)) <= 1.
Proof.
  intros m L Hm HL H. destruct (abs_bnd 11 m ltac:(lia) Hm) as (Bl & Nl & _). change (11 + 1)%Z with 12%Z in Bl.
  destruct (abs_acc 11 m ltac:(lia) Hm) as [_ Ha]. cbv zeta in Ha.
  destruct one_bnd as [O1 V1]. destruct (sub_bnd 12 _ _ ltac:(lia) (bnd_weak 0 12 _ ltac:(lia) O1) Bl) as [B V].
  split; [exact B|]. rewrite V, V1. set (len := fval (c_abs (A:=B64) m)) in *.
  assert (Hl : len <= L + / 1500000000).
  { apply Rsqr_incr_0_var; [|lra]. unfold Rsqr.
    set (s := fval (fst m) * fval (fst m) + fval (snd m) * fval (snd m)) in *.
    assert (S4 : L * L <= 1000 * L) by (apply Rmult_le_compat_r; lra).
    assert (Hs : s * (1 + / 100000000000000) <= (L + / 2000000000) * (L + / 2000000000) * (1 + / 100000000000000)) by (apply Rmult_le_compat_r; [lra|exact H]).
    replace ((L + / 1500000000) * (L + / 1500000000)) with (L * L + L * / 750000000 + / 1500000000 * / 1500000000) by field.
    replace ((L + / 2000000000) * (L + / 2000000000)) with (L * L + L * / 1000000000 + / 2000000000 * / 2000000000) in Hs by field.
    lra. }
  split.
  - assert (Hb : Rabs (1 - len) <= 4000) by (apply Rabs_le; lra). pose proof (near2000 _ Hb) as K. apply Rabs_le_both in K. lra.
  - replace 1 with (bpow radix2 0) at 2 by reflexivity. rewrite <- (rnd_bpow 0 ltac:(lia)). apply rnd_le. change (bpow radix2 0) with 1. lra.
Qed.

Lemma lit8_bnd : bnd 0 (lit (A:=B64) 8 1).
Proof.
  change (lit (A:=B64) 8 1) with (f_of_dec false 8 1).
  assert (E : dval false 8 1 = 8 / 10) by (unfold dval; cbn; lra).
  assert (Hb : Rabs (dval false 8 1) <= bpow radix2 0) by (rewrite E, Rabs_pos_eq by lra; cbn; lra).
  destruct (f_of_dec_val false 8 1) as [F V]. { apply (bpow_big 0); [lia|exact Hb]. }
  split; [exact F|]. rewrite V. apply rnd_bnd; [lia|exact Hb].
Qed.

Lemma stretch_bound : forall fuel d w ls i old max loc move pr,
  fine_lengths w -> Forall near_line ls -> bnd2 20 (fst old) -> bnd2 20 loc -> sized 0 1000 max ->
  absolute_stretch (A:=B64) fuel d w ls i (Some old) max loc = Ok (move, pr) ->
  bnd2 11 move /\
  fval (fst move) * fval (fst move) + fval (snd move) * fval (snd move) <= (fval max + / 2000000000) * (fval max + / 2000000000).
Proof.
  intros fuel d w ls i old max loc move pr Hw Hls Hold Hloc Hmax H. unfold absolute_stretch, relative_stretch in H.
  assert (Ht : 0 <= fval (n0 (A:=B64)) < fval (w_from w)).
  { destruct n0_fin as [_ ->]. pose proof (fl_from w Hw) as [_ [Hf _]]. pose proof (bpow_gt_0 radix2 (-20)). lra. }
  destruct (relative_loop _ _ _ Forward _ _ _ _ _ _ _ _ _) as [[r1 p1]|e] eqn:R1; cbn [bind] in H; [|discriminate H].
  destruct (relative_loop _ _ _ Backward _ _ _ _ _ _ _ _ _) as [[r2 p2]|e] eqn:R2; cbn [bind] in H; [|discriminate H].
  pose proof (loop_bnd _ _ _ _ _ _ _ _ _ _ _ _ _ Hw Hls Hold Hloc Hloc (proj1 n0_fin) Ht R1) as B1.
  pose proof (loop_bnd _ _ _ _ _ _ _ _ _ _ _ _ _ Hw Hls Hold Hloc Hloc (proj1 n0_fin) Ht R2) as B2.
  pose proof (c_add_bnd 44 _ _ ltac:(lia) B1 B2) as B3.
  destruct (c_scale_bnd (44 + 1) 0 _ _ ltac:(lia) ltac:(lia) B3 lit8_bnd) as [B4 _]. change (44 + 1 + 0)%Z with 45%Z in B4.
  destruct (cross_limited _ _ _ _ _ _ Forward _ _) as [[r3 p3]|e] eqn:C1; cbn [bind] in H; [|discriminate H].
  pose proof (limited_bnd _ _ _ _ _ _ _ _ _ _ _ 45 ltac:(lia) Hw Hls Hold Hloc B4 C1) as B5. change (45 + 60)%Z with 105%Z in B5.
  destruct (cross_limited _ _ _ _ _ _ Backward _ _) as [[r4 p4]|e] eqn:C2; cbn [bind] in H; [|discriminate H].
  pose proof (limited_bnd _ _ _ _ _ _ _ _ _ _ _ 105 ltac:(lia) Hw Hls Hold Hloc B5 C2) as B6. change (105 + 60)%Z with 165%Z in B6.
  destruct (if n_ltb n1 (c_abs r4) then _ else _) as [r5|e] eqn:C3; cbn [bind] in H; [|discriminate H].
  apply ok_inj in H. apply (f_equal fst) in H. cbn [fst] in H. subst move.
  destruct (clipped 165 _ _ ltac:(lia) B6 C3) as [B7 S7]. apply scaled_move; assumption.
Qed.

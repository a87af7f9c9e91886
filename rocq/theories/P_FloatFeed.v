(** * P_FloatFeed: the extruder position with doubles (C16) *)
From Coq Require Import List Ascii String ZArith NArith Bool Lia Reals Lra Floats.SpecFloat.
From Flocq Require Import Core Round BinarySingleNaN.
From Verif Require Import PyBase Arith ArithR ArithB64 Gcoder SpecText SpecLoad SpecMachine SpecFilter SpecBinary64.
From Verif Require Import P_Load P_Text P_Report P_Wf P_Machine P_Float P_FloatText P_FloatTrack.
Import ListNotations.
Local Open Scope list_scope.
Local Open Scope R_scope.

(** what a feed can add to the difference between the total and the position *)
Definition creep : R := / 2000000000.

Definition fetracks (n : nat) (m : mstate B64) (k : machine) : Prop :=
  m_imperial m = false /\ inches k = false /\ m_relative_e m = relative_e k /\
  fin (m_oe m) /\ fval (m_oe m) = 0 /\ extruder_origin k = 0 /\
  near (INR n * slip) (m_e m) (extruder k) /\
  near (INR n * creep) (m_total m) (fval (m_e m)).

Lemma fetracks_total : forall n m k, fetracks n m k -> near (INR n * drift) (m_total m) (extruder k).
Proof.
  intros n m k (_ & _ & _ & _ & _ & _ & [_ H1] & [F H2]). split; [exact F|].
  assert (N : 0 <= INR n) by apply pos_INR.
  apply Rabs_le_both in H1, H2. apply Rabs_le. unfold slip, creep, drift in *. lra.
Qed.

Definition feed1 (s : string) : nat := if feeds s then 1%nat else 0%nat.

Lemma fmax_val : forall a b : num B64, fin a -> fin b -> fin (n_max a b) /\ fval (n_max a b) = Rmax (fval a) (fval b).
Proof.
  intros a b Fa Fb. unfold n_max. change (@n_ltb B64) with SFltb. destruct (SFltb a b) eqn:E.
  - apply (fltb_val _ _ Fa Fb) in E. rewrite Rmax_right by lra. split; [exact Fb|reflexivity].
  - assert (~ fval a < fval b) by (intros H; apply (fltb_val _ _ Fa Fb) in H; congruence).
    rewrite Rmax_left by lra. split; [exact Fa|reflexivity].
Qed.

(** a relative feed *)
Lemma feed_rel : forall n v x c t e, holds v x -> near (INR n * slip) c e -> near (INR n * creep) t (fval c) ->
  Rabs e <= 1000000 -> Rabs (e + v) <= 1000000 -> INR n <= 100000000 ->
  near (INR (S n) * slip) (fadd c x) (e + v) /\ near (INR (S n) * creep) (fadd t x) (fval (fadd c x)).
Proof.
  intros n v x c t e Hx Hc Ht He Hv Hn. rewrite S_INR. assert (N : 0 <= INR n) by apply pos_INR.
  assert (D : INR n * slip <= / 2) by (unfold slip; lra). assert (D' : INR n * creep <= / 2) by (unfold creep; lra).
  split.
  - replace ((INR n + 1) * slip) with (INR n * slip + slip) by lra. apply add_near; [exact Hx|exact Hc|lra|lra].
  - destruct (held_near _ _ Hx) as (Fx & Ex & _). destruct Hc as [Fc Hc]. destruct Ht as [Ft Ht].
    apply Rabs_le_both in Hc, Ht, Ex, He, Hv.
    assert (B1 : Rabs (fval c + fval x) <= 2100000) by (apply Rabs_le; lra).
    assert (B2 : Rabs (fval t + fval x) <= 2100000) by (apply Rabs_le; lra).
    destruct (fadd_val c x Fc Fx) as [F1 V1]; [apply million_big; lra|].
    destruct (fadd_val t x Ft Fx) as [F2 V2]; [apply million_big; lra|].
    split; [exact F2|]. rewrite V1, V2.
    pose proof (rnd_between _ B1) as K1. pose proof (rnd_between _ B2) as K2. apply Rabs_le_both in K1, K2.
    apply Rabs_le. unfold creep in *. lra.
Qed.

(** an absolute feed *)
Lemma feed_abs : forall n v x o c t e, holds v x -> fin o -> fval o = 0 ->
  near (INR n * slip) c e -> near (INR n * creep) t (fval c) ->
  Rabs e <= 1000000 -> INR n <= 100000000 ->
  near slip (fadd x o) v /\ near (INR (S n) * creep) (fadd t (fsub (fadd x o) c)) (fval (fadd x o)).
Proof.
  intros n v x o c t e Hx Fo Vo Hc Ht He Hn. rewrite S_INR. assert (N : 0 <= INR n) by apply pos_INR.
  assert (D : INR n * slip <= / 2) by (unfold slip; lra). assert (D' : INR n * creep <= / 2) by (unfold creep; lra).
  destruct (held_near _ _ Hx) as (Fx & Ex & Vx). destruct Hc as [Fc Hc]. destruct Ht as [Ft Ht].
  apply Rabs_le_both in Hc, Ht, Ex, He, Vx.
  destruct (fadd_val x o Fx Fo) as [F1 V1].
  { rewrite Vo, Rplus_0_r. apply million_big, Rabs_le. lra. }
  rewrite Vo, Rplus_0_r, (rnd_fin x Fx) in V1. rewrite V1.
  assert (B1 : Rabs (fval (fadd x o) - fval c) <= 2100000) by (apply Rabs_le; rewrite V1; lra).
  destruct (fsub_val (fadd x o) c F1 Fc) as [F2 V2]; [apply million_big; lra|].
  pose proof (rnd_between _ B1) as K1. apply Rabs_le_both in K1. rewrite <- V2, V1 in K1.
  assert (B2 : Rabs (fval t + fval (fsub (fadd x o) c)) <= 2100000) by (apply Rabs_le; lra).
  destruct (fadd_val t (fsub (fadd x o) c) Ft F2) as [F3 V3]; [apply million_big; lra|].
  pose proof (rnd_between _ B2) as K2. apply Rabs_le_both in K2. rewrite <- V3 in K2.
  split.
  - split; [exact F1|]. rewrite V1. apply Rabs_le. unfold slip. lra.
  - split; [exact F3|]. apply Rabs_le. unfold creep in *. lra.
Qed.

Lemma motion_fetracks : forall s (l : line B64) m m' k n,
  fetracks n m k -> no_rebase_e s -> modest s -> op_of s <> Inches -> motion_step m (new_line s) = Ok (m', l) ->
  INR n <= 100000000 -> Rabs (extruder k) <= 1000000 -> Rabs (extruder (exec_line s k)) <= 1000000 ->
  fin (m_max m) ->
  let n' := (n + feed1 s)%nat in
  fetracks n' m' (exec_line s k) /\ fin (m_max m') /\
  (fval (m_max m') = Rmax (fval (m_max m)) (fval (m_total m')) \/
   (fval (m_max m') = fval (m_max m) /\ extruder (exec_line s k) = extruder k)) /\
  (t_extruding (lnotes l) = Some true -> extruder k < extruder (exec_line s k) + INR n' * drift) /\
  (extruder k + INR n' * drift < extruder (exec_line s k) -> t_extruding (lnotes l) = Some true).
Proof.
  intros s l m m' k n Htr Hn Hmo Hin H Hb He0 He1 Fmax n'.
  assert (N : 0 <= INR n) by apply pos_INR. pose proof drift_pos as Dp.
  assert (N' : 0 <= INR n' * drift) by (apply Rmult_le_pos; [apply pos_INR|lra]).
  destruct Htr as (T1 & T1' & T2 & T5 & T5' & T6 & T3 & T4).
  assert (Hsame : forall c, command_name s = Some c -> str_mem c move_gcodes = false -> feed1 s = 0%nat).
  { intros c Hc Hm. unfold feed1, feeds, op_of. rewrite Hc.
    change (str_mem c ["G0"; "G1"; "G2"; "G3"]%string) with (str_mem c move_gcodes). rewrite Hm.
    repeat match goal with |- context [if String.eqb c ?x then _ else _] =>
      destruct (String.eqb c x); [reflexivity|] end.
    destruct c as [|d t]; [reflexivity|]. clear. all_chars d; reflexivity. }
  destruct (command_name s) as [c|] eqn:Hc.
  2:{ destruct (motion_none _ _ _ _ Hc H) as (-> & _ & _ & Hx).
      assert (En : n' = n) by (unfold n', feed1, feeds, op_of; rewrite Hc; lia).
      unfold exec_line, op_of. rewrite Hc, Hx, En. cbn [exec].
      split; [repeat (split; [assumption|]); assumption|]. split; [exact Fmax|].
      split; [right; split; reflexivity|]. split; [discriminate|]. rewrite En in N'. lra. }
  pose proof (motion_modes _ _ _ _ H) as (_ & Me & Mi & _).
  destruct (motion_some _ _ _ _ _ Hc H) as (s1 & l1 & ext & H1 & H2 & H3 & ->).
  pose proof (update_modes_modes _ _ _ _ Hc H1) as
    (_ & M2 & M3 & _ & _ & _ & _ & _ & _ & _ & _ & _ & _ & M14 & M15 & M16 & M17).
  destruct (update_position_fixed l1 s1) as (Y1 & _ & Y3 & _ & Y5 & Y6 & Y7 & Y8 & _).
  cbn [lnotes set_notes position_notes t_extruding].
  assert (Hi : mode_inch (m_imperial m) s = false).
  { unfold mode_inch. destruct (op_of s); try assumption; try reflexivity. congruence. }
  assert (Hmodes : m_imperial m' = false /\ inches (exec_line s k) = false /\ m_relative_e m' = relative_e (exec_line s k)).
  { rewrite Me, Mi. split; [exact Hi|]. rewrite T2. unfold mode_rel_e, exec_line.
    destruct (op_of s); split; try reflexivity; try assumption. congruence. }
  destruct Hmodes as (Hm1 & Hm1' & Hm2).
  pose proof (fun G => parsed_B64 s c l1 LE (eq_rect _ (fun b => parsed s c b l1) H2 _ (eq_trans M3 Hi)) G Hmo) as He.
  cbn [get_arg letter_code] in He.
  pose proof H2 as (_ & Hcmd & Hmv & _ & _).
  unfold update_extrusion in H3. rewrite Hmv, Hcmd in H3. unfold l_e in H3.
  unfold no_rebase_e, op_of in Hn. rewrite Hc in Hn.
  assert (Hex : extruder (exec_line s k) =
    if str_mem c move_gcodes then
      match number_of "e" (words s) with
      | None => extruder k
      | Some v => (if relative_e k then extruder k else 0) + v
      end else extruder k).
  { unfold exec_line, op_of. rewrite Hc.
    change (str_mem c ["G0"; "G1"; "G2"; "G3"]%string) with (str_mem c move_gcodes).
    destruct (str_mem c move_gcodes).
    { cbn [exec extruder]. unfold mm. rewrite T1', T6. reflexivity. }
    repeat match goal with |- context [if String.eqb c ?x then _ else _] =>
      destruct (String.eqb c x); [reflexivity|] end.
    destruct c as [|d t]; [reflexivity|]. clear. all_chars d; reflexivity. }
  assert (Hor : extruder_origin (exec_line s k) = 0).
  { unfold exec_line, op_of. rewrite Hc.
    change (str_mem c ["G0"; "G1"; "G2"; "G3"]%string) with (str_mem c move_gcodes) in *.
    destruct (str_mem c move_gcodes); [exact T6|].
    destruct (String.eqb c "G28"); [exact T6|].
    destruct (String.eqb c "G92").
    { cbn [exec]. destruct Hn as [Hn1 Hn2]. rewrite Hn2. cbn [extruder_origin]. rewrite Hn1. exact T6. }
    repeat match goal with |- context [if String.eqb c ?x then _ else _] =>
      destruct (String.eqb c x); [exact T6|] end.
    destruct c as [|d t]; [exact T6|]. clear - T6. all_chars d; exact T6. }
  rewrite Hex in *. change (str_mem c ["G0"; "G1"; "G2"; "G3"]%string) with (str_mem c move_gcodes) in Hn.
  destruct (str_mem c move_gcodes) eqn:Emv.
  - assert (Hg : first_is "G" c = true).
    { clear - Emv. unfold str_mem in Emv. cbn in Emv.
      repeat (apply orb_prop in Emv as [Emv|Emv]; [apply String.eqb_eq in Emv; subst c; reflexivity|]).
      discriminate Emv. }
    specialize (He Hg).
    assert (Hre : mode_rel_e (m_relative_e m) s = relative_e k).
    { unfold mode_rel_e, op_of. rewrite Hc.
      change (str_mem c ["G0"; "G1"; "G2"; "G3"]%string) with (str_mem c move_gcodes). rewrite Emv. exact T2. }
    assert (Hfe : feed1 s = match number_of "e" (words s) with Some _ => 1%nat | None => 0%nat end).
    { unfold feed1, feeds, op_of. rewrite Hc.
      change (str_mem c ["G0"; "G1"; "G2"; "G3"]%string) with (str_mem c move_gcodes). rewrite Emv.
      destruct (number_of "e" (words s)); reflexivity. }
    destruct (a_e (largs l1)) as [e|], (number_of "e" (words s)) as [v|]; try contradiction.
    + assert (En : n' = S n) by (unfold n'; rewrite Hfe; lia). rewrite En in *.
      assert (Fe : fin e) by (destruct He as (_ & Fe & _); exact Fe).
      destruct (held_near _ _ He) as (_ & Ee & _). apply Rabs_le_both in Ee.
      rewrite Y3, M2, Hre in H3. destruct (relative_e k) eqn:Er; injection H3 as Hext <-; rewrite <- Hext;
        change (@n_add B64) with fadd in *; change (@n_sub B64) with fsub in *; change (@n_ltb B64) with SFltb in *;
        cbn [set_ext m_imperial m_relative_e m_e m_total m_oe m_max] in *; rewrite ?Y5, ?Y6, ?Y7, ?Y8, ?M14, ?M15, ?M16, ?M17 in *.
      * destruct (feed_rel n v e _ _ _ He T3 T4 He0 He1 Hb) as [G1 G2].
        assert (Hf : fetracks (S n) (set_ext (A:=B64) (fadd (m_e m) e) (m_oe m) (fadd (m_total m) e)
                  (n_max (A:=B64) (m_max m) (fadd (m_total m) e)) (update_position l1 s1)) (exec_line s k)).
        { unfold fetracks. cbn [set_ext m_imperial m_relative_e m_e m_total m_oe].
          rewrite Hex. repeat (split; [assumption|]). exact G2. }
        destruct (fmax_val (m_max m) (fadd (m_total m) e) Fmax (proj1 G2)) as [X1 X2].
        split; [exact Hf|]. split; [exact X1|]. split; [left; exact X2|].
        destruct n0_fin as [F0 V0]. change (n0 (A:=B64)) with (S754_zero false) in *. split.
        -- intros Hx. injection Hx as Hx. apply (fltb_val _ _ F0 Fe) in Hx. rewrite V0 in Hx.
           rewrite S_INR. unfold drift. lra.
        -- intros Hx. f_equal. apply (fltb_val _ _ F0 Fe). rewrite V0. rewrite S_INR in Hx. unfold drift in Hx. lra.
      * rewrite Rplus_0_l in *.
        destruct (feed_abs n v e _ _ _ _ He T5 T5' T3 T4 He0 Hb) as [G1 G2].
        assert (Hf : fetracks (S n) (set_ext (A:=B64) (fadd e (m_oe m)) (m_oe m) (fadd (m_total m) (fsub (fadd e (m_oe m)) (m_e m)))
                  (n_max (A:=B64) (m_max m) (fadd (m_total m) (fsub (fadd e (m_oe m)) (m_e m)))) (update_position l1 s1)) (exec_line s k)).
        { unfold fetracks. cbn [set_ext m_imperial m_relative_e m_e m_total m_oe].
          rewrite Hex. repeat (split; [assumption|]).
          split; [apply (near_le _ _ _ _ G1); rewrite S_INR; unfold slip; lra|exact G2]. }
        destruct (fmax_val (m_max m) (fadd (m_total m) (fsub (fadd e (m_oe m)) (m_e m))) Fmax (proj1 G2)) as [X1 X2].
        split; [exact Hf|]. split; [exact X1|]. split; [left; exact X2|].
        destruct T3 as [Fc Ec]. destruct G1 as [Fn Vn]. apply Rabs_le_both in Ec, Vn. split.
        -- intros Hx. injection Hx as Hx. apply (fltb_val _ _ Fc Fn) in Hx.
           rewrite S_INR. unfold drift, slip in *. lra.
        -- intros Hx. f_equal. apply (fltb_val _ _ Fc Fn). rewrite S_INR in Hx. unfold drift, slip in *. lra.
    + injection H3 as <- <-. assert (En : n' = n) by (unfold n'; rewrite Hfe; lia). rewrite En in *. split; [|split; [|split]].
      * unfold fetracks. rewrite Hor, Hex, Y5, Y6, Y7, M14, M15, M16. repeat (split; [assumption || reflexivity|]). assumption.
      * rewrite Y8, M17. exact Fmax.
      * right. rewrite Y8, M17. split; reflexivity.
      * split; [discriminate|lra].
  - assert (Hm' : ext = None /\ m_e m' = m_e m /\ m_total m' = m_total m /\ m_oe m' = m_oe m /\ m_max m' = m_max m).
    { destruct (a_e (largs l1)) as [e|] eqn:Ee.
      - cbn [cmd_is] in H3. destruct (String.eqb c "G92") eqn:E92.
        + exfalso. apply String.eqb_eq in E92. subst c. change (String.eqb "G92" "G28") with false in Hn.
          change (String.eqb "G92" "G92") with true in Hn. cbv iota in Hn.
          specialize (He eq_refl). destruct Hn as [Hn _]. rewrite Hn in He. destruct He.
        + injection H3 as <- <-. rewrite Y5, Y6, Y7, Y8, M14, M15, M16, M17. repeat split; assumption.
      - injection H3 as <- <-. rewrite Y5, Y6, Y7, Y8, M14, M15, M16, M17. repeat split; assumption. }
    destruct Hm' as (-> & E1 & E2 & E3 & E4).
    assert (En : n' = n) by (unfold n'; rewrite (Hsame c eq_refl Emv); lia). rewrite En in *. split; [|split; [|split]].
    + unfold fetracks. rewrite Hor, Hex, E1, E2, E3. repeat (split; [assumption || reflexivity|]). assumption.
    + rewrite E4. exact Fmax.
    + right. rewrite E4. split; reflexivity.
    + split; [discriminate|lra].
Qed.

Lemma feed_count_cons : forall s ts, feed_count (s :: ts) = (feed1 s + feed_count ts)%nat.
Proof. intros s ts. unfold feed_count, feed1. cbn [filter]. destruct (feeds s); reflexivity. Qed.

Lemma drift_mono : forall a b, (a <= b)%nat -> INR a * drift <= INR b * drift.
Proof. intros a b H. apply Rmult_le_compat_r; [apply Rlt_le, drift_pos|apply le_INR, H]. Qed.

Lemma trace_fetracks : forall ts ls (m m' : mstate B64), trace m ts ls m' -> Forall no_rebase_e ts ->
  Forall modest ts -> Forall (fun s => op_of s <> Inches) ts ->
  forall k n, fetracks n m k -> in_reach ts k -> fin (m_max m) -> INR (n + feed_count ts) <= 100000000 ->
  let d := INR (n + feed_count ts) * drift in
  fetracks (n + feed_count ts) m' (run ts k) /\ fin (m_max m') /\
  fval (m_max m) <= fval (m_max m') /\
  (forall i, (1 <= i)%nat -> extruder (run (firstn i ts) k) <= fval (m_max m') + d \/
             extruder (run (firstn i ts) k) = extruder k) /\
  (fval (m_max m') = fval (m_max m) \/ exists i, Rabs (fval (m_max m') - extruder (run (firstn i ts) k)) <= d) /\
  (forall i l, nth_error ls i = Some l ->
     (t_extruding (lnotes l) = Some true ->
      extruder (run (firstn i ts) k) < extruder (run (firstn (S i) ts) k) + d) /\
     (extruder (run (firstn i ts) k) + d < extruder (run (firstn (S i) ts) k) ->
      t_extruding (lnotes l) = Some true)).
Proof.
  assert (E6 : 10 ^ 6 = 1000000) by (cbn [pow]; lra).
  intros ts ls m m' H. induction H as [m|m s l m1 ts ls m' Hs Ht IH]; intros Hn Hmo Hin k n Hk Hr Fm Hb d.
  - unfold d. cbn [feed_count filter List.length run fold_left]. rewrite Nat.add_0_r in *.
    split; [exact Hk|]. split; [exact Fm|]. split; [lra|]. split; [|split].
    + intros i Hi. right. rewrite firstn_nil. reflexivity.
    + left. reflexivity.
    + intros i l Hi. destruct i; discriminate Hi.
  - inversion Hn as [|? ? Hn1 Hn2]; subst. inversion Hmo as [|? ? Hmo1 Hmo2]; subst. inversion Hin as [|? ? Hi1 Hi2]; subst.
    assert (V0 : Rabs (extruder k) <= 1000000) by (rewrite <- E6; apply (Hr 0%nat)).
    assert (V1 : Rabs (extruder (exec_line s k)) <= 1000000) by (rewrite <- E6; apply (Hr 1%nat)).
    assert (V2 : in_reach ts (exec_line s k)) by (intros i; apply (Hr (S i))).
    assert (En : (n + feed_count (s :: ts) = n + feed1 s + feed_count ts)%nat) by (rewrite feed_count_cons; lia).
    unfold d. rewrite En in *. clear En.
    assert (B1 : INR n <= 100000000) by (apply Rle_trans with (2 := Hb), le_INR; lia).
    destruct (motion_fetracks _ _ _ _ _ _ Hk Hn1 Hmo1 Hi1 Hs B1 V0 V1 Fm) as (T & F1 & Hmax & Hx1 & Hx2).
    destruct (IH Hn2 Hmo2 Hi2 _ _ T V2 F1 Hb) as (I1 & I0 & I2 & I3 & I4 & I5).
    pose proof (drift_mono (n + feed1 s) (n + feed1 s + feed_count ts) ltac:(lia)) as Hd.
    pose proof (fetracks_total _ _ _ T) as [_ Ht1]. apply Rabs_le_both in Ht1.
    set (D := INR (n + feed1 s + feed_count ts) * drift) in *.
    assert (Hm1 : fval (m_max m) <= fval (m_max m1) /\
      (extruder (exec_line s k) <= fval (m_max m1) + D \/ extruder (exec_line s k) = extruder k)).
    { destruct Hmax as [Hmax|[Hmax1 Hmax2]].
      - rewrite Hmax. split; [apply Rmax_l|left]. pose proof (Rmax_r (fval (m_max m)) (fval (m_total m1))). lra.
      - rewrite Hmax1. split; [lra|right; exact Hmax2]. }
    destruct Hm1 as [Hm1 Hm2].
    split; [exact I1|]. split; [exact I0|]. split; [lra|]. split; [|split].
    + intros i Hi. destruct i as [|i]; [lia|]. cbn [firstn run fold_left].
      change (fold_left (fun k0 s0 => exec_line s0 k0) (firstn i ts) (exec_line s k))
        with (run (firstn i ts) (exec_line s k)).
      destruct i as [|i].
      * cbn. destruct Hm2 as [Hm2|Hm2]; [left; lra|right; exact Hm2].
      * destruct (I3 (S i)) as [I3'|I3']; [lia|left; exact I3'|]. rewrite I3'.
        destruct Hm2 as [Hm2|Hm2]; [left; lra|right; exact Hm2].
    + destruct I4 as [I4|[i I4]].
      * destruct Hmax as [Hmax|[Hmax1 Hmax2]].
        -- rewrite I4, Hmax. unfold Rmax. destruct (Rle_dec (fval (m_max m)) (fval (m_total m1))).
           ++ right. exists 1%nat. cbn [firstn run fold_left]. apply Rabs_le. lra.
           ++ left. reflexivity.
        -- left. congruence.
      * right. exists (S i). exact I4.
    + intros i l0 Hi. destruct i as [|i]; cbn [nth_error] in Hi.
      * injection Hi as <-. cbn [firstn run fold_left]. split; [intros Hx; specialize (Hx1 Hx); lra|intros Hx; apply Hx2; lra].
      * apply (I5 i l0 Hi).
Qed.

Lemma init_fetracks : forall h k0, fetracks 0 (init_mstate h) (start k0).
Proof.
  intros [[hx hy] hz] k0. destruct n0_fin as [F0 V0].
  repeat (split; [first [reflexivity|exact F0|exact V0]|]). cbn [INR]. rewrite !Rmult_0_l.
  assert (N : near 0 (n0 (A:=B64)) 0) by (split; [exact F0|]; rewrite V0; replace (0 - 0) with 0 by lra; rewrite Rabs_R0; lra).
  split; [exact N|]. change (near 0 (n0 (A:=B64)) (fval (n0 (A:=B64)))). rewrite V0. exact N.
Qed.

Lemma load_extrusion_B64 : forall light home data (g : gcode B64) h, load_gen light home data = Ok g ->
  Forall no_rebase_e (program_text data) -> Forall modest (program_text data) ->
  Forall (fun s => op_of s <> Inches) (program_text data) -> in_reach (program_text data) (start h) ->
  INR (feed_count (program_text data)) <= 10 ^ 8 ->
  let e i := extruder (run (firstn i (program_text data)) (start h)) in
  let n := List.length (program_text data) in
  let d := INR (feed_count (program_text data)) * / 10 ^ 9 in
  near d (m_e (g_m g)) (e n) /\ near d (m_total (g_m g)) (e n) /\ fin (g_filament g) /\
  (forall i, e i <= fval (g_filament g) + d) /\
  (exists i, (i <= n)%nat /\ Rabs (fval (g_filament g) - e i) <= d) /\
  (light = false -> forall i l, nth_error (g_lines g) i = Some l ->
     (t_extruding (lnotes l) = Some true -> e i < e (S i) + d) /\
     (e i + d < e (S i) -> t_extruding (lnotes l) = Some true)).
Proof.
  intros light home data g h H Hn Hmo Hin Hr Hb. cbv zeta.
  assert (Hfil : g_filament g = m_max (g_m g)).
  { clear - H. unfold load_gen in H. destruct data as [|s data].
    - injection H as <-. destruct home as [[hx hy] hz]. reflexivity.
    - destruct (foldM _ _ _) as [[[m ls] out]|e]; cbn [bind] in H; [|discriminate H].
      injection H as <-. unfold finalize. destruct (ls_cur ls); reflexivity. }
  apply load_trace in H as (ls & Ht & Hl). destruct n0_fin as [F0 V0].
  assert (Hm0 : m_max (init_mstate (A:=B64) home) = n0) by (destruct home as [[hx hy] hz]; reflexivity).
  assert (E9 : 10 ^ 9 = 1000000000) by (cbn [pow]; lra). assert (E8 : 10 ^ 8 = 100000000) by (cbn [pow]; lra).
  rewrite E8 in Hb. rewrite E9. change (/ 1000000000) with drift.
  destruct (trace_fetracks _ _ _ _ Ht Hn Hmo Hin _ 0 (init_fetracks home h) Hr) as (T1 & T0 & T2 & T3 & T4 & T5).
  { rewrite Hm0. exact F0. }
  { exact Hb. }
  cbn [Nat.add] in *. pose proof (fetracks_total _ _ _ T1) as T7.
  assert (Dp : 0 <= INR (feed_count (program_text data)) * drift) by (apply Rmult_le_pos; [apply pos_INR|apply Rlt_le, drift_pos]).
  assert (T6 : near (INR (feed_count (program_text data)) * drift) (m_e (g_m g)) (extruder (run (program_text data) (start h)))).
  { destruct T1 as (_ & _ & _ & _ & _ & _ & T6 & _). apply (near_le _ _ _ _ T6).
    apply Rmult_le_compat_l; [apply pos_INR|unfold slip, drift; lra]. }
  assert (H0 : fval (m_max (init_mstate (A:=B64) home)) = 0) by (rewrite Hm0; exact V0).
  assert (Hs : extruder (start h) = 0) by reflexivity.
  rewrite firstn_all, Hfil. split; [exact T6|]. split; [exact T7|]. split; [exact T0|]. split; [|split].
  - intros i. destruct i as [|i]; [cbn [firstn run fold_left]; lra|].
    destruct (T3 (S i)) as [T|T]; [lia|exact T|]. rewrite T, Hs. lra.
  - destruct T4 as [T4|[i T4]].
    + exists 0%nat. split; [lia|]. cbn [firstn run fold_left]. rewrite Hs. apply Rabs_le. lra.
    + destruct (Nat.le_gt_cases i (List.length (program_text data))) as [Hi|Hi].
      * exists i. split; [exact Hi|exact T4].
      * exists (List.length (program_text data)). split; [lia|].
        rewrite firstn_all2 in T4 by lia. rewrite firstn_all. exact T4.
  - intros Hf. rewrite (Hl Hf). exact T5.
Qed.

(** * P_FloatBox: the bounding box, and rewritten numbers, with doubles (C18, C22) *)
From Coq Require Import List Ascii String ZArith NArith Bool Lia Reals Lra Floats.SpecFloat.
From Flocq Require Import Core Round BinarySingleNaN.
From Verif Require Import PyBase Arith ArithR ArithB64 Gcoder SpecText SpecLoad SpecMachine SpecMeasure SpecFilter SpecEqual SpecBinary64.
From Verif Require Import P_Load P_Text P_Report P_Wf P_Machine P_Measure P_Format P_Float P_FloatText P_FloatTrack.
Import ListNotations.
Local Open Scope list_scope.
Local Open Scope R_scope.

Lemma fmin_cases : forall a b : num B64, fin a -> fin b ->
  (n_min a b = a /\ fval a <= fval b) \/ (n_min a b = b /\ fval b <= fval a).
Proof.
  intros a b Fa Fb. unfold n_min. change (@n_ltb B64) with SFltb. destruct (SFltb b a) eqn:El.
  - right. apply (fltb_val _ _ Fb Fa) in El. split; [reflexivity|lra].
  - left. split; [reflexivity|].
    assert (Hn : ~ fval b < fval a) by (intros Hlt; apply (fltb_val _ _ Fb Fa) in Hlt; congruence). lra.
Qed.
Lemma fmax_cases : forall a b : num B64, fin a -> fin b ->
  (n_max a b = a /\ fval b <= fval a) \/ (n_max a b = b /\ fval a <= fval b).
Proof.
  intros a b Fa Fb. unfold n_max. change (@n_ltb B64) with SFltb. destruct (SFltb a b) eqn:El.
  - right. apply (fltb_val _ _ Fa Fb) in El. split; [reflexivity|lra].
  - left. split; [reflexivity|].
    assert (Hn : ~ fval a < fval b) by (intros Hlt; apply (fltb_val _ _ Fa Fb) in Hlt; congruence). lra.
Qed.

(** a bound covers some lines and is attained by one of them; [le] is the side *)
Definition side_ok (le : R -> R -> Prop) (f : notes B64 -> option (num B64)) (pl : list (line B64)) (b : option (num B64)) : Prop :=
  match b with
  | None => forall l, In l pl -> ~ extrudes l
  | Some w => fin w /\
      (forall l x, In l pl -> extrudes l -> f (lnotes l) = Some x -> le (fval w) (fval x)) /\
      (exists l, In l pl /\ extrudes l /\ f (lnotes l) = Some w)
  end.

Lemma side_add : forall (le : R -> R -> Prop) f pl b l x y, (forall r, le r r) -> (forall p q r, le p q -> le q r -> le p r) ->
  side_ok le f pl b -> extrudes l -> f (lnotes l) = Some x -> fin x ->
  (match b with None => y = x | Some w => (y = w /\ le (fval w) (fval x)) \/ (y = x /\ le (fval x) (fval w)) end) ->
  side_ok le f (pl ++ [l]) (Some y).
Proof.
  intros le f pl b l x y Hr Ht Hb Hl Hf Fx Hy. destruct b as [w|]; cbn in *.
  - destruct Hb as (Fw & H1 & l0 & H2 & H3 & H4). destruct Hy as [[-> Hle]|[-> Hle]].
    + split; [exact Fw|]. split.
      * intros l1 x1 Hin He Hx. apply in_app_or in Hin as [Hin|[<-|[]]]; [eapply H1; eassumption|].
        rewrite Hf in Hx. injection Hx as <-. exact Hle.
      * exists l0. split; [apply in_or_app; now left|auto].
    + split; [exact Fx|]. split.
      * intros l1 x1 Hin He Hx. apply in_app_or in Hin as [Hin|[<-|[]]].
        -- apply Ht with (1 := Hle). apply (H1 _ _ Hin He Hx).
        -- rewrite Hf in Hx. injection Hx as <-. apply Hr.
      * exists l. split; [apply in_or_app; right; now left|auto].
  - subst y. split; [exact Fx|]. split.
    + intros l1 x1 Hin He Hx. apply in_app_or in Hin as [Hin|[<-|[]]]; [exfalso; eapply Hb; eassumption|].
      rewrite Hf in Hx. injection Hx as <-. apply Hr.
    + exists l. split; [apply in_or_app; right; now left|auto].
Qed.

Lemma side_skip : forall (le : R -> R -> Prop) f pl b l, side_ok le f pl b -> ~ extrudes l -> side_ok le f (pl ++ [l]) b.
Proof.
  intros le f pl b l Hb Hl. destruct b as [w|]; cbn in *.
  - destruct Hb as (Fw & H1 & l0 & H2 & H3 & H4). split; [exact Fw|]. split.
    + intros l1 x1 Hin He Hx. apply in_app_or in Hin as [Hin|[<-|[]]]; [eapply H1; eassumption|contradiction].
    + exists l0. split; [apply in_or_app; now left|auto].
  - intros l1 Hin. apply in_app_or in Hin as [Hin|[<-|[]]]; [apply Hb, Hin|exact Hl].
Qed.

Lemma lower_add_B64 : forall f pl b l x, side_ok Rle f pl b -> extrudes l -> f (lnotes l) = Some x -> fin x ->
  side_ok Rle f (pl ++ [l]) (min_inf b x).
Proof.
  intros f pl b l x Hb Hl Hf Fx. unfold min_inf. destruct b as [w|].
  - apply (side_add Rle f pl (Some w) l x _ Rle_refl Rle_trans Hb Hl Hf Fx). destruct Hb as [Fw _].
    apply (fmin_cases w x Fw Fx).
  - apply (side_add Rle f pl None l x _ Rle_refl Rle_trans Hb Hl Hf Fx). reflexivity.
Qed.
Lemma upper_add_B64 : forall f pl b l x, side_ok Rge f pl b -> extrudes l -> f (lnotes l) = Some x -> fin x ->
  side_ok Rge f (pl ++ [l]) (max_inf b x).
Proof.
  intros f pl b l x Hb Hl Hf Fx. unfold max_inf. destruct b as [w|].
  - apply (side_add Rge f pl (Some w) l x _ Rge_refl Rge_trans Hb Hl Hf Fx). destruct Hb as [Fw _].
    destruct (fmax_cases w x Fw Fx) as [[-> H]|[-> H]]; [left|right]; (split; [reflexivity|apply Rle_ge, H]).
  - apply (side_add Rge f pl None l x _ Rge_refl Rge_trans Hb Hl Hf Fx). reflexivity.
Qed.

Definition box_fine (pl : list (line B64)) (b : bbox B64) : Prop :=
  side_ok Rle t_x pl (b_xmin b) /\ side_ok Rge t_x pl (b_xmax b) /\
  side_ok Rle t_y pl (b_ymin b) /\ side_ok Rge t_y pl (b_ymax b).

Lemma box_fold_B64 : forall pl pre b, box_fine pre b ->
  Forall (fun l : line B64 => extrudes l -> exists x y, t_x (lnotes l) = Some x /\ t_y (lnotes l) = Some y /\ fin x /\ fin y) pl ->
  box_fine (pre ++ pl) (fold_left box_add pl b).
Proof.
  induction pl as [|l pl IH]; intros pre b Hb Hc; cbn [fold_left]; [now rewrite app_nil_r|].
  inversion Hc as [|? ? Hc1 Hc2]; subst.
  replace (pre ++ l :: pl) with ((pre ++ [l]) ++ pl) by (rewrite <- app_assoc; reflexivity).
  apply IH; [|exact Hc2]. unfold box_add. destruct Hb as (B1 & B2 & B3 & B4).
  destruct (extrudes_b l) eqn:Ee.
  - apply extrudes_iff in Ee. destruct (Hc1 Ee) as (x & y & Hx & Hy & Fx & Fy). rewrite Hx, Hy.
    refine (conj _ (conj _ (conj _ _))); [apply lower_add_B64|apply upper_add_B64|apply lower_add_B64|apply upper_add_B64]; assumption.
  - assert (Hn : ~ extrudes l) by (intros Hx; apply extrudes_iff in Hx; congruence).
    refine (conj _ (conj _ (conj _ _))); apply side_skip; assumption.
Qed.

Lemma extrudes_command : forall ts pl m m' (l : line B64), trace m ts pl m' -> In l pl -> extrudes l -> command l <> None.
Proof.
  intros ts pl m m' l H. induction H as [m|m s l1 m1 ts pl m' Hs Ht IH]; intros Hin He; [destruct Hin|].
  destruct Hin as [<-|Hin]; [|apply (IH Hin He)]. apply (move_has_command _ _ _ _ Hs). apply He.
Qed.

Lemma finalize_box : forall (A : arith) light m (ls : lstate A) out, n_ltb n0 (m_max m) = true ->
  let g := finalize light m ls out in
  g_xmin g = opt_default n0 (b_xmin (ls_bbe ls)) /\ g_xmax g = opt_default n0 (b_xmax (ls_bbe ls)) /\
  g_ymin g = opt_default n0 (b_ymin (ls_bbe ls)) /\ g_ymax g = opt_default n0 (b_ymax (ls_bbe ls)).
Proof. intros A light m ls out H. unfold finalize. destruct (ls_cur ls); cbn; rewrite H; repeat split. Qed.

Lemma load_box_B64 : forall home data (g : gcode B64), load_gen false home data = Ok g ->
  n_ltb n0 (g_filament g) = true -> (exists l, In l (g_lines g) /\ extrudes l) ->
  Forall plain_line (program_text data) -> fhome_fin home ->
  in_volume (program_text data) (start (fhome_of home)) ->
  INR (drifts (program_text data) (start (fhome_of home))) <= 10 ^ 8 ->
  let d := (INR (drifts (program_text data) (start (fhome_of home))) + 1) * / 10 ^ 9 in
  let p i := head (run (firstn (S i) (program_text data)) (start (fhome_of home))) in
  let prints i := exists l, nth_error (g_lines g) i = Some l /\ extrudes l in
  (fin (g_xmin g) /\ fin (g_xmax g) /\ fin (g_ymin g) /\ fin (g_ymax g)) /\
  (forall i, prints i -> fval (g_xmin g) - d <= p i X <= fval (g_xmax g) + d /\
                         fval (g_ymin g) - d <= p i Y <= fval (g_ymax g) + d) /\
  (exists i, prints i /\ Rabs (fval (g_xmin g) - p i X) <= d) /\
  (exists i, prints i /\ Rabs (fval (g_xmax g) - p i X) <= d) /\
  (exists i, prints i /\ Rabs (fval (g_ymin g) - p i Y) <= d) /\
  (exists i, prints i /\ Rabs (fval (g_ymax g) - p i Y) <= d).
Proof.
  intros home data g H Hf (l0 & Hin0 & He0) Hpl Hhf Hv Hn d p prints.
  destruct (load_ftracks _ _ _ _ H Hpl Hhf Hv Hn) as (_ & Hnear). specialize (Hnear eq_refl). fold d in Hnear.
  destruct (load_btrace _ _ _ _ H) as (pl & ls & Hb & Hg).
  assert (Hl : g_lines g = pl) by (rewrite Hg, finalize_lines; apply map_store_false).
  assert (Hfil : g_filament g = m_max (g_m g)).
  { rewrite Hg at 1. unfold finalize. destruct (ls_cur ls); reflexivity. }
  pose proof (btrace_trace _ _ _ _ _ _ _ Hb) as Ht.
  rewrite Hl in *.
  assert (Hnl : forall i l, nth_error pl i = Some l -> extrudes l -> notes_near d l (run (firstn (S i) (program_text data)) (start (fhome_of home)))).
  { intros i l Hi He. apply (Hnear i l Hi). apply (extrudes_command _ _ _ _ _ Ht (nth_error_In _ _ Hi) He). }
  assert (Hc : Forall (fun l : line B64 => extrudes l -> exists x y, t_x (lnotes l) = Some x /\ t_y (lnotes l) = Some y /\ fin x /\ fin y) pl).
  { apply Forall_forall. intros l Hin He. apply In_nth_error in Hin as [i Hi].
    destruct (Hnl i l Hi He) as (x & y & z & N1 & N2 & _ & [F1 _] & [F2 _] & _). exists x, y. auto. }
  assert (Hbox : box_fine pl (ls_bbe ls)).
  { rewrite (btrace_bbe _ _ _ _ _ _ _ Hb). apply (box_fold_B64 pl [] empty_bbox); [|exact Hc].
    refine (conj _ (conj _ (conj _ _))); intros l []. }
  rewrite Hfil in Hf.
  assert (Hxs : g_xmin g = opt_default n0 (b_xmin (ls_bbe ls)) /\ g_xmax g = opt_default n0 (b_xmax (ls_bbe ls)) /\
    g_ymin g = opt_default n0 (b_ymin (ls_bbe ls)) /\ g_ymax g = opt_default n0 (b_ymax (ls_bbe ls))).
  { rewrite Hg. apply finalize_box. exact Hf. }
  destruct Hxs as (-> & -> & -> & ->). destruct Hbox as (B1 & B2 & B3 & B4).
  destruct (b_xmin (ls_bbe ls)) as [x1|]; [|exfalso; eapply B1; eassumption].
  destruct (b_xmax (ls_bbe ls)) as [x2|]; [|exfalso; eapply B2; eassumption].
  destruct (b_ymin (ls_bbe ls)) as [y1|]; [|exfalso; eapply B3; eassumption].
  destruct (b_ymax (ls_bbe ls)) as [y2|]; [|exfalso; eapply B4; eassumption].
  cbn [opt_default]. destruct B1 as (F1 & B1 & B1'), B2 as (F2 & B2 & B2'), B3 as (F3 & B3 & B3'), B4 as (F4 & B4 & B4').
  split; [auto|]. split; [|split; [|split; [|split]]].
  - intros i (l & Hi & He). rewrite Hl in Hi. pose proof (nth_error_In _ _ Hi) as Hin.
    destruct (Hnl i l Hi He) as (x & y & z & N1 & N2 & _ & [_ V1] & [_ V2] & _). apply Rabs_le_both in V1, V2.
    specialize (B1 l x Hin He N1). specialize (B2 l x Hin He N1). specialize (B3 l y Hin He N2). specialize (B4 l y Hin He N2).
    unfold p. lra.
  - destruct B1' as (l & Hin & He & Hx). apply In_nth_error in Hin as [i Hi]. exists i. split; [exists l; rewrite Hl; auto|].
    destruct (Hnl i l Hi He) as (x & y & z & N1 & N2 & _ & [_ V1] & [_ V2] & _).
    assert (x = x1) by congruence. subst x. exact V1.
  - destruct B2' as (l & Hin & He & Hx). apply In_nth_error in Hin as [i Hi]. exists i. split; [exists l; rewrite Hl; auto|].
    destruct (Hnl i l Hi He) as (x & y & z & N1 & N2 & _ & [_ V1] & [_ V2] & _).
    assert (x = x2) by congruence. subst x. exact V1.
  - destruct B3' as (l & Hin & He & Hx). apply In_nth_error in Hin as [i Hi]. exists i. split; [exists l; rewrite Hl; auto|].
    destruct (Hnl i l Hi He) as (x & y & z & N1 & N2 & _ & [_ V1] & [_ V2] & _).
    assert (y = y1) by congruence. subst y. exact V2.
  - destruct B4' as (l & Hin & He & Hx). apply In_nth_error in Hin as [i Hi]. exists i. split; [exists l; rewrite Hl; auto|].
    destruct (Hnl i l Hi He) as (x & y & z & N1 & N2 & _ & [_ V1] & [_ V2] & _).
    assert (y = y2) by congruence. subst y. exact V2.
Qed.

(** ** C22: what is written is near *)

Lemma unsplit_close_B64 : forall s c (a : args B64) (m : mstate B64), command_name s = Some c ->
  first_is "G" c = true -> c <> "G20"%string -> m_imperial m = false ->
  (forall k x, get_arg k a = Some x -> fin x /\ Rabs (fval x) <= 10 ^ 6) ->
  exists m' l', motion_step m (new_line (unsplit_text c a)) = Ok (m', l') /\
    command l' = Some c /\
    forall k, match get_arg k a, get_arg k (largs l') with
              | Some x, Some y => near (/ 2 / 10 ^ (decimals k) + / 10 ^ 9) y (fval x)
              | None, None => True
              | _, _ => False
              end.
Proof.
  intros s c a m H1 H2 H3 H4 H5.
  assert (Hf : finite_args a) by (apply all_fin_finite; intros k x Hk; apply (H5 k x Hk)).
  destruct (unsplit_reads s c a m H1 H2 H3 H4 Hf) as (m' & l' & G1 & G2 & _ & G4).
  exists m', l'. split; [exact G1|]. split; [exact G2|]. intros k. rewrite G4, get_rounded.
  destruct (get_arg k a) as [x|] eqn:Ek; [|exact I]. cbn [option_map]. destruct (H5 k x Ek) as [F B].
  replace (10 ^ 6) with 1000000 in B by (cbn [pow]; lra). replace (10 ^ 9) with 1000000000 by (cbn [pow]; lra).
  assert (Hd : (1 <= decimals k)%nat) by (destruct k; cbn; lia).
  assert (H10 : 10 ^ 1 <= 10 ^ decimals k) by (apply Rle_pow; [lra|exact Hd]).
  pose proof (shown_near (decimals k) x F) as Hs. unfold shown in Hs.
  destruct (f_dec_val (decimals k) x F) as (neg & n & Hm & _ & _ & _).
  unfold py_round. change (n_dec (decimals k) x) with (f_dec (decimals k) x) in *. rewrite Hm in *.
  change (@n_of_dec B64) with f_of_dec.
  assert (Hi : / 2 / 10 ^ decimals k <= / 2).
  { unfold Rdiv. rewrite <- (Rmult_1_r (/ 2)) at 2. apply Rmult_le_compat_l; [lra|].
    rewrite <- Rinv_1. apply Rinv_le_contravar; lra. }
  apply Rabs_le_both in B. apply Rabs_le_both in Hs.
  assert (Hv : Rabs (dval neg n (decimals k)) <= 2100000) by (apply Rabs_le; lra).
  destruct (f_of_dec_val neg n (decimals k)) as [F1 V1]; [apply million_big; lra|].
  split; [exact F1|]. rewrite V1. pose proof (rnd_between _ Hv) as K. apply Rabs_le_both in K. apply Rabs_le. lra.
Qed.

(** * P_OrdersNear: equal programs with absolute moves end near each other (C131) *)
From Coq Require Import List Ascii String ZArith NArith Bool Lia Reals Lra.
From Verif Require Import PyBase Arith Gcoder SpecText SpecLoad SpecMachine SpecMeasure SpecEqual SpecFilter SpecOrders.
From Verif Require Import P_Load P_Text P_Wf P_Machine P_Measure P_Equal P_Orders.
Import ListNotations.
Local Open Scope list_scope.

Section Any.
Context {A : arith} (E : exact A).

Lemma eqb_both : forall g h : gcode A, gcode_eqb g h = true -> gcode_eqb h g = true ->
  Forall2 (alike E) (commands_of g) (commands_of h).
Proof.
  intros g h H1 H2. apply (gcode_eqb_same_length E); [|exact H1].
  apply (gcode_eqb_iff E) in H1 as (a & xa & A1 & A2 & A3). apply (gcode_eqb_iff E) in H2 as (b & xb & B1 & B2 & B3).
  apply forall2_length in A3, B3. pose proof (f_equal (@List.length _) A1) as L1. pose proof (f_equal (@List.length _) B1) as L2.
  rewrite app_length in L1, L2. lia.
Qed.

Definition near (a b : num A) : Prop := (Rabs (val E a - val E b) <= / 1000)%R.

(** both machines move absolutely, with the same offsets, and are near each other *)
Definition close (m m' : mstate A) : Prop :=
  m_relative m = false /\ m_relative m' = false /\ m_ox m = m_ox m' /\ m_oy m = m_oy m' /\ m_oz m = m_oz m' /\
  near (m_x m) (m_x m') /\ near (m_y m) (m_y m') /\ near (m_z m) (m_z m').

Lemma axis_near : forall off x x' v v', near x x' ->
  match v, v' with None, None => True | Some a, Some b => near a b | _, _ => False end ->
  near (axis_move false off x v) (axis_move false off x' v').
Proof.
  intros off x x' [a|] [b|] Hx Hv; try contradiction; [|exact Hx].
  unfold near, axis_move in *. rewrite !(val_add A E). replace (val E a + val E off - (val E b + val E off))%R with (val E a - val E b)%R by lra.
  exact Hv.
Qed.

Lemma modes_plain : forall c mv (m m1 : mstate A), c <> "G91"%string -> update_modes c mv m = Ok m1 ->
  (m_relative m = false -> m_relative m1 = false) /\ m_x m1 = m_x m /\ m_y m1 = m_y m /\ m_z m1 = m_z m /\
  m_ox m1 = m_ox m /\ m_oy m1 = m_oy m /\ m_oz m1 = m_oz m.
Proof.
  intros c mv m m1 Hc H. unfold update_modes in H. destruct mv; [injection H as <-; auto 10|].
  destruct (String.eqb c "G20"); [injection H as <-; auto 10|].
  destruct (String.eqb c "G21"); [injection H as <-; auto 10|].
  destruct (String.eqb c "G90"); [injection H as <-; auto 10|].
  destruct (String.eqb c "G91") eqn:E91; [apply String.eqb_eq in E91; contradiction|].
  destruct (String.eqb c "M82"); [injection H as <-; auto 10|].
  destruct (String.eqb c "M83"); [injection H as <-; auto 10|].
  destruct c as [|d t]; [injection H as <-; auto 10|].
  destruct (Ascii.eqb d "T") eqn:Ed.
  - apply Ascii.eqb_eq in Ed. subst d. destruct (py_int t) as [z|]; [|discriminate H]. injection H as <-. auto 10.
  - assert (Hm : m1 = m) by (clear - H Ed; all_chars d; try congruence; discriminate Ed). subst m1. auto 10.
Qed.

Lemma replay_close : forall (m m' m1 m1' : mstate A) l l', close m m' -> alike E l l' -> is_move l = is_move l' ->
  command l <> Some "G91"%string -> command l <> Some "G92"%string -> command l <> Some "G28"%string ->
  replay m l m1 -> replay m' l' m1' -> close m1 m1'.
Proof.
  intros m m' m1 m1' l l' (C1 & C2 & C3 & C4 & C5 & C6 & C7 & C8) [Hc Ha] Hm N1 N2 N3
    (c & s1 & x & K1 & U1 & E1 & _) (c' & s1' & x' & K2 & U2 & E2 & _).
  assert (c' = c) by congruence. subst c'.
  assert (N1' : c <> "G91"%string) by congruence.
  destruct (modes_plain _ _ _ _ N1' U1) as (P1 & P2 & P3 & P4 & P5 & P6 & P7).
  destruct (modes_plain _ _ _ _ N1' U2) as (Q1 & Q2 & Q3 & Q4 & Q5 & Q6 & Q7).
  specialize (P1 C1). specialize (Q1 C2).
  destruct (update_extrusion_fixed _ _ _ _ E1) as (_ & F1 & _ & _ & _ & F2 & F3 & F4 & F5 & F6 & F7 & _).
  destruct (update_extrusion_fixed _ _ _ _ E2) as (_ & G1 & _ & _ & _ & G2 & G3 & G4 & G5 & G6 & G7 & _).
  unfold close. rewrite F1, F2, F3, F4, F5, F6, F7, G1, G2, G3, G4, G5, G6, G7.
  assert (H92 : cmd_is (command l) "G92" = false /\ cmd_is (command l') "G92" = false).
  { rewrite <- Hc. unfold cmd_is. rewrite K1. split; apply String.eqb_neq; congruence. }
  assert (H28 : cmd_is (command l) "G28" = false /\ cmd_is (command l') "G28" = false).
  { rewrite <- Hc. unfold cmd_is. rewrite K1. split; apply String.eqb_neq; congruence. }
  unfold update_position. rewrite (proj1 H92), (proj2 H92), (proj1 H28), (proj2 H28), <- Hm.
  destruct (is_move l).
  - assert (KX : near (axis_move false (m_ox s1) (m_x s1) (l_x l)) (axis_move false (m_ox s1') (m_x s1') (l_x l'))).
    { rewrite P5, Q5, C3, P2, Q2. apply axis_near; [exact C6|exact (Ha LX)]. }
    assert (KY : near (axis_move false (m_oy s1) (m_y s1) (l_y l)) (axis_move false (m_oy s1') (m_y s1') (l_y l'))).
    { rewrite P6, Q6, C4, P3, Q3. apply axis_near; [exact C7|exact (Ha LY)]. }
    assert (KZ : near (axis_move false (m_oz s1) (m_z s1) (l_z l)) (axis_move false (m_oz s1') (m_z s1') (l_z l'))).
    { rewrite P7, Q7, C5, P4, Q4. apply axis_near; [exact C8|exact (Ha LZ)]. }
    assert (O : m_ox s1 = m_ox s1' /\ m_oy s1 = m_oy s1' /\ m_oz s1 = m_oz s1') by (split; [congruence|split; congruence]).
    destruct O as (O1 & O2 & O3).
    destruct (l_f l), (l_f l'); cbn [set_feed set_pos m_relative m_ox m_oy m_oz m_x m_y m_z]; rewrite ?P1, ?Q1; auto 10.
  - rewrite P1, Q1, P2, P3, P4, P5, P6, P7, Q2, Q3, Q4, Q5, Q6, Q7. auto 10.
Qed.

Lemma ctrace_close : forall m e pl m1 e1, ctrace (A:=A) m e pl m1 e1 -> forall m' e' pl' m2 e2, ctrace m' e' pl' m2 e2 ->
  Forall2 (alike E) pl pl' ->
  Forall (fun l => command l <> Some "G91"%string /\ command l <> Some "G92"%string /\ command l <> Some "G28"%string) pl ->
  close m m' -> close m1 m2.
Proof.
  intros m e pl m1 e1 H. induction H as [m e|m e l ma ea pl m1 e1 Hk Hr Hb Ht IH]; intros m' e' pl' m2 e2 H' HF HN HC;
    inversion HF as [|? l' ? pl0 Hl HF']; subst; inversion H' as [|? ? ? mb eb ? ? ? Hk' Hr' Hb' Ht']; subst; [exact HC|].
  inversion HN as [|? ? (N1 & N2 & N3) HN']; subst.
  assert (Hm : is_move l = is_move l') by (rewrite Hk, Hk', (proj1 Hl); reflexivity).
  exact (IH _ _ _ _ _ Ht' HF' HN' (replay_close _ _ _ _ _ _ HC Hl Hm N1 N2 N3 Hr Hr')).
Qed.

Lemma equal_near : forall home data data' (g h : gcode A), load_gen false home data = Ok g -> load_gen false home data' = Ok h ->
  gcode_eqb g h = true -> gcode_eqb h g = true -> plain_moves g ->
  (Rabs (val E (m_x (g_m g)) - val E (m_x (g_m h))) <= / 1000)%R /\
  (Rabs (val E (m_y (g_m g)) - val E (m_y (g_m h))) <= / 1000)%R /\
  (Rabs (val E (m_z (g_m g)) - val E (m_z (g_m h))) <= / 1000)%R.
Proof.
  intros home data data' g h Hg Hh H1 H2 HN.
  destruct (load_ctrace _ _ _ Hg) as (ls & out & C1 & _). destruct (load_ctrace _ _ _ Hh) as (ls' & out' & C2 & _).
  assert (HC : close (init_mstate home) (init_mstate home)).
  { assert (K : near n0 n0) by (unfold near; rewrite Rminus_diag_eq, Rabs_R0 by reflexivity; lra).
    destruct home as [[hx hy] hz]. unfold close. cbn [init_mstate m_relative m_ox m_oy m_oz m_x m_y m_z]. auto 10. }
  apply (ctrace_close _ _ _ _ _ C1 _ _ _ _ _ C2 (eqb_both _ _ H1 H2) HN HC).
Qed.

End Any.

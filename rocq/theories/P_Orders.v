(** * P_Orders: programs that give the same orders do the same (C131) *)
From Coq Require Import List Ascii String ZArith NArith Bool Lia.
From Verif Require Import PyBase Arith Gcoder SpecText SpecLoad SpecMachine SpecMeasure SpecEqual SpecFilter SpecOrders.
From Verif Require Import P_Load P_Text P_Wf P_Machine P_Measure P_FilterMotion P_Idle.
Import ListNotations.
Local Open Scope list_scope.

Section Any.
Context {A : arith}.

(** ** What a line does follows from its command and numbers *)

Lemma parse_kind : forall imp ws (l l' : line A), parse_coordinates imp ws l = Ok l' ->
  command l' = command l /\ is_move l' = is_move l /\ lnotes l' = lnotes l.
Proof.
  intros imp ws l l' H. unfold parse_coordinates in H.
  destruct (command l) as [c|] eqn:Hc; [|injection H as <-; auto].
  rewrite <- Hc. clear Hc. destruct (first_is "G" c); [|injection H as <-; auto].
  revert l H. induction ws as [|[k v] ws IH]; intros l H; cbn [foldM] in H; [injection H as <-; auto|].
  destruct (parse_word imp l (k, v)) as [l1|e] eqn:E; cbn [bind] in H; [|discriminate H].
  destruct (IH _ H) as (H1 & H2 & H3). rewrite H1, H2, H3. clear - E. unfold parse_word in E.
  destruct (letter_of_code k); [|injection E as <-; auto]. destruct (is_empty v); [injection E as <-; auto|].
  destruct (py_float v); [|discriminate E]. injection E as <-. auto.
Qed.

Definition replay (m : mstate A) (l : line A) (m1 : mstate A) : Prop :=
  exists c s1 ext, command l = Some c /\ update_modes c (is_move l) m = Ok s1 /\
    update_extrusion l (update_position l s1) = (ext, m1) /\ lnotes l = position_notes l s1 m1 ext.

Lemma motion_replay : forall (m m1 : mstate A) t l, motion_step m t = Ok (m1, l) ->
  match command l with Some _ => replay m l m1 | None => m1 = m end.
Proof.
  intros m m1 t l H. unfold motion_step in H. destruct (split t) as [l0 toks].
  destruct (command l0) as [c|] eqn:Hc; [|injection H as <- <-; rewrite Hc; reflexivity].
  destruct (update_modes c (is_move l0) m) as [s1|e] eqn:E1; cbn [bind] in H; [|discriminate H].
  destruct (parse_coordinates (m_imperial s1) toks l0) as [l1|e] eqn:E2; cbn [bind] in H; [|discriminate H].
  destruct (parse_kind _ _ _ _ E2) as (K1 & K2 & K3).
  destruct (update_extrusion l1 (update_position l1 s1)) as [x s3] eqn:E3. injection H as <- <-.
  cbn [command set_notes]. rewrite K1, Hc. exists c, s1, x. cbn [command set_notes is_move]. rewrite K1, K2.
  split; [exact Hc|]. split; [exact E1|]. split; [exact E3|]. unfold position_notes. cbn [lnotes set_notes is_move]. rewrite ?K2. reflexivity.
Qed.

Lemma motion_kind : forall (m m1 : mstate A) s l, motion_step m (new_line s) = Ok (m1, l) ->
  is_move l = cmd_in (command l) move_gcodes.
Proof.
  intros m m1 s l H. destruct (command_name s) as [c|] eqn:Hc.
  - destruct (motion_some _ _ _ _ _ Hc H) as (s1 & l1 & ext & H1 & (_ & Hcm & Hmv & _) & H3 & ->).
    cbn [command is_move set_notes]. rewrite Hcm. exact Hmv.
  - destruct (command_name_none s Hc) as [Hw|[t Hw]].
    + assert (Hr : recognised s = false) by (unfold recognised; rewrite Hw; reflexivity).
      destruct (unrecognised_step m s Hr) as (l' & E1 & _ & E2 & E3). rewrite E1 in H. injection H as _ <-.
      rewrite E2, E3. cbn [cmd_in]. symmetry. unfold str_mem, move_gcodes. cbn [existsb].
      assert (K : forall x, words x <> [] -> String.eqb s x = false) by (intros x Hx; apply String.eqb_neq; congruence).
      rewrite !K by discriminate. reflexivity.
    + rewrite (no_command_step m s t Hw) in H. injection H as _ <-. reflexivity.
Qed.

Lemma replay_same : forall (m m1 m2 : mstate A) l l', command l = command l' -> is_move l = is_move l' -> largs l = largs l' ->
  replay m l m1 -> replay m l' m2 -> m1 = m2 /\ lnotes l = lnotes l'.
Proof.
  intros m m1 m2 l l' Hc Hm Ha (c & s1 & x & C1 & M1 & E1 & N1) (c' & s1' & x' & C2 & M2 & E2 & N2).
  assert (c' = c) by congruence. subst c'. rewrite Hm in M1. rewrite M1 in M2. injection M2 as <-.
  assert (Hp : update_position l s1 = update_position l' s1).
  { unfold update_position, l_x, l_y, l_z, l_f. rewrite Hm, Hc, Ha. reflexivity. }
  assert (He : forall k, update_extrusion l k = update_extrusion l' k).
  { intros k. unfold update_extrusion, l_e. rewrite Hm, Hc, Ha. reflexivity. }
  rewrite Hp, He, E2 in E1. injection E1 as -> ->. split; [reflexivity|]. rewrite N1, N2. unfold position_notes. rewrite Hm. reflexivity.
Qed.

(** ** Scans without their lines *)

Definition erase (s : lstate A) : lstate A :=
  LState (ls_bb s) (ls_bbe s) (ls_d s) (ls_begin s) (map (fun y => Layer [] (ly_z y) (ly_dur y)) (ls_layers s)) (ls_zs s)
         [] [] 0 0 (ls_last_z s) (ls_prev_z s) (ls_prev_base s) (ls_cur_z s) [] (ls_has_ext s) (ls_est s).

Lemma erase_base : forall s, compute_base_z (erase s) = compute_base_z s.
Proof.
  intros s. unfold compute_base_z, estimate_layer_height. cbn [erase ls_prev_z ls_last_z ls_est ls_layers].
  rewrite map_map. reflexivity.
Qed.

Lemma erase_update : forall s, erase (update_layers (erase s)) = erase (update_layers s).
Proof.
  intros s. unfold update_layers. rewrite erase_base. cbn [erase ls_cur_z ls_prev_z ls_prev_base].
  destruct (opt_eqb (ls_cur_z s) (ls_prev_z s)).
  - unfold erase. cbn. rewrite map_map. reflexivity.
  - destruct (compute_base_z s) as [base est].
    destruct (match ls_prev_base s with Some b => opt_eqb base b | None => false end); unfold erase; cbn; rewrite ?map_app, map_map; reflexivity.
Qed.

Lemma erase_body : forall (l : line A) mx s s1, layer_body l mx s = Ok s1 ->
  exists e1, layer_body l mx (erase s) = Ok e1 /\ erase e1 = erase s1.
Proof.
  intros l mx s s1 H. unfold layer_body in *.
  replace (update_bbox l mx (erase s)) with (update_bbox l mx s) by reflexivity.
  destruct (update_bbox l mx s) as [bb bbe]. change (ls_d (erase s)) with (ls_d s).
  destruct (update_duration l (ls_d s)) as [d|e]; cbn [bind] in *; [|discriminate H].
  injection H as <-. eexists. split; [reflexivity|].
  match goal with |- _ = erase (update_layers ?k) => rewrite <- (erase_update k) end. reflexivity.
Qed.

Lemma erase_push : forall (l l' : line A) s s', erase s = erase s' -> erase (push_line l s) = erase (push_line l' s').
Proof.
  intros l l' s s' H. unfold erase in *. injection H as H1 H2 H3 H4 H5 H6 H7 H8 H9 H10 H11 H12.
  cbn [push_line ls_bb ls_bbe ls_d ls_begin ls_layers ls_zs ls_last_z ls_prev_z ls_prev_base ls_cur_z ls_has_ext ls_est].
  congruence.
Qed.

Lemma erase_again : forall s, erase (erase s) = erase s.
Proof. intros s. unfold erase. cbn. rewrite map_map. reflexivity. Qed.

(** ** Runs over the command lines *)

Inductive ctrace : mstate A -> lstate A -> list (line A) -> mstate A -> lstate A -> Prop :=
| ct_nil m e : ctrace m e [] m e
| ct_cons m e l m1 e1 pl m' e' :
    is_move l = cmd_in (command l) move_gcodes -> replay m l m1 -> layer_body l (m_max m1) e = Ok e1 ->
    ctrace m1 (erase (push_line l e1)) pl m' e' -> ctrace m e (l :: pl) m' e'.

Definition has_command (l : line A) : bool := match command l with Some _ => true | None => false end.

Lemma btrace_ctrace : forall ts pl (m m' : mstate A) ls ls', btrace false m ls ts pl m' ls' ->
  ls_prev_z ls = ls_cur_z ls -> ctrace m (erase ls) (filter has_command pl) m' (erase ls').
Proof.
  intros ts pl m m' ls ls' H. induction H as [m ls|m ls s l m1 ls1 ts pl m' ls' Hs Hb Ht IH]; intros Hp; [constructor|].
  specialize (IH eq_refl). pose proof (motion_replay _ _ _ _ Hs) as Hr. pose proof (motion_kind _ _ _ _ Hs) as Hk.
  unfold layer_step in Hb. cbn [filter]. unfold has_command at 1. destruct (command l) as [c|] eqn:Hc.
  - destruct (erase_body _ _ _ _ Hb) as (e1 & E1 & E2). apply (ct_cons _ _ _ m1 e1).
    + rewrite Hc. exact Hk.
    + exact Hr.
    + exact E1.
    + rewrite (erase_push l (store false l) e1 ls1 E2). exact IH.
  - subst m1. injection Hb as <-. replace (erase ls) with (erase (push_line (store false l) ls)); [exact IH|].
    unfold erase. cbn [push_line ls_bb ls_bbe ls_d ls_begin ls_layers ls_zs ls_last_z ls_prev_z ls_prev_base ls_cur_z ls_has_ext ls_est].
    rewrite Hp. reflexivity.
Qed.

Definition same (l l' : line A) : Prop := command l = command l' /\ largs l = largs l'.

Lemma ctrace_machine : forall m e pl m1 e1, ctrace m e pl m1 e1 -> forall e' pl' m2 e2, ctrace m e' pl' m2 e2 ->
  Forall2 same pl pl' -> m1 = m2.
Proof.
  intros m e pl m1 e1 H. induction H as [m e|m e l ma ea pl m1 e1 Hk Hr Hb Ht IH]; intros e' pl' m2 e2 H' HF;
    inversion HF as [|? l' ? pl0 Hl HF']; subst; inversion H' as [|? ? ? mb eb ? ? ? Hk' Hr' Hb' Ht']; subst; [reflexivity|].
  destruct Hl as [Hc Ha]. assert (Hm : is_move l = is_move l') by (rewrite Hk, Hk', Hc; reflexivity).
  destruct (replay_same _ _ _ _ _ Hc Hm Ha Hr Hr') as [<- _]. exact (IH _ _ _ _ Ht' HF').
Qed.

Lemma ctrace_same : forall m e pl m1 e1, ctrace m e pl m1 e1 -> forall pl' m2 e2, ctrace m e pl' m2 e2 ->
  Forall2 same pl pl' -> Forall (fun l => command l <> Some "G4"%string) pl -> e1 = e2.
Proof.
  intros m e pl m1 e1 H. induction H as [m e|m e l ma ea pl m1 e1 Hk Hr Hb Ht IH]; intros pl' m2 e2 H' HF HN;
    inversion HF as [|? l' ? pl0 Hl HF']; subst; inversion H' as [|? ? ? mb eb ? ? ? Hk' Hr' Hb' Ht']; subst; [reflexivity|].
  inversion HN as [|? ? Hn HN']; subst.
  destruct Hl as [Hc Ha]. assert (Hm : is_move l = is_move l') by (rewrite Hk, Hk', Hc; reflexivity).
  destruct (replay_same _ _ _ _ _ Hc Hm Ha Hr Hr') as [<- Hnt].
  assert (Heq : layer_body l (m_max ma) e = layer_body l' (m_max ma) e).
  { unfold layer_body, update_bbox, update_duration, move_duration, update_cur_z, l_x, l_y, l_z, l_e, l_f.
    rewrite Hc in Hn.
    assert (H4 : cmd_is (command l') "G4" = false).
    { unfold cmd_is. destruct (command l') as [c|]; [|reflexivity]. apply String.eqb_neq. congruence. }
    rewrite Hm, Hc, Ha, Hnt, H4. reflexivity. }
  rewrite Heq, Hb' in Hb. injection Hb as ->.
  rewrite (erase_push l' l ea ea eq_refl) in Ht'. exact (IH _ _ _ Ht' HF' HN').
Qed.

Lemma load_ctrace : forall home data (g : gcode A), load_gen false home data = Ok g ->
  exists ls out, ctrace (init_mstate home) init_lstate (commands_of g) (g_m g) (erase ls) /\
    g = finalize false (g_m g) ls out /\ (ls_cur ls = [] -> ls_has_ext ls = false).
Proof.
  intros home data g H. destruct (load_btrace _ _ _ _ H) as (pl & ls & Hb & Hg).
  exists ls, (map (store false) pl). split; [|split; [exact Hg|]].
  - pose proof (btrace_ctrace _ _ _ _ _ _ Hb eq_refl) as Hc. change (erase init_lstate) with (init_lstate (A:=A)) in Hc.
    replace (commands_of g) with (filter has_command pl); [exact Hc|].
    assert (Hl : g_lines g = pl).
    { rewrite Hg, finalize_lines. cbn [store]. apply map_id. }
    unfold commands_of. pose proof (load_all_lines _ _ _ _ H) as Ha. unfold SpecFilter.all_lines, blocks in Ha. rewrite Ha, Hl. reflexivity.
  - intros Hc. assert (Hn : program_text data = []).
    { destruct (program_text data) as [|t ts]; [reflexivity|]. exfalso. revert Hc. clear - Hb.
      assert (K : forall ts pl (m m' : mstate A) a a', btrace false m a ts pl m' a' -> ts <> [] \/ ls_cur a <> [] -> ls_cur a' <> []).
      { intros us ql m m' a a' K. induction K as [m a|m a s l m1 a1 us ql m' a' K1 K2 K3 IH]; intros Hor.
        - destruct Hor as [Hor|Hor]; [contradiction|exact Hor].
        - apply IH. right. cbn [push_line ls_cur]. intros E. apply app_eq_nil in E as [_ E]. discriminate E. }
      apply (K _ _ _ _ _ _ Hb). left. discriminate. }
    rewrite Hn in Hb. inversion Hb; subst. reflexivity.
Qed.

Lemma orders_machine : forall home data data' (g h : gcode A), load_gen false home data = Ok g -> load_gen false home data' = Ok h ->
  same_orders g h -> g_m g = g_m h /\ g_filament g = g_filament h.
Proof.
  intros home data data' g h Hg Hh HS.
  destruct (load_ctrace _ _ _ Hg) as (ls & out & C1 & E1 & _). destruct (load_ctrace _ _ _ Hh) as (ls' & out' & C2 & E2 & _).
  pose proof (ctrace_machine _ _ _ _ _ C1 _ _ _ _ C2 HS) as Hm. split; [exact Hm|].
  rewrite E1, E2, Hm. unfold finalize. destruct (ls_cur ls), (ls_cur ls'); reflexivity.
Qed.

Lemma orders_size : forall home data data' (g h : gcode A), load_gen false home data = Ok g -> load_gen false home data' = Ok h ->
  same_orders g h -> never_waits g -> same_size g h.
Proof.
  intros home data data' g h Hg Hh HS HN.
  destruct (load_ctrace _ _ _ Hg) as (ls & out & C1 & E1 & X1). destruct (load_ctrace _ _ _ Hh) as (ls' & out' & C2 & E2 & X2).
  pose proof (ctrace_machine _ _ _ _ _ C1 _ _ _ _ C2 HS) as Hm.
  pose proof (ctrace_same _ _ _ _ _ C1 _ _ _ C2 HS HN) as He.
  unfold erase in He. injection He as H1 H2 H3 H4 H5 H6 H7 H8 H9 H10 H11 H12.
  assert (Hz : forall (k : lstate A), (ls_cur k = [] -> ls_has_ext k = false) ->
    snd (match ls_cur k with
         | [] => (ls_layers k, ls_zs k)
         | _ => (ls_layers k ++ [Layer (ls_cur k) (ls_prev_z k) (n_sub (d_total (ls_d k)) (ls_begin k))], add_z (ls_has_ext k) (ls_prev_z k) (ls_zs k))
         end) = add_z (ls_has_ext k) (ls_prev_z k) (ls_zs k)).
  { intros k Hk. destruct (ls_cur k); [|reflexivity]. rewrite (Hk eq_refl). reflexivity. }
  pose proof (Hz _ X1) as Z1. pose proof (Hz _ X2) as Z2.
  rewrite E1, E2. unfold same_size, finalize.
  destruct (match ls_cur ls with [] => _ | _ => _ end) as [ys zs]. destruct (match ls_cur ls' with [] => _ | _ => _ end) as [ys' zs'].
  cbn [snd] in Z1, Z2. subst zs zs'. cbn [g_xmin g_xmax g_ymin g_ymax g_zmin g_zmax g_zs g_total].
  rewrite Hm, H1, H2, H3, H6, H8, H11. auto 10.
Qed.

End Any.

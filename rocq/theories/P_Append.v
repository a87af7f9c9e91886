(** * P_Append: lemmas for append and incremental loading *)
From Coq Require Import List Ascii String ZArith NArith Bool Lia.
From Verif Require Import PyBase Arith Gcoder SpecLoad P_Load P_Edit.
Import ListNotations.
Local Open Scope list_scope.

Section Append.
Context {A : arith}.

(** The append layer is the last one. *)
Definition append_last (g : gcode A) : Prop :=
  exists Y y, g_layers g = Y ++ [y] /\ g_append_id g = List.length Y.

Lemma set_nth_last : forall T (Y : list T) y k x, k < S (List.length Y) ->
  exists Y' y', set_nth k x (Y ++ [y]) = Y' ++ [y'] /\ List.length Y' = List.length Y.
Proof.
  intros T. induction Y as [|z Y IH]; intros y k x Hk.
  - destruct k as [|k]; [|cbn in Hk; lia]. exists [], x. split; reflexivity.
  - destruct k as [|k].
    + exists (x :: Y), y. split; reflexivity.
    + cbn. destruct (IH y k x) as (Y' & y' & E & L); [cbn in Hk; lia|].
      exists (z :: Y'), y'. rewrite E. split; [reflexivity|cbn; now rewrite L].
Qed.

Lemma set_layers_append_last : forall (g : gcode A) k y ls l li ki,
  append_last g -> nth_error (g_layers g) k = Some y ->
  append_last (set_lines_layers l (set_nth k (set_ly_lines ls y) (g_layers g)) li ki g).
Proof.
  intros g k y ls l li ki (Y & y0 & H1 & H2) Hk. unfold append_last. cbn.
  assert (Hlt : k < S (List.length Y)).
  { assert (Hs : k < List.length (g_layers g)) by (apply nth_error_Some; congruence).
    rewrite H1, app_length in Hs. cbn in Hs. lia. }
  rewrite H1. destruct (set_nth_last _ Y y0 k (set_ly_lines ls y) Hlt) as (Y' & y' & E & L).
  exists Y', y'. split; [exact E|congruence].
Qed.

Lemma load_append_last : forall light home data (g : gcode A),
  load_gen light home data = Ok g -> append_last g.
Proof.
  intros light home data g H. unfold load_gen in H. destruct data as [|s data].
  - injection H as <-. exists [], (Layer [] None n0). split; reflexivity.
  - destruct (foldM _ _ _) as [[[m ls] out]|e]; cbn in H; [|discriminate H].
    injection H as <-. unfold finalize.
    destruct (ls_cur ls); eexists _, _; split; reflexivity.
Qed.

Lemma prepend_append_last : forall cmds k (g g' : gcode A) r,
  append_last g -> prepend_to_layer cmds k g = Ok (g', r) -> append_last g'.
Proof.
  intros cmds k g g' r Hg H. unfold prepend_to_layer in H.
  destruct (nth_error (g_layers g) k) as [y|] eqn:Hk; [|discriminate H].
  destruct (find_index _ _); [|discriminate H].
  destruct (nth_error (g_kidx g) _); [|discriminate H].
  destruct (prepend_loop _ _ _ _ _ _ _ _ _ _) as [[[lay l] li] ki].
  injection H as <- _. apply set_layers_append_last; assumption.
Qed.

Lemma rewrite_append_last : forall cmds k (g g' : gcode A) r,
  append_last g -> rewrite_layer cmds k g = Ok (g', r) -> append_last g'.
Proof.
  intros cmds k g g' r Hg H. unfold rewrite_layer in H.
  destruct (nth_error (g_layers g) k) as [y|] eqn:Hk; [|discriminate H].
  destruct (find_index _ _); [|discriminate H].
  injection H as <- _. apply set_layers_append_last; assumption.
Qed.

(** What a successful append does. *)
Lemma append_eq : forall cmd (g : gcode A),
  append_last g -> blank cmd = false ->
  append cmd g =
  bind (motion_step (g_m g) (new_line (strip cmd)))
    (fun p => let l := if g_light g then new_line (strip cmd) else snd p in
       Ok (GCode (g_light g) (g_lines g ++ [l])
             (firstn (g_append_id g) (g_layers g) ++
              [set_ly_lines (ly_lines (List.last (g_layers g) (Layer [] None n0)) ++ [l])
                            (List.last (g_layers g) (Layer [] None n0))])
             (g_zs g) (g_lidx g ++ [g_append_id g])
             (g_kidx g ++ [S (List.length (ly_lines (List.last (g_layers g) (Layer [] None n0))))])
             (g_append_id g) (fst p)
             (g_xmin g) (g_xmax g) (g_ymin g) (g_ymax g) (g_zmin g) (g_zmax g)
             (g_filament g) (g_total g) (g_est g))).
Proof.
  intros cmd g (Y & y & HY & Hid) Hb. unfold append.
  rewrite is_empty_strip, Hb.
  destruct (motion_step (g_m g) (new_line (strip cmd))) as [[m l]|e]; cbn [bind]; [|reflexivity].
  cbn [fst snd].
  rewrite HY, Hid, nth_error_app2, Nat.sub_diag by lia. cbn [nth_error].
  rewrite firstn_app_len by reflexivity. rewrite last_last.
  rewrite (set_nth_app _ _ y Y []) by reflexivity.
  rewrite app_length. cbn [List.length]. rewrite Nat.add_1_r.
  unfold set_mstate, set_lines_layers. cbn. rewrite Hid. reflexivity.
Qed.

Lemma append_append_last : forall cmd (g g' : gcode A),
  append_last g -> append cmd g = Ok g' -> append_last g'.
Proof.
  intros cmd g g' Hg H. destruct (blank cmd) eqn:Hb.
  - unfold append in H. rewrite is_empty_strip, Hb in H. congruence.
  - rewrite (append_eq _ _ Hg Hb) in H.
    destruct (motion_step _ _) as [[m l]|e]; cbn in H; [|discriminate H].
    injection H as <-. destruct Hg as (Y & y & HY & Hid).
    eexists _, _. cbn. split; [reflexivity|].
    rewrite HY, Hid, firstn_app_len by reflexivity. reflexivity.
Qed.

Lemma used_append_last : forall g : gcode A, used g -> append_last g.
Proof.
  intros g H. induction H as [light home data g H|cmds k g g' r Hg IH H
                             |cmds k g g' r Hg IH H|cmd g g' Hg IH H].
  - eapply load_append_last, H.
  - eapply prepend_append_last; eassumption.
  - eapply rewrite_append_last; eassumption.
  - eapply append_append_last; eassumption.
Qed.

Lemma append_blank : forall cmd (g : gcode A), blank cmd = true -> append cmd g = Ok g.
Proof. intros cmd g Hb. unfold append. rewrite is_empty_strip, Hb. reflexivity. Qed.

Lemma append_write : forall cmd (g g' : gcode A),
  used g -> append cmd g = Ok g' -> blank cmd = false ->
  write g' = write g ++ [strip cmd] /\
  (exists l, g_lines g' = g_lines g ++ [l] /\ raw l = strip cmd).
Proof.
  intros cmd g g' Hg H Hb. apply used_append_last in Hg.
  rewrite (append_eq _ _ Hg Hb) in H.
  destruct (motion_step _ _) as [[m l]|e] eqn:E; cbn in H; [|discriminate H].
  injection H as <-. destruct Hg as (Y & y & HY & Hid).
  assert (Hr : raw (if g_light g then new_line (strip cmd) else l) = strip cmd).
  { destruct (g_light g); [reflexivity|]. rewrite (motion_step_raw _ _ _ _ E). reflexivity. }
  split; [|eexists; split; [reflexivity|exact Hr]].
  unfold write. cbn. rewrite HY, Hid, firstn_app_len by reflexivity. rewrite last_last.
  rewrite !map_app, !concat_app. cbn. rewrite !app_nil_r, !map_app. cbn. rewrite Hr.
  now rewrite app_assoc.
Qed.

(** The index actually recorded for an appended line. *)
Lemma append_idxs : forall cmd (g g' : gcode A),
  used g -> append cmd g = Ok g' -> blank cmd = false ->
  List.length (g_lidx g) = List.length (g_lines g) ->
  List.length (g_kidx g) = List.length (g_lines g) ->
  exists b l, nth_error (blocks g') (g_append_id g) = Some (b ++ [l]) /\
    nth_error (g_lines g') (List.length (g_lines g)) = Some l /\
    idxs g' (List.length (g_lines g)) = Ok (g_append_id g, S (List.length b)).
Proof.
  intros cmd g g' Hg H Hb H1 H2. apply used_append_last in Hg.
  rewrite (append_eq _ _ Hg Hb) in H.
  destruct (motion_step _ _) as [[m l]|e] eqn:E; cbn in H; [|discriminate H].
  injection H as <-. destruct Hg as (Y & y & HY & Hid).
  exists (ly_lines y), (if g_light g then new_line (strip cmd) else l).
  unfold blocks, idxs. cbn. rewrite HY, Hid, firstn_app_len by reflexivity. rewrite last_last.
  split; [|split].
  - rewrite map_app, nth_error_app2 by (rewrite map_length; lia).
    rewrite map_length, Nat.sub_diag. reflexivity.
  - rewrite nth_error_app2, Nat.sub_diag by lia. reflexivity.
  - rewrite !nth_error_app2 by lia. rewrite H1, H2, Nat.sub_diag. reflexivity.
Qed.

(** ** Incremental = batch *)

Definition stored (light : bool) (t l : line A) : line A := if light then new_line (raw t) else l.

Definition mstep (light : bool) (st : mstate A * list (line A)) (t : line A) :
  res (mstate A * list (line A)) :=
  bind (motion_step (fst st) t) (fun p => Ok (fst p, snd st ++ [stored light t (snd p)])).

Lemma build_mstep : forall light ts m ls out m' ls' out',
  foldM (build_step light) ts (m, ls, out) = Ok (m', ls', out') ->
  foldM (mstep light) ts (m, out) = Ok (m', out').
Proof.
  intros light. induction ts as [|t ts IH]; intros m ls out m' ls' out' H; cbn in *.
  - congruence.
  - unfold mstep at 1. cbn [fst snd].
    destruct (motion_step m t) as [[s l]|e]; cbn in *; [|discriminate H].
    destruct (match command l with Some _ => layer_body l (m_max s) ls | None => Ok ls end)
      as [ls1|e]; cbn in *; [|discriminate H].
    eapply IH. exact H.
Qed.

Lemma foldM_prefix : forall S X (f : S -> X -> res S) a b s s',
  foldM f (a ++ b) s = Ok s' -> exists s1, foldM f a s = Ok s1 /\ foldM f b s1 = Ok s'.
Proof.
  intros S X f a b s s' H. rewrite foldM_app in H.
  destruct (foldM f a s) as [s1|e]; [|discriminate H]. exists s1. split; [reflexivity|exact H].
Qed.

Lemma append_all_mstep : forall cmds (g : gcode A) m' out',
  append_last g ->
  foldM (mstep (g_light g)) (map new_line (program_text cmds)) (g_m g, g_lines g) = Ok (m', out') ->
  exists g', append_all cmds g = Ok g' /\ g_m g' = m' /\ g_lines g' = out' /\
    exists news, g_lines g' = g_lines g ++ news /\ write g' = write g ++ map raw news.
Proof.
  unfold append_all.
  induction cmds as [|c cmds IH]; intros g m' out' Hg H.
  - cbn in *. exists g. repeat split; try congruence. exists []. now rewrite !app_nil_r.
  - cbn [foldM]. unfold program_text in H. cbn [filter map] in H.
    destruct (blank c) eqn:Hb; cbn [negb] in H.
    + rewrite (append_blank _ _ Hb). cbn [bind]. apply IH; assumption.
    + cbn [map foldM] in H.
      destruct (append c g) as [g1|e] eqn:E.
      2:{ rewrite (append_eq _ _ Hg Hb) in E. unfold mstep in H at 1. cbn [fst snd] in H.
          destruct (motion_step _ _) as [[m l]|e']; cbn in E, H; discriminate. }
      cbn [bind].
      assert (Hg1 : append_last g1) by (eapply append_append_last; eassumption).
      pose proof E as E0. rewrite (append_eq _ _ Hg Hb) in E.
      unfold mstep in H at 1. cbn [fst snd] in H.
      destruct (motion_step _ _) as [[m l]|e'] eqn:Em; cbn [bind fst snd] in E, H; [|discriminate H].
      injection E as E.
      assert (Hs : stored (g_light g) (new_line (strip c)) l =
                   (if g_light g then new_line (strip c) else l)) by reflexivity.
      rewrite Hs in H.
      destruct (IH g1 m' out' Hg1) as (g' & H1 & H2 & H3 & news & H4 & H5).
      { rewrite <- E. cbn [g_light g_m g_lines]. exact H. }
      exists g'. repeat split; try assumption.
      exists ((if g_light g then new_line (strip c) else l) :: news).
      split.
      * rewrite H4, <- E. cbn. now rewrite <- app_assoc.
      * rewrite H5, <- E. unfold write. cbn.
        destruct Hg as (Y & y & HY & Hid).
        rewrite HY, Hid, firstn_app_len by reflexivity. rewrite last_last.
        rewrite !map_app, !concat_app. cbn. rewrite !app_nil_r, !map_app. cbn.
        rewrite <- !app_assoc. reflexivity.
Qed.

Lemma load_gen_fold : forall light home data (g : gcode A),
  load_gen light home data = Ok g ->
  foldM (mstep light) (map new_line (program_text data)) (init_mstate home, []) =
    Ok (g_m g, g_lines g) /\ g_light g = light.
Proof.
  intros light home data g H. unfold load_gen in H. destruct data as [|s data].
  - injection H as <-. split; reflexivity.
  - destruct (foldM _ _ _) as [[[m ls] out]|e] eqn:E; cbn [bind] in H; [|discriminate H].
    injection H as <-. apply build_mstep in E. rewrite clean_lines_text in E.
    unfold finalize. destruct (ls_cur ls); split; try reflexivity; exact E.
Qed.

Lemma load_prefix : forall light home a b (g : gcode A),
  load_gen light home (a ++ b) = Ok g -> exists g1, load_gen light home a = Ok g1.
Proof.
  intros light home a b g H. destruct a as [|s a]; [eexists; reflexivity|].
  unfold load_gen in *. cbn [app] in H. rewrite clean_lines_text in H.
  change (s :: a ++ b) with ((s :: a) ++ b) in H. rewrite program_text_app, map_app in H.
  rewrite clean_lines_text.
  destruct (foldM (build_step light) (map new_line (program_text (s :: a)) ++ _) _)
    as [[[m ls] out]|e] eqn:E; cbn [bind] in H; [|discriminate H].
  apply foldM_prefix in E as ([[m1 ls1] out1] & E1 & _). rewrite E1. eexists. reflexivity.
Qed.

Lemma incremental : forall light home a b (g : gcode A),
  load_gen light home (a ++ b) = Ok g ->
  exists g1 g2, load_gen light home a = Ok g1 /\ append_all b g1 = Ok g2 /\
    g_m g2 = g_m g /\ g_lines g2 = g_lines g /\ write g2 = write g.
Proof.
  intros light home a b g H. destruct (load_prefix _ _ _ _ _ H) as [g1 H1].
  pose proof (load_gen_fold _ _ _ _ H) as [Hf _].
  pose proof (load_gen_fold _ _ _ _ H1) as [Hf1 Hl1].
  rewrite program_text_app, map_app, foldM_app, Hf1 in Hf. cbn [bind] in Hf.
  rewrite <- Hl1 in Hf.
  destruct (append_all_mstep b g1 _ _ (load_append_last _ _ _ _ H1) Hf)
    as (g2 & H2 & H3 & H4 & news & H5 & H6).
  exists g1, g2. repeat split; try assumption.
  rewrite H6, (consistent_write g1 (load_consistent _ _ _ _ H1)).
  rewrite (consistent_write g (load_consistent _ _ _ _ H)), <- map_app. congruence.
Qed.

Lemma append_idxs_wrong : forall cmd (g g' : gcode A),
  used g -> append cmd g = Ok g' -> blank cmd = false ->
  List.length (g_lidx g) = List.length (g_lines g) ->
  List.length (g_kidx g) = List.length (g_lines g) -> ~ idxs_right g'.
Proof.
  intros cmd g g' Hu E Hb L1 L2 (H & _).
  destruct (append_idxs cmd g g' Hu E Hb L1 L2) as (b & l & H1 & H2 & H3).
  destruct (H _ l H2) as (n & k & b' & H4 & H5 & H6).
  rewrite H3 in H4. injection H4 as <- <-. rewrite H1 in H5. injection H5 as <-.
  assert (Hn : nth_error (b ++ [l]) (S (List.length b)) = None)
    by (apply nth_error_None; rewrite app_length; cbn; lia).
  congruence.
Qed.

End Append.

From Verif Require Import ArithB64 Samples.

Definition cubeF_appended : gcode B64 := get empty_program (append "G1 X0" cubeF).

Lemma append_idxs_refuted :
  exists (cmd : string) (g g' : gcode B64),
    used g /\ append cmd g = Ok g' /\ ~ idxs_right g'.
Proof.
  exists "G1 X0"%string, cubeF, cubeF_appended.
  assert (E : append "G1 X0" cubeF = Ok cubeF_appended)
    by (apply is_ok_get; vm_compute; reflexivity).
  pose proof (us_load false home0 cube cubeF cubeF_loaded) as Hu.
  split; [exact Hu|]. split; [exact E|].
  apply (append_idxs_wrong _ _ _ Hu E); vm_compute; reflexivity.
Qed.

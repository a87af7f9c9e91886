(** * P_IdleWrite: calibrated and paused programs, read again (C116) *)
From Coq Require Import List Ascii String ZArith NArith Bool Lia.
From Verif Require Import PyBase Arith ArithB64 Gcoder Filters Tempcal Visit SpecText SpecLoad SpecFree SpecMachine SpecFilter SpecArc SpecIdle SpecTempcal SpecVisit SpecBinary64.
From Verif Require Import P_Load P_Text P_Free P_Measure P_Tempcal P_Visit P_Compose P_Idle P_IdleNum.
Import ListNotations.
Local Open Scope list_scope.

Lemma more_app : forall T (P : T -> Prop) a b c d, more P a b -> more P c d -> more P (a ++ c) (b ++ d).
Proof. intros T P a b c d H K. induction H; cbn [app]; try constructor; auto. Qed.
Lemma more_all : forall T (P : T -> Prop) a, Forall P a -> more P [] a.
Proof. intros T P a H. induction H; constructor; auto. Qed.
Lemma more_refl : forall T (P : T -> Prop) a, more P a a.
Proof. induction a; constructor; auto. Qed.

Definition quiet (s : string) : Prop := Forall (fun t => idle t = true) (program_text [s]).

Lemma quiet_list : forall ss, Forall quiet ss -> Forall (fun t => idle t = true) (program_text ss).
Proof.
  intros ss H. induction H as [|s ss Hs _ IH]; [constructor|].
  change (s :: ss) with ([s] ++ ss). rewrite program_text_app. apply Forall_app. auto.
Qed.

Lemma idle_m : forall v t, v <> "82"%string -> v <> "83"%string -> forall s, words s = ("m"%string, v) :: t -> idle s = true.
Proof.
  intros v t H1 H2 s H. unfold idle. rewrite H. apply String.eqb_neq in H1, H2. rewrite H1, H2. apply orb_true_r.
Qed.

Section Write.
Context {A : arith}.

Lemma quiet_temperature : forall t : num A, quiet (temperature_gcode t).
Proof.
  intros t. unfold quiet, temperature_gcode. destruct (_ && _); [|constructor].
  destruct (fmt_solid 1 t) as [N S]. pose proof (rstrip_end_solid "M104 S" _ N S) as R.
  assert (T : tight ("M104 S" ++ fmt 1 t)).
  { split; [reflexivity|]. unfold strip. exact R. }
  rewrite (tight_text _ (Forall_cons _ T (Forall_nil _))). constructor; [|constructor].
  eapply (idle_m "104"); [discriminate|discriminate|]. unfold words. rewrite findall_m104. reflexivity.
Qed.

Lemma chain_quiet : forall (temp : num A -> res (num A)) zmin zmax adds (ys : list (layer A)) last,
  chain temp zmin zmax last adds ys -> Forall quiet (List.concat adds).
Proof.
  induction adds as [|a adds IH]; intros [|y ys] last H; cbn [chain] in H; try contradiction; [constructor|].
  cbn [List.concat]. apply Forall_app. destruct (layer_start y) as [z|].
  - destruct H as (t & _ & -> & H). split; [|eapply IH, H].
    destruct t as [t|]; cbn [inject]; [destruct (opt_eqb _ _)|]; cbn [fst]; repeat constructor. apply quiet_temperature.
  - destruct H as [-> H]. split; [constructor|eapply IH, H].
Qed.

Lemma text_added : forall ss, map text_of (map Added ss) = ss.
Proof. induction ss as [|s ss IH]; [reflexivity|]. cbn [map text_of]. now rewrite IH. Qed.
Lemma text_copied : forall ls : list (line A), map text_of (map (fun l => Copied (raw l)) ls) = map raw ls.
Proof. induction ls as [|s ss IH]; [reflexivity|]. cbn [map text_of]. now rewrite IH. Qed.

Lemma woven_more : forall adds (ys : list (layer A)), Forall quiet (List.concat adds) -> List.length adds = List.length ys ->
  Forall tight (map raw (List.concat (map ly_lines ys))) ->
  more (fun s => idle s = true) (map raw (List.concat (map ly_lines ys))) (program_text (map text_of (woven adds ys))).
Proof.
  induction adds as [|a adds IH]; intros [|y ys] H Hl Ht; try discriminate Hl; [constructor|].
  cbn [woven map List.concat] in *. rewrite !map_app, !program_text_app, text_added.
  apply Forall_app in H as [H1 H2]. rewrite map_app in Ht. apply Forall_app in Ht as [T1 T2].
  change (map raw (ly_lines y) ++ map raw (List.concat (map ly_lines ys)))
    with ([] ++ map raw (ly_lines y) ++ map raw (List.concat (map ly_lines ys))).
  apply more_app; [apply more_all, quiet_list, H1|]. apply more_app; [|apply IH; [exact H2|now injection Hl|exact T2]].
  rewrite text_copied, (tight_text _ T1). apply more_refl.
Qed.

Lemma calibrated_more : forall gr s e mz home data (g : gcode A) out, load_gen false home data = Ok g ->
  tempcal gr s e mz g = (out, None) ->
  more (fun t => idle t = true) (program_text data) (program_text (map text_of out)).
Proof.
  intros gr s e mz home data g out Hg H. rewrite <- (load_write _ _ _ _ Hg).
  destruct (tempcal_chain _ _ _ _ _ _ _ H) as (temp & zmin & adds & ys1 & ys2 & Hc & Ho & Hy & Hn & _).
  rewrite (Hn eq_refl), app_nil_r in Hy. subst ys1 out. unfold write.
  apply woven_more; [exact (chain_quiet _ _ _ _ _ _ Hc)|exact (chain_length _ _ _ _ _ _ Hc)|].
  exact (load_tight _ _ _ _ Hg).
Qed.

Lemma calibrated_some : forall gr s e mz home data (g : gcode A) out, load_gen false home data = Ok g ->
  tempcal gr s e mz g = (out, None) -> program_text data <> [].
Proof.
  intros gr s e mz home data g out Hg H Hd.
  assert (Hz : find_zmin mz g = Err RuntimeError).
  { rewrite load_scan, Hd in Hg. cbn in Hg. injection Hg as <-. reflexivity. }
  unfold tempcal in H. destruct gr as [|n].
  - rewrite Hz in H. discriminate H.
  - destruct (step_init s e n) as [[[a b] c]|x]; [|discriminate H]. rewrite Hz in H. discriminate H.
Qed.

Lemma fronts_more : forall (m : line A) ns ys, raw m = "M226"%string -> List.length ns = List.length ys ->
  more (fun s => idle s = true) (map raw (List.concat (map ly_lines ys))) (map raw (List.concat (map ly_lines (fronts m ns ys)))).
Proof.
  intros m ns. induction ns as [|n ns IH]; intros [|y ys] Hm Hl; try discriminate Hl; [constructor|].
  unfold fronts. cbn [combine map fst snd fronted ly_lines List.concat].
  fold (fronts m ns ys). rewrite <- app_assoc, !map_app.
  change (map raw (ly_lines y) ++ map raw (List.concat (map ly_lines ys)))
    with ([] ++ map raw (ly_lines y) ++ map raw (List.concat (map ly_lines ys))).
  apply more_app; [|apply more_app; [apply more_refl|apply IH; [exact Hm|now injection Hl]]].
  rewrite map_repeat, Hm. apply more_all. clear Hl; induction n as [|n IHn]; [constructor|constructor; [reflexivity|exact IHn]].
Qed.

Lemma fronts_tight : forall (m : line A) ns ys, raw m = "M226"%string -> List.length ns = List.length ys ->
  Forall tight (map raw (List.concat (map ly_lines ys))) ->
  Forall tight (map raw (List.concat (map ly_lines (fronts m ns ys)))).
Proof.
  intros m ns. induction ns as [|n ns IH]; intros [|y ys] Hm Hl Ht; try discriminate Hl; [constructor|].
  unfold fronts. cbn [combine map fst snd fronted ly_lines List.concat] in *.
  fold (fronts m ns ys). rewrite <- app_assoc, !map_app in *. apply Forall_app in Ht as [T1 T2].
  apply Forall_app. split; [|apply Forall_app; split; [exact T1|apply IH; [exact Hm|now injection Hl|exact T2]]].
  rewrite map_repeat, Hm. clear. induction n as [|n IHn]; [constructor|constructor; [split; reflexivity|exact IHn]].
Qed.

Lemma paused_more : forall digits L home data (g g' : gcode A), load_gen false home data = Ok g ->
  pause digits L g = Ok g' -> more (fun t => idle t = true) (program_text data) (program_text (write g')).
Proof.
  intros digits L home data g g' Hg H. destruct (in_none_dec (g_zs g)) as [HN|HN].
  - rewrite (pause_unknown digits L g HN) in H. discriminate H.
  - destruct (pause_general digits L g (pr_load _ _ _ _ Hg) HN) as (g1 & m & ns & H1 & (Hm & _) & H3 & H4 & _).
    rewrite H1 in H. apply ok_inj in H. subst g1.
    assert (M : more (fun s => idle s = true) (write g) (write g')).
    { unfold write. rewrite H4. apply fronts_more; assumption. }
    assert (T : Forall tight (write g')).
    { unfold write. rewrite H4. apply fronts_tight; [exact Hm|exact H3|exact (load_tight _ _ _ _ Hg)]. }
    rewrite (tight_text _ T), <- (load_write _ _ _ _ Hg). exact M.
Qed.

End Write.

Lemma reread_exact : forall A (E : exact A) light home data data' (g : gcode A), load_gen light home data = Ok g ->
  more (fun t => idle t = true) (program_text data) (program_text data') ->
  exists h, load_gen light home data' = Ok h /\ same_run g h /\ (program_text data <> [] -> same_levels g h).
Proof.
  intros A E light home data data' g Hg M. pose proof (load_idle_exact A E light home data data' M) as H.
  rewrite Hg in H. destruct (load_gen light home data') as [h|x]; [|contradiction]. exists h. split; [reflexivity|exact H].
Qed.

Lemma reread_B64 : forall light home data data' (g : gcode B64), Forall modest (program_text data) ->
  load_gen light home data = Ok g ->
  more (fun t => idle t = true) (program_text data) (program_text data') ->
  exists h, load_gen light home data' = Ok h /\ same_run g h /\ (program_text data <> [] -> same_levels g h).
Proof.
  intros light home data data' g HM Hg M. pose proof (load_idle_B64 light home data data' HM M) as H.
  rewrite Hg in H. destruct (load_gen light home data') as [h|x]; [|contradiction]. exists h. split; [reflexivity|exact H].
Qed.

Lemma calibrated_exact : forall A (E : exact A) gr s e mz home data (g : gcode A) out, load_gen false home data = Ok g ->
  tempcal gr s e mz g = (out, None) ->
  exists h, load_gen false home (map text_of out) = Ok h /\ same_run g h /\ same_levels g h.
Proof.
  intros A E gr s e mz home data g out Hg H.
  destruct (reread_exact A E _ _ _ _ _ Hg (calibrated_more _ _ _ _ _ _ _ _ Hg H)) as (h & H1 & H2 & H3).
  exists h. split; [exact H1|]. split; [exact H2|exact (H3 (calibrated_some _ _ _ _ _ _ _ _ Hg H))].
Qed.

Lemma calibrated_B64 : forall gr s e mz home data (g : gcode B64) out, Forall modest (program_text data) ->
  load_gen false home data = Ok g -> tempcal gr s e mz g = (out, None) ->
  exists h, load_gen false home (map text_of out) = Ok h /\ same_run g h /\ same_levels g h.
Proof.
  intros gr s e mz home data g out HM Hg H.
  destruct (reread_B64 _ _ _ _ _ HM Hg (calibrated_more _ _ _ _ _ _ _ _ Hg H)) as (h & H1 & H2 & H3).
  exists h. split; [exact H1|]. split; [exact H2|exact (H3 (calibrated_some _ _ _ _ _ _ _ _ Hg H))].
Qed.

Lemma paused_exact : forall A (E : exact A) digits L home data (g g' : gcode A), load_gen false home data = Ok g ->
  pause digits L g = Ok g' ->
  exists h, load_gen false home (write g') = Ok h /\ same_run g h /\ (program_text data <> [] -> same_levels g h).
Proof.
  intros A E digits L home data g g' Hg H. exact (reread_exact A E _ _ _ _ _ Hg (paused_more _ _ _ _ _ _ Hg H)).
Qed.

Lemma paused_B64 : forall digits L home data (g g' : gcode B64), Forall modest (program_text data) ->
  load_gen false home data = Ok g -> pause digits L g = Ok g' ->
  exists h, load_gen false home (write g') = Ok h /\ same_run g h /\ (program_text data <> [] -> same_levels g h).
Proof.
  intros digits L home data g g' HM Hg H. exact (reread_B64 _ _ _ _ _ HM Hg (paused_more _ _ _ _ _ _ Hg H)).
Qed.

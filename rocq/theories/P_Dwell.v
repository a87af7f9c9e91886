(** * P_Dwell: dwells take their time (C129) *)
From Coq Require Import List Ascii String ZArith NArith Bool Lia Reals Lra.
From Verif Require Import PyBase Arith Gcoder SpecText SpecLoad SpecMachine SpecTool SpecDwell.
From Verif Require Import P_Load P_Text P_Wf P_Format P_Machine P_FilesText P_Tool P_ArcTime.
Import ListNotations.
Local Open Scope list_scope.

Section Any.
Context {A : arith} (E : exact A).

(** the same clock, except for a difference in the total *)
Definition later (D : R) (d d' : dstate A) : Prop :=
  d_x d = d_x d' /\ d_y d = d_y d' /\ d_z d = d_z d' /\ d_e d = d_e d' /\ d_f d = d_f d' /\
  d_dx d = d_dx d' /\ d_dy d = d_dy d' /\ val E (d_total d) = (val E (d_total d') + D)%R.

Lemma move_later : forall (l : line A) D d d' d1, later D d d' -> move_duration l d = Ok d1 ->
  exists d1', move_duration l d' = Ok d1' /\ later D d1 d1'.
Proof.
  intros l D [x y z e f dx dy t] [x' y' z' e' f' dx' dy' t'] d1 (H1 & H2 & H3 & H4 & H5 & H6 & H7 & H8) H.
  cbn [d_x d_y d_z d_e d_f d_dx d_dy d_total] in *. subst x' y' z' e' f' dx' dy'.
  unfold move_duration in *. cbn [d_x d_y d_z d_e d_f d_dx d_dy d_total] in *.
  match type of H with bind ?c _ = _ => destruct c as [u|u] end; cbn [bind] in *; [|discriminate H].
  injection H as <-. eexists. split; [reflexivity|]. unfold later. cbn [d_x d_y d_z d_e d_f d_dx d_dy d_total].
  do 7 (split; [reflexivity|]). rewrite !(val_add A E). lra.
Qed.

Lemma other_later : forall (l : line A) D d d' d1, cmd_is (command l) "G4" = false -> later D d d' ->
  update_duration l d = Ok d1 -> exists d1', update_duration l d' = Ok d1' /\ later D d1 d1'.
Proof.
  intros l D d d' d1 Hc Hd H. unfold update_duration in *. rewrite Hc in *.
  destruct (cmd_in (command l) linear_move_gcodes); [exact (move_later _ _ _ _ _ Hd H)|].
  injection H as <-. exists d'. split; [reflexivity|exact Hd].
Qed.

Lemma find_dwell : forall digits rest, str_all is_digit digits = true -> digits <> ""%string -> ends_word rest ->
  find_code "P" ("G4 P" ++ digits ++ rest) = Some digits /\
  exists x : num A, py_float digits = Some x /\ val E x = IZR (decimal 0 digits).
Proof.
  intros digits rest Hd Hn Hr.
  assert (Hsh : num_shape digits "" digits "" "").
  { constructor; [|left; reflexivity|exact Hd|reflexivity|right; split; reflexivity].
    cbn [String.append]. rewrite str_app_nil. reflexivity. }
  split.
  - unfold find_code. cbn [String.append String.length find_code_fuel Ascii.eqb orb].
    assert (Hs : scan_number (digits ++ rest) = (digits, rest)).
    { apply (scan_shape_ext _ _ _ _ _ rest Hsh). intros c t Et. destruct Hr as [->|(r & ->)]; [discriminate Et|].
      injection Et as <- _. reflexivity. }
    cbn. rewrite Hs. reflexivity.
  - rewrite (py_float_shape _ _ _ _ _ Hsh).
    destruct digits as [|c t]; [congruence|]. cbn [is_empty andb negb].
    eexists. split; [reflexivity|]. rewrite (val_of_dec A E). cbn [String.length pow].
    rewrite str_app_nil. change (digits_val (String c t)) with (digits_val_acc 0 (String c t)).
    rewrite (digits_decimal _ 0 Hd). cbn. lra.
Qed.

Lemma dwell_later : forall digits rest (m m1 : mstate A) l D d d' d1,
  is_dwell ("G4 P" ++ digits ++ rest) = true -> str_all is_digit digits = true -> digits <> ""%string -> ends_word rest ->
  motion_step m (new_line ("G4 P" ++ digits ++ rest)) = Ok (m1, l) -> later D d d' -> update_duration l d = Ok d1 ->
  agree m m1 /\ later (D + IZR (decimal 0 digits) / 1000) d1 d'.
Proof.
  intros digits rest m m1 l D d d' d1 Hs Hd Hn Hr H HD Hu. set (s := ("G4 P" ++ digits ++ rest)%string) in *.
  unfold is_dwell in Hs. destruct (command_name s) as [c|] eqn:Hc; [|discriminate Hs].
  destruct (motion_some _ _ _ _ _ Hc H) as (s1 & l1 & ext & H1 & H2 & H3 & ->).
  destruct (update_extrusion_fixed _ _ _ _ H3) as (F1 & F2 & F3 & _).
  destruct (update_position_fixed l1 s1) as (G1 & G2 & G3 & _). destruct H2 as (Hraw & Hcm & _).
  apply String.eqb_eq in Hs. subst c. injection H1 as <-.
  split; [unfold agree; rewrite F1, F2, F3, G1, G2, G3; split; [|split]; reflexivity|].
  unfold update_duration in Hu. cbn [command set_notes] in Hu. rewrite Hcm in Hu.
  change (cmd_in (Some "G4"%string) linear_move_gcodes) with false in Hu.
  change (cmd_is (Some "G4"%string) "G4") with true in Hu. cbv iota in Hu.
  unfold find_specific_code in Hu. cbn [raw set_notes] in Hu. rewrite Hraw in Hu.
  destruct (find_dwell _ _ Hd Hn Hr) as (Hf & x & Hx & Hv). fold s in Hf. rewrite Hf, Hx in Hu. cbn [bind] in Hu.
  destruct HD as (D1 & D2 & D3 & D4 & D5 & D6 & D7 & D8).
  assert (Hk : val E (lit (A:=A) 1000 0) = 1000%R).
  { unfold lit. rewrite (val_of_dec A E). cbn. lra. }
  destruct (truthy x) eqn:Et; injection Hu as <-; unfold later; cbn [d_x d_y d_z d_e d_f d_dx d_dy d_total];
    (do 7 (split; [assumption|])).
  - rewrite (val_add A E), (val_div A E), Hk, Hv by (rewrite Hk; lra). lra.
  - unfold truthy in Et. apply negb_false_iff in Et. apply (val_eqb A E) in Et. rewrite (val_n0 E), Hv in Et. rewrite Et. lra.
Qed.

Lemma not_dwell : forall s (m m1 : mstate A) l, is_dwell s = false -> motion_step m (new_line s) = Ok (m1, l) ->
  cmd_is (command l) "G4" = false.
Proof.
  intros s m m1 l Hs H. unfold is_dwell in Hs. destruct (command_name s) as [c|] eqn:Hc.
  - destruct (motion_some _ _ _ _ _ Hc H) as (s1 & l1 & ext & H1 & (_ & Hcm & _) & H3 & ->).
    cbn [command set_notes]. rewrite Hcm. exact Hs.
  - destruct (command_name_none s Hc) as [Hw|[t Hw]].
    + assert (Hr : recognised s = false) by (unfold recognised; rewrite Hw; reflexivity).
      destruct (unrecognised_step m s Hr) as (l' & E1 & _ & _ & E2). rewrite E1 in H. injection H as _ <-.
      rewrite E2. cbn [cmd_is]. apply String.eqb_neq. intros ->. discriminate Hw.
    + rewrite (no_command_step m s t Hw) in H. injection H as _ <-. reflexivity.
Qed.

Lemma build_dwells : forall light ts ms, waits ts ms -> forall m ls out m1 ls1 out1,
  foldM (build_step light) (map new_line ts) (m, ls, out) = Ok (m1, ls1, out1) ->
  forall (m' : mstate A) ls' out' D, agree m m' -> later D (ls_d ls) (ls_d ls') ->
  exists m1' ls1' out1', foldM (build_step light) (map new_line (filter (fun s => negb (is_dwell s)) ts)) (m', ls', out') = Ok (m1', ls1', out1') /\
    later (D + IZR ms / 1000) (ls_d ls1) (ls_d ls1').
Proof.
  intros light ts ms W. induction W as [|s ss ms Hs W IH|digits rest ss ms Hs Hn Hdg Hr W IH];
    intros m ls out m1 ls1 out1 H m' ls' out' D Ha Hd.
  - cbn in *. injection H as <- <- <-. eexists _, _, _. split; [reflexivity|].
    replace (D + 0 / 1000)%R with D by lra. exact Hd.
  - cbn [map foldM filter] in *. rewrite Hs. cbn [negb map foldM]. unfold build_step at 1 in H.
    destruct (motion_step m (new_line s)) as [[s0 l]|e] eqn:Em; cbn [bind] in H; [|discriminate H].
    destruct (match command l with Some _ => layer_body l (m_max s0) ls | None => Ok ls end) as [ls2|e] eqn:El; cbn [bind] in H; [|discriminate H].
    destruct (motion_agree _ _ _ _ _ Ha Em) as (s' & l' & Em' & Ha' & Htl).
    pose proof (not_dwell _ _ _ _ Hs Em) as Hc4.
    unfold build_step at 1. rewrite Em'. cbn [bind].
    assert (Hc : command l' = command l) by (injection Htl; congruence). rewrite Hc.
    assert (Hb : exists ls2', match command l with Some _ => layer_body l' (m_max s') ls' | None => Ok ls' end = Ok ls2' /\ later D (ls_d ls2) (ls_d ls2')).
    { destruct (command l) as [c|] eqn:Hcl.
      - apply body_duration in El. rewrite <- Hcl in Hc4. destruct (other_later _ _ _ _ _ Hc4 Hd El) as (d1' & E1 & E2).
        rewrite (duration_timed _ _ _ Htl) in E1.
        destruct (body_runs l' (m_max s') ls' _ E1) as (ls2' & E3 & E4). exists ls2'. split; [exact E3|]. rewrite E4. exact E2.
      - injection El as <-. exists ls'. split; [reflexivity|exact Hd]. }
    destruct Hb as (ls2' & E2 & E3). rewrite E2. cbn [bind].
    apply (IH _ _ _ _ _ _ H); [exact Ha'|exact E3].
  - set (s := ("G4 P" ++ digits ++ rest)%string) in *.
    cbn [map foldM filter] in *. rewrite Hs. cbn [negb]. unfold build_step at 1 in H.
    destruct (motion_step m (new_line s)) as [[s0 l]|e] eqn:Em; cbn [bind] in H; [|discriminate H].
    destruct (match command l with Some _ => layer_body l (m_max s0) ls | None => Ok ls end) as [ls2|e] eqn:El; cbn [bind] in H; [|discriminate H].
    assert (Hcl : exists c, command l = Some c).
    { unfold is_dwell in Hs. destruct (command_name s) as [c|] eqn:Hc; [|discriminate Hs].
      destruct (motion_some _ _ _ _ _ Hc Em) as (s1 & l1 & ext & H1 & (_ & Hcm & _) & H3 & ->).
      exists c. cbn [command set_notes]. exact Hcm. }
    destruct Hcl as (c & Hcl). rewrite Hcl in El. apply body_duration in El.
    destruct (dwell_later _ _ _ _ _ _ _ _ _ Hs Hdg Hn Hr Em Hd El) as ((A1 & A2 & A3) & E2).
    destruct (IH _ _ _ _ _ _ H m' ls' out' (D + IZR (decimal 0 digits) / 1000)%R) as (m1' & ls1' & out1' & K1 & K2).
    + destruct Ha as (B1 & B2 & B3). split; [congruence|split; congruence].
    + exact E2.
    + exists m1', ls1', out1'. split; [exact K1|].
      rewrite plus_IZR. replace (D + (IZR (decimal 0 digits) + IZR ms) / 1000)%R with (D + IZR (decimal 0 digits) / 1000 + IZR ms / 1000)%R by lra.
      exact K2.
Qed.

Lemma kept_text : forall p data, program_text (filter p (program_text data)) = filter p (program_text data).
Proof.
  intros p data.
  assert (Hall : Forall (fun s => blank s = false /\ strip s = s) (program_text data)).
  { unfold program_text. apply Forall_forall. intros s Hs. apply in_map_iff in Hs as (u & <- & Hu).
    apply filter_In in Hu as [_ Hu]. apply negb_true_iff in Hu. split; [|apply strip_twice].
    rewrite <- is_empty_strip, strip_twice, is_empty_strip. exact Hu. }
  induction (program_text data) as [|s ss IH]; [reflexivity|].
  inversion Hall as [|? ? [Hs1 Hs2] Hss]; subst. cbn [filter]. destruct (p s); [|exact (IH Hss)].
  unfold program_text in *. cbn [filter]. rewrite Hs1. cbn [negb map]. rewrite Hs2, (IH Hss). reflexivity.
Qed.

Lemma dwells_count : forall light home data (g : gcode A) ms, load_gen light home data = Ok g ->
  waits (program_text data) ms ->
  exists g', load_gen light home (without_dwells data) = Ok g' /\
    val E (g_total g) = (val E (g_total g') + IZR ms / 1000)%R.
Proof.
  intros light home data g ms H W. destruct (load_total _ _ _ _ H) as (m & ls & out & Hf & Ht).
  destruct (build_dwells _ _ _ W _ _ _ _ _ _ Hf (init_mstate home) init_lstate [] 0%R) as (m' & ls' & out' & Hf' & Hd);
    [split; [|split]; reflexivity|unfold later; do 7 (split; [reflexivity|]); lra|].
  assert (HL : exists g', load_gen light home (without_dwells data) = Ok g').
  { destruct (without_dwells data) as [|s ss] eqn:Ew; [eexists; reflexivity|].
    unfold load_gen. rewrite clean_lines_text, <- Ew. unfold without_dwells. rewrite kept_text, Hf'. cbn [bind]. eexists. reflexivity. }
  destruct HL as (g' & HL). exists g'. split; [exact HL|].
  destruct (load_total _ _ _ _ HL) as (m2 & ls2 & out2 & Hf2 & Ht2). unfold without_dwells in Hf2. rewrite kept_text in Hf2.
  rewrite Hf' in Hf2. injection Hf2 as <- <- <-. rewrite Ht, Ht2. destruct Hd as (_ & _ & _ & _ & _ & _ & _ & Hd). rewrite Hd. lra.
Qed.

End Any.

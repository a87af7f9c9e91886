(** * P_ArcPath: the head keeps to the path (C54, C77) *)
From Coq Require Import List Ascii String ZArith NArith Bool Reals Lra Lia.
From Verif Require Import PyBase Arith ArithR Gcoder Filters Arc SpecText SpecLoad SpecMachine SpecFilter SpecArc.
From Verif Require Import P_Load P_Text P_Wf P_Machine P_Format P_Filter P_FilterMotion P_Arc P_ArcFit.
Import ListNotations.
Local Open Scope list_scope.
Local Open Scope R_scope.

(** ** Rounding twice *)

Lemma round_grid : forall d (x : R), exists m : BinNums.Z, py_round (A:=RA) d x = IZR m / 10 ^ d.
Proof.
  intros d x. destruct (val_dec RA exactR d x) as (neg & m & H & _). unfold py_round. rewrite H.
  pose proof (val_of_dec RA exactR neg m d) as Hv. cbn [val exactR num RA] in Hv.
  exists (if neg then (- Z.of_N m)%Z else Z.of_N m).
  etransitivity; [exact Hv|]. destruct neg; [rewrite opp_IZR|]; cbn [num RA]; unfold Rdiv; ring.
Qed.

Lemma round_twice : forall d (x : R), py_round (A:=RA) d (py_round (A:=RA) d x) = py_round (A:=RA) d x.
Proof.
  intros d x. destruct (round_grid d x) as [m Hm]. rewrite Hm.
  destruct (round_grid d (IZR m / 10 ^ d)) as [m' Hm'].
  pose proof (py_round_err exactR d (IZR m / 10 ^ d)) as He. cbn [val exactR] in He.
  rewrite Hm' in He. rewrite Hm'. assert (Hp : 0 < 10 ^ d) by (apply pow_lt; lra).
  replace (IZR m' / 10 ^ d - IZR m / 10 ^ d) with ((IZR m' - IZR m) * / 10 ^ d) in He by (field; lra).
  rewrite Rabs_mult, (Rabs_right (/ 10 ^ d)) in He by (left; apply Rinv_0_lt_compat; lra).
  unfold Rdiv in He. apply Rmult_le_reg_r in He; [|apply Rinv_0_lt_compat; lra].
  rewrite <- minus_IZR, <- abs_IZR in He.
  assert (Hz : (Z.abs (m' - m) < 1)%Z) by (apply lt_IZR; lra).
  replace m' with m by lia. reflexivity.
Qed.

(** ** The text of the generated lines *)

Lemma digits_lack : forall c s, is_digit c = false -> str_all is_digit s = true -> lacks c s = true.
Proof.
  intros c s Hc. unfold lacks. induction s as [|d s IH]; [reflexivity|]. cbn. intros H.
  apply andb_prop in H as [Hd Hs]. rewrite (IH Hs), andb_true_r.
  destruct (Ascii.eqb d c) eqn:E; [|reflexivity]. apply Ascii.eqb_eq in E. subst. congruence.
Qed.

Lemma shape_lacks : forall v sg ip pt fp, num_shape v sg ip pt fp -> lacks nl v = true /\ lacks ")" v = true.
Proof.
  intros v sg ip pt fp [Ev Hsg Hip Hfp Hpt]. rewrite Ev, !lacks_app.
  rewrite !(digits_lack _ ip), !(digits_lack _ fp) by (reflexivity || assumption).
  destruct Hsg as [-> | [-> | ->]]; destruct Hpt as [-> | [-> ->]]; split; reflexivity.
Qed.

Lemma fmt_lacks : forall d (x : R), lacks nl (fmt (A:=RA) (S d) x) = true /\ lacks ")" (fmt (A:=RA) (S d) x) = true.
Proof.
  intros d x. destruct (val_dec RA exactR (S d) x) as (neg & m & H & _).
  eapply shape_lacks, (fmt_shape (A:=RA) d x neg m H).
Qed.

Lemma tail_lacks : forall (a : args RA) ks, lacks nl (tail_text a ks) = true.
Proof.
  intros a. induction ks as [|k ks IH]; [reflexivity|]. rewrite tail_cons, lacks_app, IH, andb_true_r.
  unfold word_text. destruct (get_arg k a) as [v|]; [|reflexivity].
  rewrite !lacks_app. destruct k; cbn [letter_upper]; rewrite (proj1 (fmt_lacks _ v)); reflexivity.
Qed.

Lemma unsplit_lacks : forall c (a : args RA), lacks nl c = true -> lacks nl (unsplit_text c a) = true.
Proof.
  intros c a H. unfold unsplit_text.
  change (String.concat "" (map (word_text a) all_letters)) with (tail_text a all_letters).
  rewrite lacks_app, H. apply tail_lacks.
Qed.

Lemma unsplit_no_paren : forall v (a : args RA), no_outer_paren (unsplit_text (String "G" v) a) = true.
Proof. reflexivity. Qed.

Lemma number_comment : forall c ws suf, suf = [] \/ suf = [(""%string, ""%string)] -> c <> ""%string ->
  number_of c (ws ++ suf) = number_of c ws.
Proof.
  intros c ws suf Hs Hc. rewrite number_app. destruct Hs as [-> | ->]; cbn; [reflexivity|].
  destruct (match c with ""%string => true | _ => false end) eqn:E; [destruct c; congruence|].
  destruct c; [congruence|reflexivity].
Qed.

Lemma op_comment : forall s x, lacks nl s = true -> comment_tail x -> no_outer_paren s = true ->
  words s <> [] ->
  match op_of s with
  | Move w e f => exists w' e' f', op_of (s ++ x) = Move w' e' f' /\ (forall a, w' a = w a) /\ e' = e /\ f' = f
  | SetPosition w e => exists w' e', op_of (s ++ x) = SetPosition w' e' /\ (forall a, w' a = w a) /\ e' = e
  | _ => True
  end.
Proof.
  intros s x H1 H2 H3 H4. destruct (words_comment s x H1 H2 H3) as (suf & Hw & Hs).
  assert (Hn : forall c, c <> ""%string -> number_of c (words (s ++ x)) = number_of c (words s)).
  { intros c Hc. rewrite Hw. apply number_comment; assumption. }
  assert (Hc : command_name (s ++ x) = command_name s).
  { unfold command_name. rewrite Hw. destruct (words s) as [|[c v] t]; [congruence|reflexivity]. }
  assert (Ha : forall a, number_of (axis_letter a) (words (s ++ x)) = number_of (axis_letter a) (words s)).
  { intros a. apply Hn. destruct a; discriminate. }
  unfold op_of. rewrite Hc. destruct (command_name s) as [c|]; [|exact I].
  destruct (str_mem c ["G0"; "G1"; "G2"; "G3"]%string).
  { eexists _, _, _. split; [reflexivity|]. split; [exact Ha|]. split; apply Hn; discriminate. }
  destruct (String.eqb c "G28"); [exact I|]. destruct (String.eqb c "G92").
  { eexists _, _. split; [reflexivity|]. split; [exact Ha|]. apply Hn; discriminate. }
  repeat match goal with |- context [if ?b then _ else _] => destruct b; [exact I|] end.
  destruct c as [|d t]; [exact I|]. all_chars d; exact I.
Qed.

Lemma unsplit_words_some : forall c (a : args RA), g_command c -> words (unsplit_text c a) <> [].
Proof.
  intros c a H Hw. pose proof (name_unsplit exactR c a H) as Hn. unfold command_name in Hn.
  rewrite Hw in Hn. discriminate Hn.
Qed.

Lemma contains_here : forall n s r, contains n (s ++ n ++ r) = true.
Proof.
  assert (Hp : forall n r, String.prefix n (n ++ r) = true).
  { induction n as [|c n IH]; intros r; [destruct r; reflexivity|]. cbn.
    destruct (ascii_dec c c); [apply IH|congruence]. }
  intros n. induction s as [|c s IH]; intros r.
  - cbn [String.append]. destruct (n ++ r)%string eqn:E; cbn [contains]; rewrite <- E, Hp; reflexivity.
  - change ((String c s ++ n ++ r)%string) with (String c (s ++ n ++ r)). cbn [contains].
    rewrite IH. apply orb_true_r.
Qed.

Definition g_arc (c : string) : Prop := c = "G2"%string \/ c = "G3"%string.

Lemma arc_text_op : forall c e rel f n, exists w e' f',
  op_of (raw (arc_line (A:=RA) c e rel f n)) = Move w e' f' /\
  w X = Some (py_round (A:=RA) 3 (fst (c_end c))) /\ w Y = Some (py_round (A:=RA) 3 (snd (c_end c))) /\
  w Z = None.
Proof.
  intros c e rel f n. unfold arc_line. cbn [raw].
  set (a := Args _ _ _ _ _ _ _). set (cmd := if n_ltb n0 (c_direction c) then "G3"%string else "G2"%string).
  assert (Hg : g_command cmd /\ str_mem cmd ["G0"; "G1"; "G2"; "G3"]%string = true /\ lacks nl cmd = true /\
    exists v, cmd = String "G" v).
  { unfold cmd. destruct (n_ltb _ _); repeat split; try (eexists; reflexivity).
    - exists "3"%string, ""%string, "3"%string, ""%string, ""%string. split; [reflexivity|].
      constructor; auto.
    - exists "2"%string, ""%string, "2"%string, ""%string, ""%string. split; [reflexivity|].
      constructor; auto. }
  destruct Hg as (G1 & G2 & G3 & v & G4).
  destruct (op_unsplit_move exactR cmd a G1 G2) as (w & e1 & f1 & Ho & Hw & _).
  assert (Ht : comment_tail ("; generated from " ++ nat_to_string (n - 1) ++ " segments")%string).
  { exists ""%string, (" generated from " ++ nat_to_string (n - 1) ++ " segments")%string.
    split; [reflexivity|]. split; [reflexivity|]. split; [reflexivity|].
    rewrite !lacks_app. unfold nat_to_string.
    rewrite !(digits_lack _ (N_to_string _)) by (reflexivity || apply N_to_string_digits).
    split; reflexivity. }
  pose proof (op_comment (unsplit_text cmd a) _ (unsplit_lacks cmd a G3) Ht
    ltac:(rewrite G4; apply unsplit_no_paren) (unsplit_words_some cmd a G1)) as Hc.
  rewrite Ho in Hc. destruct Hc as (w' & e2 & f2 & Ho' & Hw' & _).
  exists w', e2, f2. split; [exact Ho'|]. rewrite !Hw', !Hw. cbn [a_x a_y a_z a option_map val exactR].
  split; [|split; [|reflexivity]]; exact (f_equal (@Some R) (round_twice 3 _)).
Qed.

Lemma fix_text_op : forall e r, exists w e',
  op_of (raw (correction_line (A:=RA) (Some e) r)) = SetPosition w (Some e') /\ forall a, w a = None.
Proof.
  intros e r. unfold correction_line. cbn [raw]. set (a := Args _ _ _ _ _ _ _).
  destruct (op_unsplit_92 exactR a) as (w & e1 & Ho & Hw & He).
  assert (Ht : comment_tail ("; generated as arc to path relation is " ++ fmt (A:=RA) 6 r)%string).
  { exists ""%string, (" generated as arc to path relation is " ++ fmt (A:=RA) 6 r)%string.
    split; [reflexivity|]. split; [reflexivity|]. split; [reflexivity|].
    rewrite !lacks_app. destruct (fmt_lacks 5 r) as [-> ->]. split; reflexivity. }
  pose proof (op_comment (unsplit_text "G92" a) _ (unsplit_lacks "G92" a eq_refl) Ht
    (unsplit_no_paren "92" a) (unsplit_words_some "G92" a g_command_92)) as Hc.
  rewrite Ho in Hc. destruct Hc as (w' & e2 & Ho' & Hw' & ->). subst e1.
  exists w'. eexists. split; [exact Ho'|]. intros x. rewrite Hw', Hw. destruct x; reflexivity.
Qed.

(** ** What is known of the lines read *)

Fixpoint follows (k : machine) (ss : list string) (ls : list (line RA)) : Prop :=
  match ss, ls with
  | [], [] => True
  | s :: ss', l :: ls' =>
      reads exactR s l /\ arc_plain s /\
      (command l <> None -> notes_head exactR l (exec_line s k) /\ t_e (lnotes l) <> None) /\
      follows (exec_line s k) ss' ls'
  | _, _ => False
  end.

Lemma noted_e : forall (ls : list (line RA)) e, noted e ls ->
  Forall (fun l => command l <> None -> t_e (lnotes l) <> None) ls.
Proof.
  induction ls as [|l ls IH]; intros e H; [constructor|]. cbn [noted] in H.
  destruct (command l) as [c|] eqn:Ec.
  - destruct H as (e' & He & _ & H). constructor; [congruence|]. apply (IH _ H).
  - destruct H as (_ & _ & H). constructor; [congruence|]. apply (IH _ H).
Qed.

Lemma follows_from : forall ss ls, Forall2 (reads exactR) ss ls -> Forall arc_plain ss ->
  Forall (fun l => command l <> None -> t_e (lnotes l) <> None) ls -> forall k,
  (forall i l, nth_error ls i = Some l -> command l <> None -> notes_head exactR l (run (firstn (S i) ss) k)) ->
  follows k ss ls.
Proof.
  intros ss ls H. induction H as [|s l ss ls Hr H IH]; intros Hp He k Hn; [exact I|].
  inversion Hp as [|? ? Hp1 Hp2]; subst. inversion He as [|? ? He1 He2]; subst. cbn [follows].
  split; [exact Hr|]. split; [exact Hp1|]. split.
  - intros Hc. split; [|apply He1, Hc]. apply (Hn O l eq_refl Hc).
  - apply IH; [exact Hp2|exact He2|]. intros i x Hi Hx. apply (Hn (S i) x Hi Hx).
Qed.

Lemma load_follows : forall home data (g : gcode RA), load_gen false home data = Ok g ->
  Forall arc_plain (program_text data) ->
  follows (start (home_of exactR home)) (program_text data) (all_lines g).
Proof.
  intros home data g H Hp. apply follows_from.
  - apply (load_reads exactR _ _ _ H). eapply Forall_impl; [|exact Hp]. intros s [_ Hs] Ho.
    rewrite Ho in Hs. exact Hs.
  - exact Hp.
  - destruct (load_noted _ _ _ H) as [e He]. apply (noted_e _ _ He).
  - rewrite (load_all_lines _ _ _ _ H). apply (load_tracks exactR false home data g H); [|reflexivity].
    eapply Forall_impl; [|exact Hp]. intros s [Hs _]. exact Hs.
Qed.

Lemma follows_app : forall ls1 ls2 k ss, follows k ss (ls1 ++ ls2) ->
  exists ss1 ss2, ss = ss1 ++ ss2 /\ List.length ss1 = List.length ls1 /\
    follows k ss1 ls1 /\ follows (run ss1 k) ss2 ls2.
Proof.
  induction ls1 as [|l ls1 IH]; intros ls2 k ss H; cbn [app] in H.
  - exists [], ss. repeat split. exact H.
  - destruct ss as [|s ss]; [destruct H|]. cbn [follows] in H. destruct H as (H1 & H2 & H3 & H4).
    destruct (IH _ _ _ H4) as (ss1 & ss2 & -> & Hl & F1 & F2). exists (s :: ss1), ss2.
    split; [reflexivity|]. split; [cbn; congruence|]. split; [|exact F2]. cbn [follows]. auto.
Qed.

(** ** Two machines *)

Definition settled (k : machine) : Prop :=
  inches k = false /\ relative k = false /\ origin k X = 0 /\ origin k Y = 0.

Definition in_step (k k' : machine) : Prop :=
  settled k /\ settled k' /\ (forall a, home k' a = home k a) /\ near_xy k k'.

Definition same_height (k k' : machine) : Prop :=
  head k' Z = head k Z /\ origin k' Z = origin k Z /\ (forall a, home k' a = home k a) /\
  settled k /\ settled k'.

Lemma near_same : forall x, Rabs (x - x) <= / 2000.
Proof. intros x. rewrite Rminus_diag_eq by reflexivity. rewrite Rabs_R0. lra. Qed.

Lemma settled_step : forall s k, arc_plain s -> settled k -> settled (exec_line s k).
Proof.
  intros s k [Hc Hs] (H1 & H2 & H3 & H4). unfold exec_line, clear_words in *.
  destruct (op_of s); try contradiction; cbn [exec]; try (repeat split; assumption).
  - repeat split; cbn [inches relative origin]; try assumption;
      match goal with |- (if ?b then _ else _) = _ => destruct b; [reflexivity|assumption] end.
  - destruct Hs as [W1 W2]. repeat split; cbn [inches relative origin]; try assumption;
      rewrite ?W1, ?W2, Hc; assumption.
Qed.

Lemma in_step_line : forall s k k', arc_plain s -> in_step k k' -> in_step (exec_line s k) (exec_line s k').
Proof.
  intros s k k' Hp (S1 & S2 & Hh & Hx & Hy). split; [apply settled_step; assumption|].
  split; [apply settled_step; assumption|]. destruct Hp as [Hc Hs].
  destruct S1 as (A1 & A2 & A3 & A4), S2 as (B1 & B2 & B3 & B4).
  unfold exec_line, near_xy, clear_words in *.
  destruct (op_of s); try contradiction; cbn [exec home head]; (split; [exact Hh|]); try (split; assumption).
  - rewrite A2, B2, A3, A4, B3, B4. unfold mm. rewrite A1, B1.
    split; [destruct (w X)|destruct (w Y)]; try assumption; apply near_same.
  - rewrite !Hh. split; match goal with |- context [if ?b then _ else _] => destruct b end;
      try assumption; apply near_same.
Qed.

Lemma same_height_line : forall s k k', arc_plain s -> same_height k k' ->
  same_height (exec_line s k) (exec_line s k').
Proof.
  intros s k k' Hp (Hz & Ho & Hh & S1 & S2).
  assert (T1 : settled (exec_line s k)) by (apply settled_step; assumption).
  assert (T2 : settled (exec_line s k')) by (apply settled_step; assumption).
  unfold same_height. destruct Hp as [Hc Hs].
  destruct S1 as (A1 & A2 & _), S2 as (B1 & B2 & _).
  unfold exec_line in *.
  destruct (op_of s); try contradiction; cbn [exec home head origin]; repeat split; try assumption; try apply T1; try apply T2.
  - rewrite A2, B2, Ho. unfold mm. rewrite A1, B1. destruct (w Z); [reflexivity|exact Hz].
  - rewrite Hh, Hz. reflexivity.
  - rewrite Ho. reflexivity.
  - rewrite Hz, Ho. unfold mm. rewrite A1, B1. reflexivity.
Qed.

(** ** A run of moves *)

Lemma run_cons : forall s ss k, run (s :: ss) k = run ss (exec_line s k).
Proof. reflexivity. Qed.

Lemma moves_run : forall ls ss k, follows k ss ls ->
  Forall (fun l => is_motion l = true /\ l_e l <> None) ls -> settled k ->
  settled (run ss k) /\ (forall a, home (run ss k) a = home k a) /\ origin (run ss k) Z = origin k Z /\
  (Forall level_extrusion ss -> head (run ss k) Z = head k Z) /\
  forall l0, last ls l0 <> l0 \/ ls <> [] -> forall x y, at_place (last ls l0) x y ->
    x = head (run ss k) X /\ y = head (run ss k) Y.
Proof.
  induction ls as [|l ls IH]; intros ss k Hf Hm Hk.
  - destruct ss; [|destruct Hf]. cbn. repeat split; try apply Hk; destruct H as [H|H]; congruence.
  - destruct ss as [|s ss]; [destruct Hf|]. destruct Hf as (Hr & Hp & Hn & Hf).
    inversion Hm as [|? ? [M1 M2] Hm']; subst. rewrite run_cons.
    destruct (IH ss _ Hf Hm' (settled_step _ _ Hp Hk)) as (I1 & I2 & I3 & I4 & I5).
    pose proof (reads_op exactR s l Hr) as Ho. pose proof (reads_motion exactR s l Hr) as Hmo.
    assert (Hmv : exists w e f, op_of s = Move w e f /\ option_map (val exactR) (l_e l) = e).
    { rewrite M1 in Hmo. unfold op_of in *. destruct (command_name s) as [c|]; [|discriminate Hmo].
      rewrite <- Hmo in *. eexists _, _, _. split; [reflexivity|]. apply Ho. }
    destruct Hmv as (w & e & f & Ew & Ee). rewrite Ew in Ho.
    split; [exact I1|]. split; [|split; [|split]].
    + intros a. rewrite I2. unfold exec_line. rewrite Ew. reflexivity.
    + rewrite I3. unfold exec_line. rewrite Ew. reflexivity.
    + intros Hv. inversion Hv as [|? ? V1 V2]; subst. rewrite (I4 V2). unfold exec_line. rewrite Ew.
      unfold level_extrusion in V1. rewrite Ew in V1. cbn [exec head].
      destruct V1 as [-> |V1]; [reflexivity|]. destruct (l_e l); [discriminate V1|congruence].
    + intros l0 _ x y Hpl. destruct ls as [|l2 ls].
      * destruct ss; [|destruct Hf]. cbn [run fold_left] in *. cbn [last] in Hpl.
        assert (Hc : command l <> None).
        { destruct Ho as (_ & _ & _ & _ & _ & _ & c & Hc & _). congruence. }
        destruct (Hn Hc) as ((x1 & y1 & z1 & X1 & Y1 & Z1 & V1 & V2 & V3) & _).
        destruct Hpl as [P1 P2]. rewrite P1 in X1. rewrite P2 in Y1.
        injection X1 as <-. injection Y1 as <-. split; [exact V1|exact V2].
      * apply (I5 l0); [right; discriminate|exact Hpl].
Qed.

(** ** The generated lines *)

Definition produced (first : line RA) (run gen : list (line RA)) : Prop :=
  fitted first run gen /\
  exists c e rel f n fix_, gen = arc_line c e rel f n :: fix_ /\
    (fix_ = [] \/ exists r, fix_ = [correction_line (t_e (lnotes (last run first))) r]).

Lemma accepted_produced : forall (first : line RA) run gen,
  accepted (fun q => exists rest, steady q rest) first run gen -> produced first run gen.
Proof.
  intros first run gen H. split; [apply accepted_fitted, H|].
  destruct H as (Hlen & _ & _ & Harc & _).
  assert (Hq : last (first :: run) first = last run first) by (destruct run; reflexivity).
  unfold arc_of in Harc. rewrite Hq in Harc.
  destruct (get_circle _) as [[er oc]|ex]; cbn [bind] in Harc; [|discriminate Harc].
  destruct (get_distances _) as [[[ss fil] ratio]|ex]; cbn [bind] in Harc; [|discriminate Harc].
  destruct oc as [c|]; [|discriminate Harc].
  destruct (mapM place _) as [ps|ex]; cbn [bind] in Harc; [|discriminate Harc].
  destruct (match t_relative_e _ with Some b => b | None => false end).
  - destruct (mapM (arc_term c) _) as [ts|ex]; cbn [bind] in Harc; [|discriminate Harc].
    injection Harc as <-. eexists _, _, _, _, _, _. split; [reflexivity|]. now left.
  - destruct (need _) as [e0|ex]; cbn [bind] in Harc; [|discriminate Harc].
    destruct (py_div _ fil) as [rel|ex]; cbn [bind] in Harc; [|discriminate Harc].
    injection Harc as <-. eexists _, _, _, _, _, _. split; [reflexivity|].
    match goal with |- (if ?b then _ else _) = _ \/ _ => destruct b end; [right; eexists; reflexivity|now left].
Qed.

Lemma arcs_produced : forall home data (g g' : gcode RA), load_gen false home data = Ok g ->
  optimize_arcs g = Ok g' -> exists n, replaced produced n (all_lines g) (all_lines g').
Proof.
  intros home data g g' Hl H. destruct (optimize_steady _ _ _ _ Hl H) as [n Hn].
  exists n. eapply replaced_mono; [|exact Hn]. exact accepted_produced.
Qed.

Lemma gen_run : forall first run' gen k, produced first run' gen -> settled k ->
  t_e (lnotes (last run' first)) <> None ->
  let k' := run (map raw gen) k in
  settled k' /\ (forall a, home k' a = home k a) /\ origin k' Z = origin k Z /\ head k' Z = head k Z /\
  exists x y, at_place (last run' first) x y /\ rounded x (head k' X) /\ rounded y (head k' Y).
Proof.
  intros first run' gen k [Hfit Hsh] Hk He.
  destruct Hfit as (_ & _ & _ & x0 & y0 & r & xs & ys & xe & ye & arc & fx & Hgen & _ & _ & _ & _ & _ & Hat & Wx & Wy & _).
  destruct Hsh as (c & e & rel & f & n & fix_ & Hgen' & Hfix).
  rewrite Hgen in Hgen'. injection Hgen' as -> ->.
  destruct (arc_text_op c e rel f n) as (w & e' & f' & Ho & W1 & W2 & W3).
  destruct Wx as (wx & Wx1 & Wx2), Wy as (wy & Wy1 & Wy2). cbn [largs arc_line get_arg a_x a_y] in Wx1, Wy1.
  injection Wx1 as <-. injection Wy1 as <-.
  destruct Hk as (K1 & K2 & K3 & K4).
  set (k1 := exec_line (raw (arc_line c e rel f n)) k).
  assert (H1 : settled k1 /\ (forall a, home k1 a = home k a) /\ origin k1 Z = origin k Z /\ head k1 Z = head k Z /\
    head k1 X = py_round (A:=RA) 3 (fst (c_end c)) /\ head k1 Y = py_round (A:=RA) 3 (snd (c_end c))).
  { unfold k1, exec_line. rewrite Ho. cbn [exec home origin head]. rewrite W1, W2, W3, K2, K3, K4.
    unfold mm. rewrite K1. repeat split; try assumption; apply Rplus_0_l. }
  destruct H1 as (S1 & S2 & S3 & S4 & S5 & S6).
  destruct Hfix as [-> |(rr & ->)].
  - subst gen. cbn [map]. rewrite run_cons. fold k1. cbn [run fold_left].
    repeat (split; [assumption|]). exists xe, ye. rewrite S5, S6. auto.
  - subst gen. cbn [map]. rewrite !run_cons. fold k1. cbn [run fold_left].
    destruct (t_e (lnotes (last run' first))) as [v|]; [|congruence].
    destruct (fix_text_op v rr) as (w2 & e2 & Ho2 & Hw2).
    unfold exec_line at 1 2 3 4 5 6. rewrite Ho2. cbn [exec home origin head].
    destruct S1 as (Q1 & Q2 & Q3 & Q4).
    split; [|split; [exact S2|split; [|split; [exact S4|exists xe, ye; rewrite S5, S6; auto]]]].
    + repeat split; cbn [inches relative origin]; try assumption; rewrite Hw2; unfold bare; rewrite orb_true_r; assumption.
    + rewrite Hw2. unfold bare. rewrite orb_true_r. exact S3.
Qed.

Lemma gen_text : forall first run' gen, produced first run' gen ->
  (1 <= List.length (map raw gen) <= 2)%nat /\
  Forall (fun s => contains "; generated" s = true) (map raw gen).
Proof.
  intros first run' gen (_ & c & e & rel & f & n & fix_ & -> & Hfix).
  assert (H1 : contains "; generated" (raw (arc_line (A:=RA) c e rel f n)) = true).
  { cbn [raw arc_line].
    change ("; generated from " ++ nat_to_string (n - 1) ++ " segments")%string
      with ("; generated" ++ (" from " ++ nat_to_string (n - 1) ++ " segments"))%string.
    apply contains_here. }
  destruct Hfix as [-> |(r & ->)]; cbn [map List.length]; (split; [lia|]).
  - constructor; [exact H1|constructor].
  - constructor; [exact H1|]. constructor; [|constructor]. cbn [raw correction_line].
    match goal with |- contains _ (?a ++ "; generated as arc to path relation is " ++ ?b) = true =>
      change ("; generated as arc to path relation is " ++ b)%string
        with ("; generated" ++ (" as arc to path relation is " ++ b))%string end.
    apply contains_here.
Qed.

(** ** The whole program *)

Lemma same_run : forall run run' : list (line RA), Forall2 same_line run run' ->
  Forall (fun l => is_motion l = true /\ l_e l <> None) run' -> run' = run.
Proof.
  intros run run' H. induction H as [|l l' run run' (H1 & H2 & H3 & H4 & H5) H IH]; intros Hm; [reflexivity|].
  inversion Hm as [|? ? [M1 _] Hm']; subst. rewrite (IH Hm'), H5; [reflexivity|].
  rewrite <- H2. unfold is_motion in M1. destruct (command l'); [discriminate|discriminate M1].
Qed.

Lemma pace : forall n ins outs, replaced produced n ins outs -> forall ss k k', follows k ss ins ->
  in_step k k' ->
  keeps_pace near_xy k k' ss (map raw outs) /\
  (Forall level_extrusion ss -> same_height k k' -> keeps_pace near_xyz k k' ss (map raw outs)).
Proof.
  intros n ins outs H.
  induction H as [|n l l' ins outs Hs H IH|n l l' mv mv' gen next outs Hs Hrun HR Hn H IH]; intros ss k k' Hf Hk.
  - destruct ss; [|destruct Hf]. split; [|intros _ Hz]; constructor; [apply Hk|].
    split; [apply Hk|apply Hz].
  - destruct ss as [|s ss]; [destruct Hf|]. destruct Hf as (Hr & Hp & _ & Hf).
    assert (Ht : raw l' = s) by (rewrite (proj1 Hs); apply Hr). cbn [map]. rewrite Ht.
    destruct (IH _ _ _ Hf (in_step_line _ _ _ Hp Hk)) as [I1 I2].
    split; [constructor; [apply Hk|exact I1]|]. intros Hv Hz. inversion Hv; subst.
    constructor; [split; [apply Hk|apply Hz]|]. apply I2; [assumption|]. apply same_height_line; assumption.
  - destruct ss as [|s ss]; [destruct Hf|]. destruct Hf as (Hr & Hp & _ & Hf).
    assert (Ht : raw l' = s) by (rewrite (proj1 Hs); apply Hr). cbn [map]. rewrite Ht.
    pose proof (in_step_line _ _ _ Hp Hk) as Hk1.
    assert (Hlen : (8 <= List.length mv')%nat) by (destruct HR as [HR _]; apply HR).
    assert (Hmv : Forall (fun l => is_motion l = true /\ l_e l <> None) mv') by (destruct HR as [HR _]; apply HR).
    pose proof (same_run _ _ Hrun Hmv) as Hsame. subst mv'.
    destruct (follows_app _ _ _ _ Hf) as (ss1 & ss2 & -> & Hl & F1 & F2).
    destruct Hk1 as (K1 & K2 & Kh & Kn).
    destruct (moves_run _ _ _ F1 Hmv K1) as (R1 & R2 & R3 & R4 & R5).
    assert (Hne : mv <> []) by (intros ->; cbn in Hlen; lia).
    assert (He : t_e (lnotes (last mv l')) <> None).
    { clear - F1 Hne Hmv. revert ss1 F1. generalize (exec_line s k). induction mv as [|x mv IHm]; intros q ss1 F1; [congruence|].
      destruct ss1 as [|s1 ss1]; [destruct F1|]. destruct F1 as (G1 & _ & G2 & G3). inversion Hmv as [|? ? [M1 _] Hm']; subst.
      destruct mv as [|y mv].
      - cbn. apply G2. unfold is_motion in M1. destruct (command x); [discriminate|discriminate M1].
      - change (last (x :: y :: mv) l') with (last (y :: mv) l'). apply (IHm Hm' ltac:(discriminate) _ _ G3). }
    destruct (gen_run _ _ _ _ HR K2 He) as (T1 & T2 & T3 & T4 & x & y & Tp & Tx & Ty).
    destruct (R5 l' (or_intror Hne) x y Tp) as [-> ->].
    assert (Hk2 : in_step (run ss1 (exec_line s k)) (run (map raw gen) (exec_line s k'))).
    { split; [exact R1|]. split; [exact T1|]. split; [intros a; rewrite T2, R2; apply Kh|].
      unfold rounded in Tx, Ty. split; lra. }
    destruct (gen_text _ _ _ HR) as [G1 G2].
    destruct (IH _ _ _ F2 Hk2) as [I1 I2]. rewrite map_app.
    split.
    + constructor; [apply Hk|]. apply kp_group; try assumption. congruence.
    + intros Hv Hz. inversion Hv as [|? ? V1 V2]; subst. apply Forall_app in V2 as [V2 V3].
      pose proof (same_height_line _ _ _ Hp Hz) as Hz1.
      constructor; [split; [apply Hk|apply Hz]|]. apply kp_group; try assumption.
      * split; [exact Kn|apply Hz1].
      * congruence.
      * apply I2; [exact V3|]. destruct Hz1 as (Z1 & Z2 & Z3 & Z4 & Z5).
        split; [rewrite T4, (R4 V2); exact Z1|]. split; [rewrite T3, R3; exact Z2|].
        split; [intros a; rewrite T2, R2; apply Z3|]. split; assumption.
Qed.

Lemma settled_start : forall h, settled (start h).
Proof. intros h. repeat split. Qed.

Lemma arcs_pace : forall home data (g g' : gcode RA), load_gen false home data = Ok g ->
  optimize_arcs g = Ok g' -> Forall arc_plain (program_text data) ->
  let k := start (home_of exactR home) in
  keeps_pace near_xy k k (program_text data) (write g').
Proof.
  intros home data g g' Hl H Hp k. destruct (arcs_produced _ _ _ _ Hl H) as [n Hn].
  apply (pace _ _ _ Hn _ _ _ (load_follows _ _ _ Hl Hp)).
  repeat split; cbn; apply near_same.
Qed.

Lemma arcs_pace_z : forall home data (g g' : gcode RA), load_gen false home data = Ok g ->
  optimize_arcs g = Ok g' -> Forall arc_plain (program_text data) ->
  Forall level_extrusion (program_text data) ->
  let k := start (home_of exactR home) in
  keeps_pace near_xyz k k (program_text data) (write g').
Proof.
  intros home data g g' Hl H Hp Hv k. destruct (arcs_produced _ _ _ _ Hl H) as [n Hn].
  apply (pace _ _ _ Hn _ _ _ (load_follows _ _ _ Hl Hp)); [|exact Hv|].
  - repeat split; cbn; apply near_same.
  - repeat split.
Qed.

(** at the end *)
Lemma pace_end : forall (near : machine -> machine -> Prop) k k' ss ss', keeps_pace near k k' ss ss' ->
  near (run ss k) (run ss' k').
Proof.
  intros near k k' ss ss' H.
  induction H as [k k' H|k k' s ss ss' H H' IH|k k' old new ss ss' H H1 H2 H3 H' IH]; [exact H|exact IH|].
  unfold run in *. rewrite !fold_left_app. exact IH.
Qed.

Lemma arcs_pace_end : forall home data (g g' : gcode RA), load_gen false home data = Ok g ->
  optimize_arcs g = Ok g' -> Forall arc_plain (program_text data) ->
  let k := start (home_of exactR home) in
  near_xy (run (program_text data) k) (run (write g') k).
Proof. intros home data g g' Hl H Hp k. apply pace_end. apply (arcs_pace _ _ _ _ Hl H Hp). Qed.

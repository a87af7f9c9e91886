(** * P_Equal: equality of programs and [diff] (C24-C26), bounds (C18, C19) *)
From Coq Require Import List Ascii String ZArith NArith Bool Lia Reals Lra.
From Verif Require Import PyBase Arith ArithQ ArithR ArithB64 Gcoder SpecLoad SpecText SpecMachine SpecMeasure SpecEqual.
From Verif Require Import Samples P_Load P_Text P_Report P_Wf P_Machine P_MachineRefuted P_Measure P_Layers P_Format.
Import ListNotations.
Local Open Scope list_scope.

Lemma forall2_length : forall T U (R : T -> U -> Prop) a b, Forall2 R a b -> List.length a = List.length b.
Proof. intros T U R a b H. induction H; cbn; congruence. Qed.

Section Generic.
Context {A : arith}.
Local Notation line := (line A).

Lemma meaningful_commands : forall g : gcode A, meaningful g = commands_of g.
Proof. intros g. reflexivity. Qed.

Lemma diff_eqb_loop : forall (a b : list line) n, diff_loop n a b = None <-> eq_loop a b = true.
Proof.
  induction a as [|x a IH]; intros [|y b] n; cbn.
  - split; reflexivity.
  - split; discriminate.
  - destruct a; split; try reflexivity; discriminate.
  - destruct (line_eqb x y); [apply IH|split; discriminate].
Qed.

Lemma diff_eqb : forall g h : gcode A, diff g h = None <-> gcode_eqb g h = true.
Proof. intros g h. apply diff_eqb_loop. Qed.

(** light programs keep no command *)
Lemma light_commands : forall home data (g : gcode A), load_gen true home data = Ok g ->
  commands_of g = [].
Proof.
  intros home data g H. destruct (load_consistent _ _ _ _ H) as (H1 & _ & _).
  destruct (load_btrace _ _ _ _ H) as (pl & ls & _ & Hg).
  assert (Hl : g_lines g = map (store true) pl) by (rewrite Hg; apply finalize_lines).
  unfold commands_of. change (map ly_lines (g_layers g)) with (blocks g). rewrite <- H1, Hl.
  clear. induction pl as [|l pl IH]; cbn; [reflexivity|exact IH].
Qed.

Lemma light_always_equal : forall home data data' (g h : gcode A),
  load_gen true home data = Ok g -> load_gen true home data' = Ok h -> gcode_eqb g h = true.
Proof.
  intros home data data' g h Hg Hh. unfold gcode_eqb.
  rewrite (meaningful_commands g), (meaningful_commands h), (light_commands _ _ _ Hg), (light_commands _ _ _ Hh). reflexivity.
Qed.

Section Exactly.
Variable E : exact A.
Notation val := (val E).
Local Open Scope R_scope.

Lemma cmd_eqb_iff : forall a b, cmd_eqb a b = true <-> a = b.
Proof.
  intros [a|] [b|]; cbn; try (split; congruence). rewrite String.eqb_eq. split; congruence.
Qed.

Lemma arg_eqb_iff : forall a b : option (num A), arg_eqb a b = true <->
  match a, b with
  | None, None => True
  | Some x, Some y => Rabs (val x - val y) <= / 1000
  | _, _ => False
  end.
Proof.
  intros [x|] [y|]; cbn; try (split; [discriminate|contradiction]); [|split; auto].
  rewrite negb_true_iff. assert (He : val eq_epsilon = / 1000).
  { unfold eq_epsilon. rewrite val_lit. cbn. lra. }
  assert (Ha : val (n_abs (n_sub x y)) = Rabs (val x - val y)) by (rewrite (val_abs A E), (val_sub A E); reflexivity).
  rewrite <- He, <- Ha. split.
  - intros H. apply Rnot_lt_le. intros Hl. apply (val_ltb A E) in Hl. congruence.
  - intros H. destruct (n_ltb eq_epsilon (n_abs (n_sub x y))) eqn:El; [|reflexivity].
    apply (val_ltb A E) in El. lra.
Qed.

Lemma line_eqb_iff : forall a b : line, line_eqb a b = true <-> alike E a b.
Proof.
  intros a b. unfold line_eqb, alike. rewrite andb_true_iff, cmd_eqb_iff, forallb_forall.
  split; intros [H1 H2]; (split; [exact H1|]).
  - intros k. apply arg_eqb_iff, H2. destruct k; cbn; auto 10.
  - intros k _. apply arg_eqb_iff, H2.
Qed.

Lemma alike_refl : forall a, alike E a a.
Proof.
  intros a. split; [reflexivity|]. intros k. destruct (get_arg k (largs a)); [|exact I].
  rewrite Rminus_diag_eq by reflexivity. rewrite Rabs_R0. lra.
Qed.

Lemma eq_loop_iff : forall a b : list line, eq_loop a b = true <->
  exists m extra, a = m ++ extra /\ (List.length extra <= 1)%nat /\ Forall2 (alike E) m b.
Proof.
  induction a as [|x a IH]; intros [|y b]; cbn [eq_loop].
  - split; [|reflexivity]. intros _. exists [], []. cbn. repeat split; auto.
  - split; [discriminate|]. intros (m & ex & He & _ & Hf). inversion Hf; subst. discriminate He.
  - split.
    + destruct a; [|discriminate]. intros _. exists [], [x]. cbn. repeat split; auto.
    + intros (m & ex & He & Hl & Hf). inversion Hf; subst. cbn in He. subst ex. cbn in Hl.
      destruct a; [reflexivity|cbn in Hl; lia].
  - destruct (line_eqb x y) eqn:El.
    + rewrite IH. apply line_eqb_iff in El. split; intros (m & ex & He & Hl & Hf).
      * exists (x :: m), ex. cbn. rewrite He. repeat split; auto.
      * inversion Hf as [|x' y' m' b' Hxy Hm]; subst. cbn in He. injection He as <- ->. exists m', ex. auto.
    + split; [discriminate|]. intros (m & ex & He & Hl & Hf).
      inversion Hf as [|x' y' m' b' Hxy Hm]; subst. cbn in He. injection He as <- ->.
      apply line_eqb_iff in Hxy. congruence.
Qed.

Lemma gcode_eqb_iff : forall g h : gcode A, gcode_eqb g h = true <->
  exists m extra, commands_of g = m ++ extra /\ (List.length extra <= 1)%nat /\
    Forall2 (alike E) m (commands_of h).
Proof. intros g h. apply eq_loop_iff. Qed.

Lemma gcode_eqb_same_length : forall g h : gcode A,
  List.length (commands_of g) = List.length (commands_of h) ->
  (gcode_eqb g h = true <-> Forall2 (alike E) (commands_of g) (commands_of h)).
Proof.
  intros g h Hn. rewrite gcode_eqb_iff. split.
  - intros (m & ex & He & Hl & Hf). pose proof (forall2_length _ _ _ _ _ Hf) as H2.
    rewrite He, app_length in Hn. destruct ex; [|cbn in Hn; lia].
    rewrite He, app_nil_r. exact Hf.
  - intros H. exists (commands_of g), []. rewrite app_nil_r. cbn. auto.
Qed.

Lemma gcode_eqb_refl : forall g : gcode A, gcode_eqb g g = true.
Proof.
  intros g. apply gcode_eqb_same_length; [reflexivity|].
  induction (commands_of g); constructor; auto using alike_refl.
Qed.

Lemma diff_loop_at : forall (a b : list line) n k s t, diff_loop n a b = Some (DiffAt k s t) ->
  exists i x y, k = (n + i)%nat /\ first_difference E i x y a b /\ s = raw x /\ t = raw y.
Proof.
  induction a as [|x a IH]; intros [|y b] n k s t H; cbn in H; try discriminate H.
  - destruct a; discriminate H.
  - destruct (line_eqb x y) eqn:El.
    + destruct (IH _ _ _ _ _ H) as (i & x' & y' & Hk & (D1 & D2 & D3 & D4) & Hs & Ht).
      exists (S i), x', y'. split; [lia|]. split; [|auto]. unfold first_difference. cbn.
      apply line_eqb_iff in El. auto.
    + injection H as <- <- <-. exists 0%nat, x, y. split; [lia|]. split; [|auto].
      unfold first_difference. cbn. repeat split; auto.
      intros Hal. apply line_eqb_iff in Hal. congruence.
Qed.

Lemma diff_loop_at_conv : forall i (a b : list line) n x y, first_difference E i x y a b ->
  diff_loop n a b = Some (DiffAt (n + i) (raw x) (raw y)).
Proof.
  induction i as [|i IH]; intros a b n x y (D1 & D2 & D3 & D4);
    (destruct a as [|a0 a]; [discriminate D2|]); (destruct b as [|b0 b]; [discriminate D3|]); cbn in *.
  - injection D2 as ->. injection D3 as ->. destruct (line_eqb x y) eqn:El.
    + apply line_eqb_iff in El. contradiction.
    + rewrite Nat.add_0_r. reflexivity.
  - inversion D1 as [|? ? ? ? H1 H2]; subst. apply line_eqb_iff in H1. rewrite H1.
    rewrite (IH a b (S n) x y). { rewrite Nat.add_succ_r. reflexivity. }
    repeat split; assumption.
Qed.

Lemma diff_at : forall (g h : gcode A) k s t, diff g h = Some (DiffAt k s t) <->
  exists x y, first_difference E k x y (commands_of g) (commands_of h) /\ s = raw x /\ t = raw y.
Proof.
  intros g h k s t. split.
  - intros H. apply diff_loop_at in H as (i & x & y & Hk & H). cbn in Hk. subst k. exists x, y. exact H.
  - intros (x & y & H & -> & ->). apply (diff_loop_at_conv _ _ _ 0 _ _ H).
Qed.

Lemma diff_loop_other : forall (a b : list line) n s, diff_loop n a b = Some (DiffOther s) <->
  exists m y r, b = m ++ y :: r /\ Forall2 (alike E) a m /\ s = raw y.
Proof.
  induction a as [|x a IH]; intros [|y b] n s; cbn [diff_loop].
  - split; [discriminate|]. intros (m & y & r & H & _). destruct m; discriminate H.
  - split.
    + intros H. injection H as <-. exists [], y, b. auto.
    + intros (m & y' & r & H & Hf & ->). inversion Hf; subst. injection H as -> ->. reflexivity.
  - split; [destruct a; discriminate|]. intros (m & y & r & H & _). destruct m; discriminate H.
  - destruct (line_eqb x y) eqn:El.
    + apply line_eqb_iff in El. rewrite IH. split; intros (m & y' & r & H & Hf & Hs).
      * exists (y :: m), y', r. rewrite H. cbn. auto.
      * inversion Hf; subst. injection H as <- ->. eexists _, _, _. split; [reflexivity|]. auto.
    + split; [discriminate|]. intros (m & y' & r & H & Hf & Hs). inversion Hf as [|? ? ? ? H1 H2]; subst.
      injection H as <- ->. apply line_eqb_iff in H1. congruence.
Qed.

Lemma diff_other : forall (g h : gcode A) s, diff g h = Some (DiffOther s) <->
  exists m y r, commands_of h = m ++ y :: r /\ Forall2 (alike E) (commands_of g) m /\ s = raw y.
Proof. intros g h s. apply diff_loop_other. Qed.

Lemma diff_loop_self : forall (a b : list line) n s, diff_loop n a b = Some (DiffSelf s) <->
  exists m x y r, a = m ++ x :: y :: r /\ Forall2 (alike E) m b /\ s = raw y.
Proof.
  induction a as [|x a IH]; intros [|y b] n s; cbn [diff_loop].
  - split; [discriminate|]. intros (m & x & y & r & H & _). destruct m; discriminate H.
  - split; [discriminate|]. intros (m & x & y' & r & H & _). destruct m; discriminate H.
  - split.
    + destruct a as [|z a]; [discriminate|]. intros H. injection H as <-. exists [], x, z, a. auto.
    + intros (m & x' & y & r & H & Hf & ->). inversion Hf; subst. injection H as -> ->. reflexivity.
  - destruct (line_eqb x y) eqn:El.
    + apply line_eqb_iff in El. rewrite IH. split; intros (m & x' & y' & r & H & Hf & Hs).
      * exists (x :: m), x', y', r. rewrite H. cbn. auto.
      * inversion Hf; subst. injection H as <- ->. eexists _, _, _, _. split; [reflexivity|]. auto.
    + split; [discriminate|]. intros (m & x' & y' & r & H & Hf & Hs). inversion Hf as [|? ? ? ? H1 H2]; subst.
      injection H as <- ->. apply line_eqb_iff in H1. congruence.
Qed.

Lemma diff_self : forall (g h : gcode A) s, diff g h = Some (DiffSelf s) <->
  exists m x y r, commands_of g = m ++ x :: y :: r /\ Forall2 (alike E) m (commands_of h) /\ s = raw y.
Proof. intros g h s. apply diff_loop_self. Qed.

(** the box is as wide as the extruding moves are apart *)
Lemma load_size : forall home data (g : gcode A), load_gen false home data = Ok g ->
  0 < val (g_filament g) ->
  forall l l' x y x' y', In l (g_lines g) -> In l' (g_lines g) -> extrudes l -> extrudes l' ->
    t_x (lnotes l) = Some x -> t_y (lnotes l) = Some y ->
    t_x (lnotes l') = Some x' -> t_y (lnotes l') = Some y' ->
    Rabs (val x - val x') <= val (g_width g) /\ Rabs (val y - val y') <= val (g_depth g).
Proof.
  intros home data g H Hf l l' x y x' y' Hl Hl' He He' Hx Hy Hx' Hy'.
  destruct (load_box E home data g H Hf) as (_ & Hb & _).
  destruct (Hb l Hl He) as (x1 & y1 & E1 & E2 & E3 & E4).
  destruct (Hb l' Hl' He') as (x2 & y2 & F1 & F2 & F3 & F4).
  assert (x1 = x) by congruence. assert (y1 = y) by congruence.
  assert (x2 = x') by congruence. assert (y2 = y') by congruence. subst.
  unfold g_width, g_depth. rewrite !(val_sub A E).
  split; apply Rabs_le; lra.
Qed.

(** C22 with its error bound *)
Lemma unsplit_close : forall s c (a : args A) (m : mstate A), command_name s = Some c ->
  first_is "G" c = true -> c <> "G20"%string -> m_imperial m = false ->
  exists m' l', motion_step m (new_line (unsplit_text c a)) = Ok (m', l') /\
    command l' = Some c /\
    forall k, match get_arg k a, get_arg k (largs l') with
              | Some x, Some y => Rabs (val y - val x) <= / 2 / 10 ^ (decimals k)
              | None, None => True
              | _, _ => False
              end.
Proof.
  intros s c a m H1 H2 H3 H4.
  destruct (unsplit_reads s c a m H1 H2 H3 H4 (exact_finite E a)) as (m' & l' & G1 & G2 & _ & G4).
  exists m', l'. split; [exact G1|]. split; [exact G2|]. intros k. rewrite G4, get_rounded.
  destruct (get_arg k a); cbn [option_map]; [apply py_round_err|exact I].
Qed.

End Exactly.
End Generic.

(** ** Witnesses *)

Definition numx (o : option (num B64)) (n : N) (k : nat) : bool :=
  match o with Some x => n_eqb x (lit n k) | None => false end.

Lemma eq_refuted : exists g h : gcode B64,
  load_gen false home0 ["G1 X1"; "M84"]%string = Ok g /\ load_gen false home0 ["G1 X1"]%string = Ok h /\
  gcode_eqb g h = true /\ gcode_eqb h g = false /\
  map command (commands_of g) = [Some "G1"; Some "M84"]%string /\
  map command (commands_of h) = [Some "G1"]%string.
Proof.
  eexists _, _. split; [apply loadF_ok; vm_compute; reflexivity|].
  split; [apply loadF_ok; vm_compute; reflexivity|].
  repeat split; vm_compute; reflexivity.
Qed.

Lemma diff_refuted : exists g h : gcode B64,
  load_gen false home0 ["G1 X1"; "M84"; "M106"]%string = Ok g /\ load_gen false home0 ["G1 X1"]%string = Ok h /\
  diff g h = Some (DiffSelf "M106").
Proof.
  eexists _, _. split; [apply loadF_ok; vm_compute; reflexivity|].
  split; [apply loadF_ok; vm_compute; reflexivity|].
  vm_compute; reflexivity.
Qed.

Definition loadL (data : list string) : gcode B64 :=
  get empty_program (load_gen (A:=B64) true home0 data).

Lemma light_refuted : exists g h g' h' : gcode B64,
  load_gen false home0 ["G1 X1"]%string = Ok g /\ load_gen false home0 ["M84"; "M106"]%string = Ok h /\
  load_gen true home0 ["G1 X1"]%string = Ok g' /\ load_gen true home0 ["M84"; "M106"]%string = Ok h' /\
  gcode_eqb g h = false /\ gcode_eqb g' h' = true.
Proof.
  eexists _, _, (loadL ["G1 X1"]%string), (loadL ["M84"; "M106"]%string).
  split; [apply loadF_ok; vm_compute; reflexivity|].
  split; [apply loadF_ok; vm_compute; reflexivity|].
  split; [apply is_ok_get; vm_compute; reflexivity|].
  split; [apply is_ok_get; vm_compute; reflexivity|].
  split; vm_compute; reflexivity.
Qed.

(** nothing is printed at Z = 2, yet zmax = 2; and printing at Z = 6 is missed *)
Definition printed_at (g : gcode B64) (n : N) : bool :=
  existsb (fun l => match t_extruding (lnotes l) with
                    | Some true => numx (t_z (lnotes l)) n 0 | _ => false end) (g_lines g).

Lemma zmax_refuted : exists g h : gcode B64,
  load_gen false home0 ["G1 Z1"; "G1 X1 E1"; "G1 Z1.001"; "G1 X2 E2"; "G1 Z1.002"; "G1 Z2"; "G1 Z3"]%string = Ok g /\
  printed_at g 2 = false /\ n_eqb (g_zmax g) (lit 2 0) = true /\
  load_gen false home0 ["G1 Z5"; "G1 X1 Z6 E1"]%string = Ok h /\
  printed_at h 6 = true /\ n_eqb (g_zmax h) (lit 5 0) = true.
Proof.
  eexists _, _. split; [apply loadF_ok; vm_compute; reflexivity|].
  split; [vm_compute; reflexivity|]. split; [vm_compute; reflexivity|].
  split; [apply loadF_ok; vm_compute; reflexivity|].
  split; vm_compute; reflexivity.
Qed.

(** an arc given by its radius loses the radius and the comment *)
Lemma rewrite_refuted : exists (m : mstate B64) l,
  motion_step (init_mstate home0) (new_line "G2 X1 Y1 R5 ; arc") = Ok (m, l) /\
  raw (unsplit l) = "G2 X1.000 Y1.000"%string.
Proof.
  set (r := motion_step (A:=B64) (init_mstate home0) (new_line "G2 X1 Y1 R5 ; arc")).
  exists (fst (get (init_mstate home0, new_line "") r)), (snd (get (init_mstate home0, new_line "") r)).
  split.
  - rewrite <- surjective_pairing. apply is_ok_get. vm_compute. reflexivity.
  - vm_compute. reflexivity.
Qed.

(** in inch mode a rewritten move goes 25.4 times as far *)
Lemma rewrite_inch_refuted : exists (m m1 m2 : mstate B64) l l1 l2,
  motion_step (init_mstate home0) (new_line "G20") = Ok (m, l) /\
  motion_step m (new_line "G1 X1") = Ok (m1, l1) /\
  motion_step m (new_line (raw (unsplit l1))) = Ok (m2, l2) /\
  raw (unsplit l1) = "G1 X25.400"%string /\
  numx (a_x (largs l1)) 254 1 = true /\ numx (a_x (largs l2)) 64516 2 = true.
Proof.
  set (d := (init_mstate (A:=B64) home0, new_line (A:=B64) "")).
  set (r := get d (motion_step (A:=B64) (init_mstate home0) (new_line "G20"))).
  set (r1 := get d (motion_step (fst r) (new_line "G1 X1"))).
  set (r2 := get d (motion_step (fst r) (new_line (raw (unsplit (snd r1)))))).
  exists (fst r), (fst r1), (fst r2), (snd r), (snd r1), (snd r2).
  split; [rewrite <- surjective_pairing; apply is_ok_get; vm_compute; reflexivity|].
  split; [rewrite <- surjective_pairing; apply is_ok_get; vm_compute; reflexivity|].
  split; [rewrite <- surjective_pairing; apply is_ok_get; vm_compute; reflexivity|].
  repeat split; vm_compute; reflexivity.
Qed.

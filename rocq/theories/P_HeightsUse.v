(** * P_HeightsUse: printed heights in exact arithmetic and with doubles; samples *)
From Coq Require Import List Ascii String ZArith NArith Bool Lia Reals Lra Permutation Floats.SpecFloat.
From Flocq Require Import Core BinarySingleNaN.
From Verif Require Import PyBase Arith ArithQ ArithB64 Gcoder Summary SpecText SpecLoad SpecMachine SpecMeasure SpecHeights SpecBinary64 Samples.
From Verif Require Import P_Load P_Machine P_MachineRefuted P_Measure P_Layers P_Format P_Heights.
From Verif Require Import P_Float P_FloatText P_FloatHypot P_FloatStretch P_FloatStretchWhole.
Import ListNotations.
Local Open Scope list_scope.
Local Open Scope R_scope.

Lemma count_distinct : forall T (zs hs : list T) (P : T -> Prop), NoDup zs -> (forall h, In h zs <-> P h) ->
  NoDup hs -> (forall h, In h hs <-> P h) -> List.length zs = List.length hs.
Proof.
  intros T zs hs P D1 H1 D2 H2. apply Permutation_length, NoDup_Permutation; [exact D1|exact D2|].
  intros h. rewrite H1, H2. reflexivity.
Qed.

Section Exact.
Context {A : arith} (E : exact A).

Lemma round2_exact : forall x : num A, True -> True /\ Rabs (val E (py_round 2 x) - val E x) <= / 190.
Proof. intros x _. split; [exact I|]. pose proof (py_round_err E 2 x) as H. cbn [pow] in H. lra. Qed.

Lemma far_exact : forall x y : num A, True -> True -> / 80 <= Rabs (val E x - val E y) -> n_ltb (n_abs (n_sub x y)) (lit 1 2) = false.
Proof.
  intros x y _ _ H. destruct (n_ltb _ _) eqn:L; [|reflexivity]. exfalso. apply (val_ltb A E) in L.
  rewrite (val_abs A E), (val_sub A E) in L. unfold lit in L. rewrite (val_of_dec A E) in L. cbn in L. lra.
Qed.

Lemma load_tall_exact : forall home data (g : gcode A), load_gen false home data = Ok g ->
  spaced (val E) (g_lines g) ->
  NoDup (map (option_map (val E)) (g_zs g)) /\
  (level (val E) (g_lines g) -> forall h, In h (map (option_map (val E)) (g_zs g)) <-> prints_at (val E) (g_lines g) h) /\
  forall i, (i < List.length (g_lines g))%nat -> nth_error (g_lidx g) i = Some (changes (firstn (S i) (g_lines g))).
Proof.
  intros home data g H Hs.
  apply (load_tall (val E) (fun _ => True) (fun _ => True) (fun _ H => H) (fun x y _ _ => val_eqb A E x y) round2_exact far_exact home data g H); try assumption.
  intros i x _. exact I.
Qed.

Lemma layers_exact : forall home data (g : gcode A), load_gen false home data = Ok g ->
  level (val E) (g_lines g) -> spaced (val E) (g_lines g) ->
  forall hs, NoDup hs -> (forall h, In h hs <-> prints_at (val E) (g_lines g) h) -> layers_count g = List.length hs.
Proof.
  intros home data g H Hl Hs hs D Hh. destruct (load_tall_exact home data g H Hs) as (D1 & H1 & _). specialize (H1 Hl).
  unfold layers_count. rewrite <- (map_length (option_map (val E))). exact (count_distinct _ _ _ _ D1 H1 D Hh).
Qed.

Lemma numbered_exact : forall home data (g : gcode A), load_gen false home data = Ok g ->
  spaced (val E) (g_lines g) ->
  forall i, (i < List.length (g_lines g))%nat -> nth_error (g_lidx g) i = Some (changes (firstn (S i) (g_lines g))).
Proof. intros home data g H Hs. apply (load_tall_exact home data g H Hs). Qed.
End Exact.

(** ** Doubles *)
Definition in_million (x : num B64) : Prop := fin x /\ Rabs (fval x) <= 1000000.
Definition in_two (x : num B64) : Prop := fin x /\ Rabs (fval x) <= 1100000.

Lemma in_two_weak : forall x, in_million x -> in_two x.
Proof. intros x [F H]. split; [exact F|lra]. Qed.

Lemma round2_B64 : forall x, in_million x -> in_two (py_round (A:=B64) 2 x) /\ Rabs (fval (py_round (A:=B64) 2 x) - fval x) <= / 190.
Proof.
  intros x [F H]. destruct (round_near 2 x F ltac:(lia) ltac:(lra)) as [F' K]. cbn [pow] in K. split; [|lra]. split; [exact F'|].
  apply Rabs_le_both in K. apply Rabs_le_both in H. apply Rabs_le. lra.
Qed.

Lemma fabs_val : forall x, fin x -> fin (SFabs x) /\ fval (SFabs x) = Rabs (fval x).
Proof.
  intros x F. apply fin_B in F as (b & -> & Fb & ->). change (SFabs (B2SF b)) with (SFabs (B2SF b)).
  assert (E : SFabs (B2SF b) = B2SF (Babs b)) by (destruct b; reflexivity). rewrite E.
  split; [split; [apply valid_binary_B2SF|rewrite is_finite_SF_B2SF, is_finite_Babs; exact Fb]|].
  unfold fval. rewrite !SF2R_B2SF. apply B2R_Babs.
Qed.

Lemma sub_B64 : forall x y, in_million x -> in_two y -> fin (n_abs (a:=B64) (n_sub x y)) /\
  Rabs (fval (n_abs (a:=B64) (n_sub x y)) - Rabs (fval x - fval y)) <= / 4000000000.
Proof.
  intros x y [Fx Hx] [Fy Hy].
  assert (Hd : Rabs (fval x - fval y) <= 2100000).
  { apply Rabs_le_both in Hx. apply Rabs_le_both in Hy. apply Rabs_le. lra. }
  destruct (fsub_val x y Fx Fy) as [F V]; [apply million_big; lra|].
  destruct (fabs_val _ F) as [Fa Va]. split; [exact Fa|]. change (n_abs (a:=B64) (n_sub x y)) with (SFabs (fsub x y)). rewrite Va, V.
  eapply Rle_trans; [apply Rabs_triang_inv2|]. apply rnd_between, Hd.
Qed.

Lemma lit_near : forall m k, Rabs (dval false m k) <= 10 -> fin (lit (A:=B64) m k) /\ Rabs (fval (lit (A:=B64) m k) - dval false m k) <= / 4000000000.
Proof.
  intros m k H. destruct (f_of_dec_val false m k) as [F V]; [apply million_big; lra|]. split; [exact F|].
  change (lit (A:=B64) m k) with (f_of_dec false m k). rewrite V. apply rnd_between. lra.
Qed.

Lemma far_B64 : forall x y, in_million x -> in_two y -> / 80 <= Rabs (fval x - fval y) -> n_ltb (a:=B64) (n_abs (n_sub x y)) (lit 1 2) = false.
Proof.
  intros x y Hx Hy H. destruct (sub_B64 x y Hx Hy) as [F K]. destruct (lit_near 1 2) as [F1 K1].
  { unfold dval. cbn. rewrite Rabs_pos_eq; lra. }
  destruct (n_ltb _ _) eqn:L; [|reflexivity]. exfalso. apply (fltb_val _ _ F F1) in L.
  assert (Ed : dval false 1 2 = / 100) by (unfold dval; cbn; lra). rewrite Ed in K1.
  apply Rabs_le_both in K. apply Rabs_le_both in K1. lra.
Qed.

Lemma load_tall_B64 : forall home data (g : gcode B64), load_gen false home data = Ok g ->
  (forall i z, z_after (firstn i (g_lines g)) = Some z -> in_million z) -> spaced fval (g_lines g) ->
  NoDup (map (option_map fval) (g_zs g)) /\
  (level fval (g_lines g) -> forall h, In h (map (option_map fval) (g_zs g)) <-> prints_at fval (g_lines g) h) /\
  forall i, (i < List.length (g_lines g))%nat -> nth_error (g_lidx g) i = Some (changes (firstn (S i) (g_lines g))).
Proof.
  intros home data g H Ho Hs.
  apply (load_tall (A:=B64) fval in_million in_two in_two_weak (fun x y Hx Hy => feqb_val x y (proj1 Hx) (proj1 Hy)) round2_B64 far_B64 home data g H); try assumption.
Qed.

Lemma layers_B64 : forall home data (g : gcode B64), load_gen false home data = Ok g ->
  (forall i z, z_after (firstn i (g_lines g)) = Some z -> fin z /\ Rabs (fval z) <= 1000000) ->
  level fval (g_lines g) -> spaced fval (g_lines g) ->
  forall hs, NoDup hs -> (forall h, In h hs <-> prints_at fval (g_lines g) h) -> layers_count g = List.length hs.
Proof.
  intros home data g H Ho Hl Hs hs D Hh. destruct (load_tall_B64 home data g H Ho Hs) as (D1 & H1 & _). specialize (H1 Hl).
  unfold layers_count. rewrite <- (map_length (option_map fval)). exact (count_distinct _ _ _ _ D1 H1 D Hh).
Qed.

Lemma numbered_B64 : forall home data (g : gcode B64), load_gen false home data = Ok g ->
  (forall i z, z_after (firstn i (g_lines g)) = Some z -> fin z /\ Rabs (fval z) <= 1000000) ->
  spaced fval (g_lines g) ->
  forall i, (i < List.length (g_lines g))%nat -> nth_error (g_lidx g) i = Some (changes (firstn (S i) (g_lines g))).
Proof. intros home data g H Ho Hs. apply (load_tall_B64 home data g H Ho Hs). Qed.

(** ** Checking the hypotheses of a sample *)
Section Checks.
Context {A : arith}.
Definition upto_all (P : nat -> bool) (ls : list (line A)) : bool := forallb P (seq 0 (S (List.length ls))).
Definition levelb (ls : list (line A)) : bool :=
  upto_all (fun i => match option_map (fun l => t_extruding (lnotes l)) (nth_error ls i) with
                     | Some (Some true) => opt_eqb (z_after (firstn (S i) ls)) (z_after (firstn i ls))
                     | _ => true
                     end) ls.
Definition spacedb (ls : list (line A)) : bool :=
  upto_all (fun i => match z_after (firstn i ls), z_after (firstn (S i) ls) with
                     | Some z, Some z' => n_eqb z' z || n_leb (lit 3 2) (n_abs (n_sub z' z))
                     | _, _ => true
                     end) ls.

Lemma upto_all_ok : forall (P : nat -> bool) ls, upto_all P ls = true -> forall i, (i <= List.length ls)%nat -> P i = true.
Proof. intros P ls H i Hi. unfold upto_all in H. rewrite forallb_forall in H. apply H, in_seq. lia. Qed.

Variable v : num A -> R.
Variable ok : num A -> Prop.
Hypothesis eq_v : forall x y, ok x -> ok y -> (n_eqb x y = true <-> v x = v y).
Hypothesis gap_v : forall x y, ok x -> ok y -> n_leb (lit 3 2) (n_abs (n_sub x y)) = true -> / 50 <= Rabs (v x - v y).

Lemma levelb_ok : forall ls, (forall i z, z_after (firstn i ls) = Some z -> ok z) -> levelb ls = true -> level v ls.
Proof.
  intros ls Ho H i l Hn He.
  assert (Hi : (i < List.length ls)%nat) by (apply nth_error_Some; congruence).
  pose proof (upto_all_ok _ _ H i ltac:(lia)) as K. cbv beta in K. rewrite Hn in K. cbn [option_map] in K. rewrite He in K.
  pose proof (Ho i) as O1. pose proof (Ho (S i)) as O2.
  destruct (z_after (firstn (S i) ls)) as [z'|], (z_after (firstn i ls)) as [z|]; try discriminate K; [|reflexivity].
  cbn in K. apply (eq_v _ _ (O2 z' eq_refl) (O1 z eq_refl)) in K. cbn. now rewrite K.
Qed.

Lemma spacedb_ok : forall ls, (forall i z, z_after (firstn i ls) = Some z -> ok z) -> spacedb ls = true -> spaced v ls.
Proof.
  intros ls Ho H i z z' Hz Hz'. destruct (Nat.le_gt_cases i (List.length ls)) as [Hi|Hi].
  - pose proof (upto_all_ok _ _ H i Hi) as K. cbv beta in K. rewrite Hz, Hz' in K. apply orb_true_iff in K as [K|K].
    + left. apply eq_v; [exact (Ho _ _ Hz')|exact (Ho _ _ Hz)|exact K].
    + right. apply gap_v; [exact (Ho _ _ Hz')|exact (Ho _ _ Hz)|exact K].
  - left. rewrite firstn_all2 in Hz by lia. rewrite firstn_all2 in Hz' by lia. congruence.
Qed.
End Checks.

Lemma cubeQ_level : level (val exactQ) (g_lines cubeQ).
Proof.
  apply (levelb_ok (val exactQ) (fun _ => True) (fun x y _ _ => val_eqb QA exactQ x y)); [intros; exact I|].
  vm_compute. reflexivity.
Qed.

Lemma gap_exact : forall {A} (E : exact A) (x y : num A), True -> True -> n_leb (lit 3 2) (n_abs (n_sub x y)) = true -> / 50 <= Rabs (val E x - val E y).
Proof.
  intros A E x y _ _ H. apply (val_leb A E) in H. rewrite (val_abs A E), (val_sub A E) in H. unfold lit in H. rewrite (val_of_dec A E) in H. cbn in H. lra.
Qed.

Lemma cubeQ_spaced : spaced (val exactQ) (g_lines cubeQ).
Proof.
  apply (spacedb_ok (val exactQ) (fun _ => True) (fun x y _ _ => val_eqb QA exactQ x y) (gap_exact exactQ)); [intros; exact I|].
  vm_compute. reflexivity.
Qed.

Definition in_millionb (x : num B64) : bool :=
  valid_binary prec emax x && is_finite_SF x && n_leb (a:=B64) (n_abs x) (lit 1000 0).

Lemma in_millionb_ok : forall x, in_millionb x = true -> in_million x.
Proof.
  intros x H. apply andb_true_iff in H as [H H3]. apply andb_true_iff in H as [H1 H2].
  assert (F : fin x) by (split; assumption). split; [exact F|].
  destruct (f_of_dec_val false 1000 0) as [Fl Vl]; [apply million_big; unfold dval; cbn; rewrite Rabs_pos_eq; lra|].
  destruct (fabs_val _ F) as [Fa Va]. apply (fleb_val _ _ Fa Fl) in H3. rewrite Va in H3.
  change (fval (lit (A:=B64) 1000 0)) with (fval (f_of_dec false 1000 0)) in H3. rewrite Vl in H3.
  assert (Hd : dval false 1000 0 = 1000) by (unfold dval; cbn; lra). rewrite Hd in H3.
  pose proof (Rabs_le_both _ _ (rnd_between 1000 ltac:(rewrite Rabs_pos_eq; lra))). lra.
Qed.

Lemma gap_B64 : forall x y, in_million x -> in_million y -> n_leb (a:=B64) (lit 3 2) (n_abs (n_sub x y)) = true -> / 50 <= Rabs (fval x - fval y).
Proof.
  intros x y Hx Hy L. destruct (sub_B64 x y Hx (in_two_weak _ Hy)) as [F K]. destruct (lit_near 3 2) as [F1 K1].
  { unfold dval. cbn. rewrite Rabs_pos_eq; lra. }
  apply (fleb_val _ _ F1 F) in L.
  assert (Ed : dval false 3 2 = 3 / 100) by (unfold dval; cbn; lra). rewrite Ed in K1.
  apply Rabs_le_both in K. apply Rabs_le_both in K1. lra.
Qed.

Lemma cubeF_heights : forall i z, z_after (firstn i (g_lines cubeF)) = Some z -> in_million z.
Proof.
  assert (H : upto_all (fun i => match z_after (firstn i (g_lines cubeF)) with Some z => in_millionb z | None => true end) (g_lines cubeF) = true)
    by (vm_compute; reflexivity).
  intros i z Hz. apply in_millionb_ok.
  destruct (Nat.le_gt_cases i (List.length (g_lines cubeF))) as [Hi|Hi].
  - pose proof (upto_all_ok _ _ H i Hi) as K. cbv beta in K. rewrite Hz in K. exact K.
  - rewrite firstn_all2 in Hz by lia. pose proof (upto_all_ok _ _ H (List.length (g_lines cubeF)) ltac:(lia)) as K. cbv beta in K.
    rewrite firstn_all, Hz in K. exact K.
Qed.

Lemma cubeF_level : level fval (g_lines cubeF).
Proof.
  apply (levelb_ok (A:=B64) fval in_million (fun x y Hx Hy => feqb_val x y (proj1 Hx) (proj1 Hy))); [exact cubeF_heights|].
  vm_compute. reflexivity.
Qed.
Lemma cubeF_spaced : spaced fval (g_lines cubeF).
Proof.
  apply (spacedb_ok (A:=B64) fval in_million (fun x y Hx Hy => feqb_val x y (proj1 Hx) (proj1 Hy)) gap_B64); [exact cubeF_heights|].
  vm_compute. reflexivity.
Qed.

(** a spiral, and layers a hundredth apart *)
Lemma spiral_refuted : exists g : gcode B64,
  load_gen false home0 ["G1 Z1"; "G1 X1 E1"; "G1 X2 Z2 E2"]%string = Ok g /\
  printed_texts (g_lines g) = ["1.00"; "2.00"]%string /\ layers_count g = 1%nat.
Proof. eexists. split; [apply loadF_ok; vm_compute; reflexivity|]. split; vm_compute; reflexivity. Qed.

Lemma close_refuted : exists g : gcode B64,
  load_gen false home0 ["G1 Z0.2"; "G1 X1 E1"; "G1 Z0.21"; "G1 X2 E2"; "G1 Z0.22"; "G1 X3 E3"]%string = Ok g /\
  printed_texts (g_lines g) = ["0.20"; "0.21"; "0.22"]%string /\ layers_count g = 2%nat.
Proof. eexists. split; [apply loadF_ok; vm_compute; reflexivity|]. split; vm_compute; reflexivity. Qed.

(** * P_LayersKeptNum: the layers of a filtered program, over the reals and for doubles *)
From Coq Require Import List Ascii String ZArith NArith Bool Reals Lia Lra.
From Flocq Require Import Core BinarySingleNaN.
From Verif Require Import PyBase Arith ArithR ArithB64 Gcoder Filters SpecText SpecLoad SpecMachine SpecMod SpecEqual SpecFilter SpecBinary64 SpecBox SpecLayersKept.
From Verif Require Import P_Text P_Format P_Load P_Machine P_Measure P_Filter P_FilterMotion P_ArcPath P_Mod P_Float P_FloatText P_FloatMotion P_FloatMod P_FloatTempcal P_FloatWrite P_Compose P_BoxRelative P_LayersKept.
Import ListNotations.
Local Open Scope list_scope.
Local Open Scope R_scope.

Lemma metric_named : forall ss, metric ss -> Forall (fun s => command_name s <> Some "G20"%string) ss.
Proof.
  intros ss H. eapply Forall_impl; [|exact H]. intros s Hs Hc. apply Hs. unfold op_of. rewrite Hc. reflexivity.
Qed.

Lemma grid_same : forall (m n : BinNums.Z) t, 0 < t -> Rabs (IZR m / t - IZR n / t) < / t -> m = n.
Proof.
  intros m n t Ht H. replace (IZR m / t - IZR n / t) with (IZR (m - n) / t) in H by (rewrite minus_IZR; field; lra).
  unfold Rdiv in H. rewrite Rabs_mult, (Rabs_pos_eq (/ t)) in H by (left; apply Rinv_0_lt_compat; exact Ht).
  assert (K : Rabs (IZR (m - n)) < 1).
  { apply Rmult_lt_reg_r with (/ t); [apply Rinv_0_lt_compat; exact Ht|lra]. }
  rewrite <- abs_IZR in K. apply lt_IZR in K. lia.
Qed.

(** ** Over the reals *)

Lemma round_short : forall d (n : BinNums.Z), py_round (A:=RA) d (IZR n / 10 ^ d) = IZR n / 10 ^ d.
Proof.
  intros d n. destruct (round_grid d (IZR n / 10 ^ d)) as (m & Hm). rewrite Hm.
  pose proof (py_round_err exactR d (IZR n / 10 ^ d)) as He. cbn [val exactR] in He. rewrite Hm in He.
  assert (Hp : 0 < 10 ^ d) by (apply pow_lt; lra). pose proof (Rinv_0_lt_compat _ Hp).
  replace m with n; [reflexivity|]. symmetry. apply (grid_same m n (10 ^ d) Hp). lra.
Qed.

Lemma rewritten_g : forall l : line RA, rewritten l -> exists c, command l = Some c /\ first_is "G" c = true /\ words c <> [].
Proof.
  intros l Hg. unfold rewritten, is_motion, is_command in Hg. destruct (command l) as [c|]; [|destruct Hg; discriminate].
  exists c. split; [reflexivity|]. destruct Hg as [Hg|Hg].
  - apply str_mem_in in Hg. cbn [In] in Hg. repeat (destruct Hg as [<-|Hg]; [split; [reflexivity|discriminate]|]). destruct Hg.
  - apply String.eqb_eq in Hg. subst c. split; [reflexivity|discriminate].
Qed.

Lemma real_short : forall s (l : line RA) k d, reads exactR s l -> rewritten l -> short_word d (letter_code k) s ->
  forall z, get_arg k (largs l) = Some z -> py_round d z = z.
Proof.
  intros s l k d (_ & Hc & Ha) Hw Hs z Hz. destruct (rewritten_g l Hw) as (c & Ec & Hg & Hn).
  rewrite Ec in Hc. destruct Hc as [Hc|(_ & Hx & Hc)]; [|congruence].
  destruct (Ha c (eq_sym Hc) Hg) as [_ Hk]. specialize (Hk k). rewrite Hz in Hk. cbn [option_map val exactR] in Hk.
  destruct (Hs z (eq_sym Hk)) as (n & ->). apply round_short.
Qed.

Lemma zipped : forall (X Y W : Type) (P : X -> Y -> Prop) (Q : X -> Prop) (S : Y -> W -> Prop) (T : W -> Prop) xs ys ws,
  Forall2 P xs ys -> Forall Q xs -> List.length ys = List.length ws -> Forall T ws ->
  (forall x y w, P x y -> Q x -> T w -> S y w) -> Forall2 S ys ws.
Proof.
  intros X Y W P Q S T xs ys ws H. revert ws. induction H as [|x y xs ys Hp _ IH]; intros ws Hq Hl Ht Hs.
  - destruct ws; [constructor|discriminate Hl].
  - destruct ws as [|w ws]; [discriminate Hl|]. inversion Hq; subst. inversion Ht; subst. injection Hl as Hl. constructor; eauto.
Qed.

Lemma answers_length : forall (A : arith) St (f : St -> line A -> St * fresult (A:=A)) ls st,
  List.length (answers f st ls) = List.length ls.
Proof. intros A St f. induction ls as [|l ls IH]; intros st; [reflexivity|]. cbn. now rewrite IH. Qed.

Lemma real_pairs : forall home data (g : gcode RA) k d ls, load_gen false home data = Ok g -> metric (program_text data) ->
  Forall (short_word d (letter_code k)) (program_text data) -> List.length ls = List.length (g_lines g) ->
  Forall2 (fun l (l' : line RA) => rewritten l -> finite_args (largs l') /\ forall z, get_arg k (largs l) = Some z -> py_round d z = z)
    (g_lines g) ls.
Proof.
  intros home data g k d ls Hg Hm Hs Hl. pose proof (load_reads exactR home data g Hg Hm) as Hr. rewrite (load_all_lines _ _ _ _ Hg) in Hr.
  refine (zipped _ _ _ _ _ _ (fun _ => True) _ _ _ Hr Hs (eq_sym Hl) _ _).
  - apply Forall_forall. trivial.
  - intros s l l' R S _ W. split; [apply (exact_finite exactR)|]. apply (real_short s l k d R W S).
Qed.

Lemma translate_layers_R : forall home home' data x y (g g1 h : gcode RA), load_gen false home data = Ok g ->
  translate x y g = Ok g1 -> load_gen false home' (write g1) = Ok h -> metric (program_text data) ->
  Forall (short_word 3 "z") (program_text data) ->
  same_layers g h /\
  (Forall (short_word 5 "e") (program_text data) -> same_printing g h /\ same_heights g h /\ g_filament h = g_filament g).
Proof.
  intros home home' data x y g g1 h Hg H1 Hh Hm Hz. pose proof (metric_named _ Hm) as Hn.
  destruct (translated_text _ _ _ _ _ _ Hg H1) as [Ha _].
  assert (Hl : List.length (all_lines g1) = List.length (g_lines g)) by (rewrite Ha; apply answers_length).
  destruct (translate_layers _ _ _ _ _ _ _ _ Hg H1 Hh Hn (real_pairs _ _ _ LZ 3 _ Hg Hm Hz Hl)) as [L1 L2].
  split; [exact L1|]. intros He.
  destruct (translate_twin _ _ _ _ _ _ _ _ Hg H1 Hh Hn (real_pairs _ _ _ LE 5 _ Hg Hm He Hl)) as [P1 P2]. auto.
Qed.

Lemma relative_layers_R : forall home home' data (g g1 h : gcode RA), load_gen false home data = Ok g ->
  to_relative_extrusion g = Ok g1 -> load_gen false home' (write g1) = Ok h -> metric (program_text data) ->
  Forall (short_word 3 "z") (program_text data) ->
  same_layers g h /\ (same_printing g h -> same_heights g h).
Proof.
  intros home home' data g g1 h Hg H1 Hh Hm Hz. pose proof (metric_named _ Hm) as Hn.
  destruct (converted_text _ _ _ _ Hg H1) as [Ha _].
  assert (Hl : List.length (all_lines g1) = List.length (g_lines g)) by (rewrite Ha; apply answers_length).
  apply (relative_layers _ _ _ _ _ _ Hg H1 Hh Hn (real_pairs _ _ _ LZ 3 _ Hg Hm Hz Hl)).
Qed.

(** ** For doubles *)

Lemma fval_zero : forall x : num B64, fin x -> fval x = 0 -> exists s, x = SpecFloat.S754_zero s.
Proof.
  intros x [V F] H. destruct x as [s|s| |s p e]; try discriminate F; [exists s; reflexivity|].
  exfalso. unfold fval in H. cbn [SF2R] in H. apply eq_0_F2R in H. destruct s; discriminate H.
Qed.

Lemma round_short_B64 : forall d (n : BinNums.Z) (x : num B64), (d = 3 \/ d = 5)%nat -> holds (IZR n / 10 ^ d) x -> py_round (A:=B64) d x = x.
Proof.
  intros d n x Hd (H1 & H2 & H3).
  assert (Hp : 1 <= 10 ^ d <= 100000) by (destruct Hd as [->| ->]; cbn [pow]; lra).
  destruct (Z.eq_dec n 0) as [->|Hn].
  - replace (0 / 10 ^ d) with 0 in H3 by (field; lra). rewrite rnd_0 in H3.
    destruct (fval_zero x H2 H3) as [s ->]. destruct Hd as [->| ->]; reflexivity.
  - set (neg := Z.ltb n 0). set (m := Z.abs_N n).
    assert (Hv : dval neg m d = IZR n / 10 ^ d).
    { unfold dval, neg, m. rewrite N2Z.inj_abs_N. destruct (Z.ltb_spec n 0) as [K|K].
      - rewrite Z.abs_neq by lia. rewrite opp_IZR. field. lra.
      - rewrite Z.abs_eq by lia. ring. }
    assert (Ha : Rabs (IZR n) <= 10 ^ 11).
    { replace (IZR n) with (IZR n / 10 ^ d * 10 ^ d) by (field; lra). rewrite Rabs_mult, (Rabs_pos_eq (10 ^ d)) by lra.
      replace (10 ^ 11) with (10 ^ 6 * 100000) by (cbn [pow]; lra). apply Rmult_le_compat; try lra. apply Rabs_pos. }
    assert (Hm : IZR (Z.of_N m) <= IZR (2 ^ 51)).
    { unfold m. rewrite N2Z.inj_abs_N, abs_IZR. eapply Rle_trans; [exact Ha|]. change (2 ^ 51)%Z with 2251799813685248%Z. cbn [pow]. lra. }
    assert (Hl : 1 <= Rabs (IZR n)) by (rewrite <- abs_IZR; apply IZR_le; lia).
    assert (Hy : x = f_of_dec neg m d).
    { destruct (f_of_dec_val neg m d) as [F V].
      { rewrite Hv. apply million_big. cbn [pow] in H1. lra. }
      apply fin_inj; [exact H2|exact F|rewrite V, Hv; exact H3|]. rewrite H3. intros Hz.
      pose proof (rnd_err (IZR n / 10 ^ d)) as Hr. rewrite Hz in Hr.
      replace (0 - IZR n / 10 ^ d) with (- (IZR n / 10 ^ d)) in Hr by ring. rewrite Rabs_Ropp in Hr.
      pose proof ulp1_small as U. pose proof tiny_small' as T. pose proof ulp1_pos as P.
      assert (Hq : / 100000 <= Rabs (IZR n / 10 ^ d)).
      { unfold Rdiv. rewrite Rabs_mult, (Rabs_pos_eq (/ 10 ^ d)) by (left; apply Rinv_0_lt_compat; lra).
        rewrite <- (Rmult_1_l (/ 100000)). apply Rmult_le_compat; try lra. apply Rinv_le_contravar; lra. }
      assert (ulp1 * Rabs (IZR n / 10 ^ d) <= / 2 * Rabs (IZR n / 10 ^ d)) by (apply Rmult_le_compat_r; [apply Rabs_pos|lra]).
      lra. }
    unfold py_round. rewrite Hy. change (n_dec (a:=B64) d (f_of_dec neg m d)) with (f_dec d (f_of_dec neg m d)).
    rewrite f_dec_of_dec; [reflexivity|destruct Hd; lia|exact Hm].
Qed.

Lemma freads_rewritten : forall s (l : line B64), freads s l -> rewritten l ->
  (forall k, held (number_of (letter_code k) (words s)) (get_arg k (largs l))) /\ all_fin (largs l) /\
  ((is_motion l = true /\ exists w e f, op_of s = Move w e f) \/
   (is_motion l = false /\ is_command "G92" l = true /\ exists w e, op_of s = SetPosition w e)).
Proof.
  intros s l Hr Hw. pose proof (freads_op s l Hr) as Ho. pose proof Hr as (_ & Hc & Ha).
  assert (Hg : exists c, command_name s = Some c /\ first_is "G" c = true).
  { unfold rewritten, is_motion, is_command in Hw. destruct Hc as [Hc|(_ & Hx & Hc)]; rewrite Hc in Hw.
    - destruct (command_name s) as [c|]; [|destruct Hw; discriminate]. exists c. split; [reflexivity|]. destruct Hw as [Hg|Hg].
      + apply str_mem_in in Hg. cbn [In] in Hg. repeat (destruct Hg as [<-|Hg]; [reflexivity|]). destruct Hg.
      + apply String.eqb_eq in Hg. subst c. reflexivity.
    - exfalso. destruct Hw as [Hg|Hg].
      + apply str_mem_in in Hg. cbn [In] in Hg. repeat (destruct Hg as [<-|Hg]; [discriminate Hx|]). destruct Hg.
      + apply String.eqb_eq in Hg. subst s. discriminate Hx. }
  destruct Hg as (c & Ec & Hg). destruct (Ha c Ec Hg) as [_ Hk]. split; [exact Hk|]. split.
  - intros k x Hx. specialize (Hk k). rewrite Hx in Hk. destruct (number_of _ _); [|destruct Hk]. apply Hk.
  - destruct (op_of s) as [w e f|w|w e| | | | | | |n|] eqn:Eop;
      try (left; split; [apply Ho|now eauto]); try (right; split; [apply Ho|]; split; [apply Ho|now eauto]);
      exfalso; destruct Hw as [Hw|Hw];
      first [ rewrite (is_command_motion _ _ Ho) in Hw; discriminate Hw
            | rewrite (is_command_eq _ _ _ Hw) in Ho; discriminate Ho
            | destruct Ho as (K1 & K2 & _); congruence ].
Qed.

Lemma ftr_fin : forall s (l : line B64) st, freads s l -> rewritten l -> modest_shift (tr_x st) -> modest_shift (tr_y st) ->
  all_fin (largs (answer tr_opcode st l)).
Proof.
  intros s l st Hr Hw Mx My. destruct (freads_rewritten s l Hr Hw) as (Hk & Hf & [(Hm & w & e & f & Ho)|(Hm & H92 & w & e & Ho)]).
  - destruct (tr_absolute st) as [[|]|] eqn:Ht.
    + apply (ftr_move_args s l st w e f Hr Ho Mx My Ht).
    + unfold answer, tr_opcode. rewrite cmd_in_motion, Hm, Ht. exact Hf.
    + unfold answer, tr_opcode. rewrite cmd_in_motion, Hm, Ht. exact Hf.
  - assert (Ox : fin (shift_opp (tr_x st))) by apply (got_opp _ Mx). assert (Oy : fin (shift_opp (tr_y st))) by apply (got_opp _ My).
    assert (Sx : forall v, l_x l = Some v -> fin (shift_sub v (tr_x st))).
    { intros v Hv. specialize (Hk LX). change (get_arg LX (largs l)) with (l_x l) in Hk. rewrite Hv in Hk.
      destruct (number_of _ _) as [r|]; [|destruct Hk]. apply (got_sub _ r _ Mx Hk). }
    assert (Sy : forall v, l_y l = Some v -> fin (shift_sub v (tr_y st))).
    { intros v Hv. specialize (Hk LY). change (get_arg LY (largs l)) with (l_y l) in Hk. rewrite Hv in Hk.
      destruct (number_of _ _) as [r|]; [|destruct Hk]. apply (got_sub _ r _ My Hk). }
    unfold answer, tr_opcode. rewrite !cmd_is_command, cmd_in_motion, Hm, H92.
    rewrite (is_command_eq _ "G90" _ H92), (is_command_eq _ "G91" _ H92).
    change (String.eqb "G92" "G90") with false. change (String.eqb "G92" "G91") with false. cbv iota.
    assert (Hput : forall j y (a : args B64), all_fin a -> fin y -> all_fin (put_arg j (Some y) a)).
    { intros j y a Ha Hy k x Hx. destruct (letter_eq_dec k j) as [->|NE].
      - destruct j; cbn in Hx; injection Hx as <-; exact Hy.
      - apply (Ha k x). destruct k, j; try congruence; exact Hx. }
    destruct (no_xyz l).
    + cbn [snd unsplit set_raw set_arg set_args largs]. apply Hput; [apply Hput; assumption|assumption].
    + destruct (l_x l) as [vx|] eqn:Ex, (l_y l) as [vy|] eqn:Ey; cbn [snd unsplit set_raw set_arg set_args largs];
        repeat apply Hput; auto.
Qed.

Lemma frel_fin : forall s (l : line B64) st u, freads s l -> rewritten l -> holds u (r_current st) ->
  all_fin (largs (answer rel_opcode st l)).
Proof.
  intros s l st u Hr Hw Hu. destruct (freads_rewritten s l Hr Hw) as (Hk & Hf & _).
  unfold answer, rel_opcode. rewrite !cmd_is_command, cmd_in_motion.
  destruct (is_command "M83" l); [exact Hf|].
  destruct (is_command "M82" l) eqn:H82.
  { exfalso. destruct Hw as [Hw|Hw]; [rewrite (is_command_motion _ _ H82) in Hw; discriminate Hw|].
    rewrite (is_command_eq _ "G92" _ H82) in Hw. discriminate Hw. }
  destruct (is_command "G92" l); [destruct (l_e l); [|destruct (no_xyz l)]; exact Hf|].
  destruct (is_motion l) eqn:Hm; cbn [andb]; [|exact Hf]. destruct (r_relative st); cbn [negb]; [exact Hf|].
  destruct (l_e l) as [x|] eqn:Ele; [|exact Hf]. cbn [snd unsplit raw set_raw command set_arg set_args mark_relative_e set_notes largs].
  specialize (Hk LE) as He. change (get_arg LE (largs l)) with (l_e l) in He. rewrite Ele in He.
  destruct (number_of _ _) as [v|]; [|destruct He].
  intros k y Hy. destruct (letter_eq_dec k LE) as [->|NE].
  - cbn in Hy. injection Hy as <-. apply (shown_sub v u _ _ He Hu).
  - apply (Hf k y). destruct k; try congruence; exact Hy.
Qed.

Lemma ftr_fins : forall ss (ls : list (line B64)), Forall2 freads ss ls -> forall st, modest_shift (tr_x st) -> modest_shift (tr_y st) ->
  Forall2 (fun l l' => rewritten l -> all_fin (largs l')) ls (answers tr_opcode st ls).
Proof.
  intros ss ls H. induction H as [|s l ss ls Hr _ IH]; intros st Mx My; cbn [answers]; constructor.
  - intros Hw. apply (ftr_fin s l st Hr Hw Mx My).
  - change (fst (tr_opcode st l)) with (tr_next st l). destruct (tr_next_modest st l Mx My). apply IH; assumption.
Qed.

Lemma frel_fins : forall ss (ls : list (line B64)), Forall2 freads ss ls -> forall st u, holds u (r_current st) ->
  Forall2 (fun l l' => rewritten l -> all_fin (largs l')) ls (answers rel_opcode st ls).
Proof.
  intros ss ls H. induction H as [|s l ss ls Hr _ IH]; intros st u Hu; cbn [answers]; constructor.
  - intros Hw. apply (frel_fin s l st u Hr Hw Hu).
  - destruct (frel_head_op s l st u Hr Hu) as (_ & u' & Hu'). apply (IH _ _ Hu').
Qed.

Lemma float_pairs : forall ss (ls ls' : list (line B64)) k d, Forall2 freads ss ls -> (d = 3 \/ d = 5)%nat ->
  Forall (short_word d (letter_code k)) ss -> Forall2 (fun l l' => rewritten l -> all_fin (largs l')) ls ls' ->
  Forall2 (fun l (l' : line B64) => rewritten l -> finite_args (largs l') /\ forall z, get_arg k (largs l) = Some z -> py_round d z = z) ls ls'.
Proof.
  intros ss ls ls' k d H Hd. revert ls'. induction H as [|s l ss ls Hr _ IH]; intros ls' Hs Hf; inversion Hf as [|? l' ? ls2 F1 F2]; subst; constructor.
  - intros Hw. split; [apply all_fin_finite, F1, Hw|]. intros z Hz. inversion Hs as [|? ? S1 _]; subst.
    destruct (freads_rewritten s l Hr Hw) as (Hk & _). specialize (Hk k). rewrite Hz in Hk.
    destruct (number_of (letter_code k) (words s)) as [v|] eqn:Ev; [|destruct Hk]. destruct (S1 v Ev) as (n & ->).
    apply (round_short_B64 d n z Hd Hk).
  - apply IH; [inversion Hs; assumption|exact F2].
Qed.

Lemma translate_layers_B64 : forall home home' data x y (g g1 h : gcode B64), load_gen false home data = Ok g ->
  translate x y g = Ok g1 -> load_gen false home' (write g1) = Ok h -> metric (program_text data) ->
  Forall modest (program_text data) -> modest_shift x -> modest_shift y ->
  Forall (short_word 3 "z") (program_text data) ->
  same_layers g h /\
  (Forall (short_word 5 "e") (program_text data) -> same_printing g h /\ same_heights g h /\ g_filament h = g_filament g).
Proof.
  intros home home' data x y g g1 h Hg H1 Hh Hm Hmo Mx My Hz. pose proof (metric_named _ Hm) as Hn.
  destruct (translated_text _ _ _ _ _ _ Hg H1) as [Ha _]. destruct (tr_init_modest x y Mx My) as [Nx Ny].
  pose proof (load_freads _ _ _ Hg Hm Hmo) as Hr. rewrite (load_all_lines _ _ _ _ Hg) in Hr.
  pose proof (ftr_fins _ _ Hr _ Nx Ny) as Hf. rewrite <- Ha in Hf.
  destruct (translate_layers _ _ _ _ _ _ _ _ Hg H1 Hh Hn (float_pairs _ _ _ LZ 3 Hr (or_introl eq_refl) Hz Hf)) as [L1 L2].
  split; [exact L1|]. intros He.
  destruct (translate_twin _ _ _ _ _ _ _ _ Hg H1 Hh Hn (float_pairs _ _ _ LE 5 Hr (or_intror eq_refl) He Hf)) as [P1 P2]. auto.
Qed.

Lemma relative_layers_B64 : forall home home' data (g g1 h : gcode B64), load_gen false home data = Ok g ->
  to_relative_extrusion g = Ok g1 -> load_gen false home' (write g1) = Ok h -> metric (program_text data) ->
  Forall modest (program_text data) -> Forall (short_word 3 "z") (program_text data) ->
  same_layers g h /\ (same_printing g h -> same_heights g h).
Proof.
  intros home home' data g g1 h Hg H1 Hh Hm Hmo Hz. pose proof (metric_named _ Hm) as Hn.
  destruct (converted_text _ _ _ _ Hg H1) as [Ha _].
  pose proof (load_freads _ _ _ Hg Hm Hmo) as Hr. rewrite (load_all_lines _ _ _ _ Hg) in Hr.
  pose proof (frel_fins _ _ Hr _ _ rel_init_holds) as Hf. rewrite <- Ha in Hf.
  apply (relative_layers _ _ _ _ _ _ Hg H1 Hh Hn (float_pairs _ _ _ LZ 3 Hr (or_introl eq_refl) Hz Hf)).
Qed.

(** ** The same lines print after a conversion *)

Lemma relative_printing : forall (A : arith) (E : exact A) home data (g g1 h : gcode A), load_gen false home data = Ok g ->
  to_relative_extrusion g = Ok g1 -> load_gen false home (write g1) = Ok h ->
  e_ready (program_text data) = true -> Forall no_rebase_e (program_text data) ->
  sharp (program_text data) (start (home_of E home)) -> same_printing g h.
Proof.
  intros A E home data g g1 h Hg H1 Hh Hr Hn Hs. pose proof (e_ready_inches _ _ Hr) as Hin.
  assert (Ht : program_text (write g1) = write g1).
  { apply tight_text, (relative_text _ _ H1), (load_tight _ _ _ _ Hg). }
  destruct (relative_pure _ _ H1) as (P1 & _).
  pose proof (rel_head_ops E _ _ (load_reads E _ _ _ Hg Hin) rel_init) as Hops. rewrite <- P1, <- write_all in Hops.
  assert (N' : Forall no_rebase_e (program_text (write g1))).
  { rewrite Ht. clear -Hops Hn. induction Hops as [|s s' ss ss' Ho _ IH]; [constructor|].
    inversion Hn; subst. constructor; [apply (rel_plain s s' Ho); assumption|now apply IH]. }
  pose proof (relative_same_feed E _ _ _ _ (home_of E home) Hg H1 Hr) as Hsf.
  assert (Hpr : forall i, prints (program_text (write g1)) (start (home_of E home)) i <-> prints (program_text data) (start (home_of E home)) i).
  { rewrite Ht. apply feed_sign; assumption. }
  destruct (load_extrusion E _ _ _ _ Hg Hn) as (_ & _ & _ & _ & Xg). specialize (Xg eq_refl).
  destruct (load_extrusion E _ _ _ _ Hh N') as (_ & _ & _ & _ & Xh). specialize (Xh eq_refl).
  assert (Tl : forall m ts (ls : list (line A)) m', trace m ts ls m' -> List.length ts = List.length ls).
  { intros m ts ls m' T. induction T as [|? ? ? ? ? ? ? _ _ IH]; [reflexivity|]. cbn. now rewrite IH. }
  assert (Hlen : List.length (g_lines g) = List.length (g_lines h)).
  { destruct (load_trace _ _ _ _ Hg) as (ls & T & L). destruct (load_trace _ _ _ _ Hh) as (ls' & T' & L').
    rewrite (L eq_refl), (L' eq_refl), <- (Tl _ _ _ _ T), <- (Tl _ _ _ _ T').
    rewrite Ht. symmetry. rewrite write_all, map_length, P1, answers_length, (load_all_lines _ _ _ _ Hg), (L eq_refl).
    symmetry. apply (Tl _ _ _ _ T). }
  unfold same_printing. revert Xg Xh Hlen. clear -Hpr. cbv zeta.
  assert (K : forall (u v : list (line A)) j,
    (forall i l, nth_error u i = Some l -> t_extruding (lnotes l) = Some true <-> prints (program_text data) (start (home_of E home)) (j + i)) ->
    (forall i l, nth_error v i = Some l -> t_extruding (lnotes l) = Some true <-> prints (program_text (write g1)) (start (home_of E home)) (j + i)) ->
    List.length u = List.length v -> Forall2 (fun l l' => is_printing l' = is_printing l) u v).
  { induction u as [|a u IH]; intros [|b v] j Xu Xv Hl; try discriminate Hl; constructor.
    - specialize (Xu 0%nat a eq_refl). specialize (Xv 0%nat b eq_refl). rewrite Hpr, <- Xu in Xv. unfold is_printing.
      destruct (t_extruding (lnotes a)) as [[|]|], (t_extruding (lnotes b)) as [[|]|]; try reflexivity; exfalso;
        first [now discriminate (proj2 Xv eq_refl)|now discriminate (proj1 Xv eq_refl)].
    - apply (IH v (S j)).
      + intros i l Hi. rewrite Nat.add_succ_comm. apply (Xu (S i) l Hi).
      + intros i l Hi. rewrite Nat.add_succ_comm. apply (Xv (S i) l Hi).
      + injection Hl as Hl. exact Hl. }
  intros Xg Xh Hlen. apply (K _ _ 0%nat); assumption.
Qed.

Lemma relative_layers_full : forall home data (g g1 h : gcode RA), load_gen false home data = Ok g ->
  to_relative_extrusion g = Ok g1 -> load_gen false home (write g1) = Ok h -> e_ready (program_text data) = true ->
  Forall (short_word 3 "z") (program_text data) ->
  same_layers g h /\
  (Forall no_rebase_e (program_text data) -> sharp (program_text data) (start (home_of exactR home)) ->
   same_printing g h /\ same_heights g h).
Proof.
  intros home data g g1 h Hg H1 Hh Hr Hz.
  destruct (relative_layers_R _ _ _ _ _ _ Hg H1 Hh (e_ready_inches _ _ Hr) Hz) as [L1 L2]. split; [exact L1|].
  intros Hn Hs. pose proof (relative_printing RA exactR _ _ _ _ _ Hg H1 Hh Hr Hn Hs) as Hp. auto.
Qed.

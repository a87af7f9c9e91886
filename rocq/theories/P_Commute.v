(** * P_Commute: the order of the filters (C117) *)
From Coq Require Import List Ascii String ZArith NArith Bool Lia Reals Lra.
From Verif Require Import PyBase Arith ArithR ArithB64 Gcoder Filters SpecText SpecLoad SpecMachine SpecFilter P_Wf P_Filter P_Measure.
Import ListNotations.
Local Open Scope list_scope.

Local Arguments unsplit_text : simpl never.
Local Opaque unsplit_text raw_to_line.

Section Order.
Context {A : arith}.

(** two programs with the same lines in the same frame *)
Lemma same_program : forall g h k : gcode A, same_frame g h -> same_frame g k -> blocks h = blocks k -> h = k.
Proof.
  intros g h k F1 F2 Hb. unfold same_frame in F1, F2.
  destruct F1 as (Z1 & D1 & F1), F2 as (Z2 & D2 & F2).
  assert (Hy : g_layers h = g_layers k).
  { rewrite <- Z2 in Z1. rewrite <- D2 in D1. unfold blocks in Hb. clear - Z1 D1 Hb. revert Z1 D1 Hb.
    generalize (g_layers k). generalize (g_layers h). clear.
    induction l as [|y ys IH]; intros [|z zs] Hz Hd Hl; try discriminate Hz; [reflexivity|].
    cbn [map] in Hz, Hd, Hl. injection Hz as Hz1 Hz2. injection Hd as Hd1 Hd2. injection Hl as Hl1 Hl2.
    f_equal; [|apply IH; assumption]. destruct y, z. cbn in *. congruence. }
  clear Z1 D1 Z2 D2 Hb. destruct h, k. cbn in *.
  decompose [and] F1. decompose [and] F2. clear F1 F2. subst. reflexivity.
Qed.

Lemma frame_trans : forall g h k : gcode A, same_frame g h -> same_frame h k -> same_frame g k.
Proof.
  intros g h k H1 H2. unfold same_frame in *. decompose [and] H1. decompose [and] H2. clear H1 H2.
  repeat match goal with |- _ /\ _ => split end; (etransitivity; [eassumption|eassumption]).
Qed.

Lemma blocks_lengths : forall (ns : list nat) (b : list (list (line A))) xs,
  b = chop ns xs -> (list_sum ns = List.length xs)%nat -> map (@List.length _) b = ns.
Proof. intros ns b xs -> H. apply chop_lengths. lia. Qed.

(** two passes over a program *)
Section Twice.
Context {S T : Type}.
Variable f : S -> line A -> S * fresult (A:=A).
Variable k : T -> line A -> T * fresult (A:=A).
Variable same : line A -> Prop.
Hypothesis swap : forall s t l, same l ->
  answer f s (answer k t l) = answer k t (answer f s l) /\
  fst (f s (answer k t l)) = fst (f s l) /\ fst (k t (answer f s l)) = fst (k t l).

Lemma answers_swap : forall ls s t, Forall same ls ->
  answers f s (answers k t ls) = answers k t (answers f s ls).
Proof.
  induction ls as [|l ls IH]; intros s t H; [reflexivity|]. inversion H as [|? ? Hl Hls]; subst.
  cbn [answers]. destruct (swap s t l Hl) as (H1 & H2 & H3). rewrite H1, H2, H3. f_equal. apply IH, Hls.
Qed.
End Twice.

(** a G92 that says something about a position or about E *)
Definition telling (l : line A) : Prop :=
  is_command "G92" l = true -> l_e l = None -> l_x l <> None \/ l_y l <> None \/ l_z l <> None.

Lemma filters_swap : forall (s : rstate (A:=A)) t l, telling l ->
  answer rel_opcode s (answer tr_opcode t l) = answer tr_opcode t (answer rel_opcode s l) /\
  fst (rel_opcode s (answer tr_opcode t l)) = fst (rel_opcode s l) /\
  fst (tr_opcode t (answer rel_opcode s l)) = fst (tr_opcode t l).
Proof.
  intros [r c] [tx ty ab] l Hl. unfold telling in Hl. unfold answer, rel_opcode, tr_opcode.
  repeat rewrite !cmd_is_command. repeat rewrite cmd_in_motion.
  destruct l as [rw [cm|] mv [ax ay az ae af ai aj] nt].
  2:{ cbn. auto. }
  unfold is_command, is_motion, cmd_is, cmd_in in *. cbn [command] in *.
  destruct (String.eqb cm "M83") eqn:E83. { apply String.eqb_eq in E83. subst cm. cbn. auto. }
  destruct (String.eqb cm "M82") eqn:E82. { apply String.eqb_eq in E82. subst cm. cbn. auto. }
  destruct (String.eqb cm "G92") eqn:E92.
  { apply String.eqb_eq in E92. subst cm. specialize (Hl eq_refl). unfold l_x, l_y, l_z, l_e in *. cbn [largs a_x a_y a_z a_e] in *.
    destruct ax, ay, az, ae; try (cbn; auto; fail).
    destruct (Hl eq_refl) as [H|[H|H]]; congruence. }
  destruct (str_mem cm ["G0"; "G1"; "G2"; "G3"]%string) eqn:Em; pose proof Em as Em2; cbn in Em2.
  - destruct ab as [[|]|]; cbn [snd fst tr_absolute tr_x tr_y].
    + unfold shift_word, shift_truthy, l_e. cbn [largs get_arg a_x a_y a_e].
      destruct ax as [x|], ay as [y|], ae as [e|], r; try destruct tx as [tx|]; try destruct ty as [ty|];
        try destruct (truthy tx); try destruct (truthy ty);
        cbn; rewrite ?E83, ?E82, ?E92, ?Em, ?Em2; cbn; auto.
    + destruct ae as [e|], r; cbn; rewrite ?E83, ?E82, ?E92, ?Em, ?Em2; cbn; auto.
    + destruct ae as [e|], r; cbn; rewrite ?E83, ?E82, ?E92, ?Em, ?Em2; cbn; auto.
  - cbn. destruct (String.eqb cm "G90"), (String.eqb cm "G91"); cbn; rewrite ?E83, ?E82, ?E92, ?Em, ?Em2; cbn; auto.
Qed.

Lemma filters_order : forall x y (g g1 g2 h1 h2 : gcode A),
  (forall l, In l (all_lines g) -> is_command "G92" l = true -> l_e l = None ->
     l_x l <> None \/ l_y l <> None \/ l_z l <> None) ->
  translate x y g = Ok g1 -> to_relative_extrusion g1 = Ok h1 ->
  to_relative_extrusion g = Ok g2 -> translate x y g2 = Ok h2 -> h1 = h2.
Proof.
  intros x y g g1 g2 h1 h2 Hb H1 H2 H3 H4.
  destruct (translate_pure _ _ _ _ H1) as (A1 & B1 & F1).
  destruct (relative_pure _ _ H2) as (A2 & B2 & F2).
  destruct (relative_pure _ _ H3) as (A3 & B3 & F3).
  destruct (translate_pure _ _ _ _ H4) as (A4 & B4 & F4).
  apply (same_program g); [exact (frame_trans _ _ _ F1 F2)|exact (frame_trans _ _ _ F3 F4)|].
  assert (L : all_lines h1 = all_lines h2).
  { rewrite A2, A1, A4, A3. apply (answers_swap rel_opcode tr_opcode telling filters_swap).
    apply Forall_forall. intros l Hin. exact (Hb l Hin). }
  rewrite B2, B4, L. f_equal.
  rewrite (blocks_lengths _ _ _ B1), (blocks_lengths _ _ _ B3); [reflexivity| |];
    rewrite list_sum_concat; [rewrite A3|rewrite A1]; rewrite answers_length; reflexivity.
Qed.

(** *** One axis after the other *)

Section Axes.
Hypothesis zero_eq : @n_eqb A n0 n0 = true.
Hypothesis sub_zero : forall v : num A, n_sub v n0 = v.
Hypothesis zero_sub : forall v : num A, n_sub (n_opp n0) v = n_opp v.

(** the pending shift of the first pass, of the second and of the single one *)
Definition axis (a1 a2 a : option (num A)) : Prop :=
  (a1 = None /\ a2 = None /\ a = None) \/
  (exists v, a = Some v /\ ((a1 = Some n0 /\ a2 = Some v) \/ (a1 = Some v /\ a2 = Some n0))).

Lemma axis_none : axis None None None.
Proof. left. auto. Qed.
Lemma axis_sub : forall a1 a2 a v, axis a1 a2 a -> shift_sub (shift_sub v a1) a2 = shift_sub v a.
Proof.
  intros a1 a2 a v [(-> & -> & ->)|(w & -> & [[-> ->]|[-> ->]])]; cbn [shift_sub]; [reflexivity| |]; now rewrite ?sub_zero.
Qed.
Lemma axis_opp : forall a1 a2 a, axis a1 a2 a -> shift_sub (shift_opp a1) a2 = shift_opp a.
Proof.
  intros a1 a2 a [(-> & -> & ->)|(w & -> & [[-> ->]|[-> ->]])]; cbn [shift_sub shift_opp]; [reflexivity| |]; now rewrite ?sub_zero, ?zero_sub.
Qed.
Lemma quiet_word : forall k (l : line A), shift_word k (Some n0) l = l.
Proof.
  intros k l. unfold shift_word, shift_truthy, truthy. rewrite zero_eq. cbn [negb]. now destruct (get_arg k (largs l)).
Qed.
Lemma none_word : forall k (l : line A), shift_word k None l = l.
Proof. intros k l. unfold shift_word, shift_truthy. now destruct (get_arg k (largs l)). Qed.

Lemma words_swap : forall a b (l : line A), shift_word LX a (shift_word LY b l) = shift_word LY b (shift_word LX a l).
Proof.
  intros a b [rw cm mv [ax ay az ae af ai aj] nt]. unfold shift_word, shift_truthy. cbn [largs get_arg a_x a_y].
  destruct ax as [x|], ay as [y|]; try destruct a as [a|]; try destruct b as [b|]; cbn [largs get_arg a_x a_y];
    try destruct (truthy a); try destruct (truthy b); reflexivity.
Qed.

Lemma axis_words : forall a1 a2 a b1 b2 b (l : line A), axis a1 a2 a -> axis b1 b2 b ->
  shift_word LY b2 (shift_word LX a2 (shift_word LY b1 (shift_word LX a1 l))) = shift_word LY b (shift_word LX a l).
Proof.
  intros a1 a2 a b1 b2 b l [(-> & -> & ->)|(v & -> & [[-> ->]|[-> ->]])] [(-> & -> & ->)|(w & -> & [[-> ->]|[-> ->]])];
    rewrite ?quiet_word, ?none_word, ?quiet_word, ?none_word; try reflexivity.
  apply f_equal with (f := fun x => x). apply words_swap.
Qed.

Lemma move_word : forall k t (l : line A), command (shift_word k t l) = command l.
Proof. intros k t l. unfold shift_word. destruct (get_arg k (largs l)), (shift_truthy t); reflexivity. Qed.

Lemma axes_step : forall a1 a2 a b1 b2 b m (l : line A), axis a1 a2 a -> axis b1 b2 b ->
  let l1 := answer tr_opcode (TState a1 b1 m) l in
  answer tr_opcode (TState a2 b2 m) l1 = answer tr_opcode (TState a b m) l /\
  exists a1' a2' a' b1' b2' b' m', axis a1' a2' a' /\ axis b1' b2' b' /\
    fst (tr_opcode (TState a1 b1 m) l) = TState a1' b1' m' /\
    fst (tr_opcode (TState a2 b2 m) l1) = TState a2' b2' m' /\
    fst (tr_opcode (TState a b m) l) = TState a' b' m'.
Proof.
  intros a1 a2 a b1 b2 b m l Ha Hb. unfold answer, tr_opcode. repeat rewrite !cmd_is_command. repeat rewrite cmd_in_motion.
  destruct l as [rw [cm|] mv [ax ay az ae af ai aj] nt].
  2:{ cbn. split; [reflexivity|]. exists a1, a2, a, b1, b2, b, m. auto. }
  unfold is_command, is_motion, cmd_is, cmd_in. cbn [command]. cbv zeta.
  destruct (str_mem cm ["G0"; "G1"; "G2"; "G3"]%string) eqn:Em.
  - destruct m as [[|]|]; cbn [snd fst tr_absolute tr_x tr_y]; rewrite ?move_word; cbn [command]; rewrite Em; cbn [snd fst].
    + split; [apply axis_words; assumption|]. exists a1, a2, a, b1, b2, b, (Some true). auto.
    + split; [reflexivity|]. exists a1, a2, a, b1, b2, b, (Some false). auto.
    + split; [reflexivity|]. exists a1, a2, a, b1, b2, b, None. auto.
  - destruct (String.eqb cm "G90") eqn:E90.
    { cbn [snd fst command]. rewrite Em, E90. cbn [fst snd]. split; [reflexivity|]. exists a1, a2, a, b1, b2, b, (Some true). auto. }
    destruct (String.eqb cm "G91") eqn:E91.
    { cbn [snd fst command]. rewrite Em, E90, E91. cbn [fst snd]. split; [reflexivity|]. exists a1, a2, a, b1, b2, b, (Some false). auto. }
    destruct (String.eqb cm "G92") eqn:E92.
    2:{ cbn [snd fst command]. rewrite Em, E90, E91, E92. cbn [fst snd]. split; [reflexivity|]. exists a1, a2, a, b1, b2, b, m. auto. }
    apply String.eqb_eq in E92. subst cm. unfold no_xyz, l_x, l_y, l_z. cbn [largs a_x a_y a_z].
    pose proof axis_none as N.
    destruct ax as [x|], ay as [y|], az as [z|]; cbn; rewrite ?(axis_sub _ _ _ _ Ha), ?(axis_sub _ _ _ _ Hb), ?(axis_opp _ _ _ Ha), ?(axis_opp _ _ _ Hb);
      (split; [reflexivity|]).
    all: first [ exists None, None, None, None, None, None, m; repeat split; assumption
               | exists None, None, None, b1, b2, b, m; repeat split; assumption
               | exists a1, a2, a, None, None, None, m; repeat split; assumption
               | exists a1, a2, a, b1, b2, b, m; repeat split; assumption ].
Qed.

Lemma axes_answers : forall ls a1 a2 a b1 b2 b m, axis a1 a2 a -> axis b1 b2 b ->
  answers tr_opcode (TState a2 b2 m) (answers tr_opcode (TState a1 b1 m) ls) = answers tr_opcode (TState a b m) ls.
Proof.
  induction ls as [|l ls IH]; intros a1 a2 a b1 b2 b m Ha Hb; [reflexivity|]. cbn [answers].
  destruct (axes_step a1 a2 a b1 b2 b m l Ha Hb) as (E & a1' & a2' & a' & b1' & b2' & b' & m' & Ha' & Hb' & E1 & E2 & E3).
  cbv zeta in *. rewrite E, E1, E2, E3. f_equal. apply IH; assumption.
Qed.

Lemma axes_order : forall x y (g g1 g2 h1 h2 k : gcode A),
  translate x None g = Ok g1 -> translate None y g1 = Ok h1 ->
  translate None y g = Ok g2 -> translate x None g2 = Ok h2 ->
  translate x y g = Ok k -> h1 = k /\ h2 = k.
Proof.
  intros x y g g1 g2 h1 h2 k H1 H2 H3 H4 H5.
  destruct (translate_pure _ _ _ _ H1) as (A1 & B1 & F1).
  destruct (translate_pure _ _ _ _ H2) as (A2 & B2 & F2).
  destruct (translate_pure _ _ _ _ H3) as (A3 & B3 & F3).
  destruct (translate_pure _ _ _ _ H4) as (A4 & B4 & F4).
  destruct (translate_pure _ _ _ _ H5) as (A5 & B5 & F5).
  rewrite tr_init_of in *. cbn [shift_of] in *.
  assert (Ax : axis (Some (shift_of x)) (Some n0) (Some (shift_of x))) by (right; eauto).
  assert (Ay : axis (Some n0) (Some (shift_of y)) (Some (shift_of y))) by (right; eauto).
  assert (Bx : axis (Some n0) (Some (shift_of x)) (Some (shift_of x))) by (right; eauto).
  assert (By : axis (Some (shift_of y)) (Some n0) (Some (shift_of y))) by (right; eauto).
  assert (L1 : map (@List.length _) (blocks g1) = map (@List.length _) (blocks g)).
  { apply (blocks_lengths _ _ _ B1). rewrite list_sum_concat, A1, answers_length. reflexivity. }
  assert (L2 : map (@List.length _) (blocks g2) = map (@List.length _) (blocks g)).
  { apply (blocks_lengths _ _ _ B3). rewrite list_sum_concat, A3, answers_length. reflexivity. }
  split.
  - apply (same_program g); [exact (frame_trans _ _ _ F1 F2)|exact F5|].
    rewrite B2, B5, L1, A2, A1, A5. f_equal. apply axes_answers; assumption.
  - apply (same_program g); [exact (frame_trans _ _ _ F3 F4)|exact F5|].
    rewrite B4, B5, L2, A4, A3, A5. f_equal. apply axes_answers; assumption.
Qed.
End Axes.

End Order.

Lemma axes_R : forall x y (g g1 g2 h1 h2 k : gcode RA),
  translate x None g = Ok g1 -> translate None y g1 = Ok h1 ->
  translate None y g = Ok g2 -> translate x None g2 = Ok h2 ->
  translate x y g = Ok k -> h1 = k /\ h2 = k.
Proof.
  assert (En0 : n0 (A:=RA) = 0%R) by (apply (val_n0 exactR)).
  apply axes_order.
  - change (r_eqb (n0 (A:=RA)) (n0 (A:=RA)) = true). apply r_eqb_iff. reflexivity.
  - intros v. change (v - n0 (A:=RA) = v)%R. rewrite En0. ring.
  - intros v. change (- n0 (A:=RA) - v = - v)%R. rewrite En0. ring.
Qed.

Lemma axes_B64 : forall x y (g g1 g2 h1 h2 k : gcode B64),
  translate x None g = Ok g1 -> translate None y g1 = Ok h1 ->
  translate None y g = Ok g2 -> translate x None g2 = Ok h2 ->
  translate x y g = Ok k -> h1 = k /\ h2 = k.
Proof.
  apply axes_order.
  - vm_compute. reflexivity.
  - intros [[|]|s| |s m e]; reflexivity.
  - intros [[|]|s| |s m e]; reflexivity.
Qed.

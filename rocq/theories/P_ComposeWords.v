(** * P_ComposeWords: two translations through the text, word by word *)
From Coq Require Import List Ascii String ZArith NArith Bool Reals Lra Lia.
From Verif Require Import PyBase Arith ArithR Gcoder Filters SpecText SpecLoad SpecMachine SpecEqual SpecFilter SpecCompose.
From Verif Require Import P_Text P_Format P_Load P_Wf P_FilesText P_Filter P_Machine P_FilterMotion P_Compose.
Import ListNotations.
Local Open Scope list_scope.
Local Open Scope R_scope.

Section Exact.
Context {A : arith} (E : exact A).
Notation val := (val E).
Notation amount := (amount E).

Definition half (k : letter) : R := match k with LE => / 200000 | _ => / 2000 end.
Definition word (k : letter) (s : string) : option R := number_of (letter_code k) (words s).
Definition shift_on (st : tstate (A:=A)) (k : letter) : R :=
  match k with LX => amount (tr_x st) | LY => amount (tr_y st) | _ => 0 end.
Definition has (k : letter) (s : string) : bool := match word k s with Some _ => true | None => false end.
Definition rebased (k : letter) (s : string) : bool :=
  match k with LX | LY => has k s || negb (has LX s || has LY s || has LZ s) | _ => false end.
Definition moving (s : string) : bool :=
  match command_name s with Some c => str_mem c ["G0"; "G1"; "G2"; "G3"]%string | None => false end.
Definition setting (s : string) : bool :=
  match command_name s with Some c => String.eqb c "G92" | None => false end.

Definition target (st : tstate (A:=A)) (s : string) (k : letter) : option R :=
  if moving s then
    match tr_absolute st with
    | Some true => option_map (fun v => v + shift_on st k) (word k s)
    | _ => word k s
    end
  else if setting s then
    if rebased k s then Some (match word k s with Some v => v | None => 0 end - shift_on st k) else word k s
  else word k s.

Lemma within_refl : forall d o, 0 <= d -> within d o o.
Proof. intros d [x|] H; cbn; [|exact I]. replace (x - x) with 0 by lra. now rewrite Rabs_R0. Qed.

Lemma half_pos : forall k, 0 <= half k.
Proof. intros []; cbn; lra. Qed.

Lemma round_half : forall k (x : num A), Rabs (val (py_round (decimals k) x) - val x) <= half k.
Proof. intros k x. destruct k; cbn [decimals half]; first [apply (round3 E)|apply (round5 E)]. Qed.

Lemma unsplit_within : forall c (a : args A) k o, g_command c -> option_map val (get_arg k a) = o ->
  within (half k) (word k (unsplit_text c a)) o.
Proof.
  intros c a k o H <-. unfold word. rewrite (number_unsplit E c k a H).
  destruct (get_arg k a); cbn; [apply round_half|exact I].
Qed.

Lemma reads_word : forall s l c k, reads E s l -> command_name s = Some c -> first_is "G" c = true ->
  option_map val (get_arg k (largs l)) = word k s.
Proof. intros s l c k (_ & _ & H) Hc Hg. destruct (H c Hc Hg) as [_ Hk]. apply Hk. Qed.

Lemma moving_g : forall s c, command_name s = Some c -> moving s = true -> first_is "G" c = true.
Proof.
  intros s c Hc H. unfold moving in H. rewrite Hc in H. apply str_mem_in in H. cbn [In] in H.
  repeat (destruct H as [<-|H]; [reflexivity|]). destruct H.
Qed.

Lemma tr_words : forall s (l : line A) st, reads E s l ->
  command_name (raw (answer tr_opcode st l)) = command_name s /\
  forall k, within (half k) (word k (raw (answer tr_opcode st l))) (target st s k).
Proof.
  intros s l st Hr. pose proof (reads_motion E s l Hr) as Hm. fold (moving s) in Hm.
  pose proof (reads_command E s l "G92" Hr ltac:(discriminate)) as H92. fold (setting s) in H92.
  pose proof Hr as (Hraw & Hcmd & Hargs).
  unfold answer, tr_opcode, target. rewrite !cmd_is_command, cmd_in_motion, Hm, H92.
  destruct (moving s) eqn:Em.
  - assert (Hc : exists c, command_name s = Some c).
    { unfold moving in Em. destruct (command_name s) as [c|]; [eauto|discriminate Em]. }
    destruct Hc as [c Hc]. pose proof (moving_g s c Hc Em) as Hg. destruct (Hargs c Hc Hg) as [Hgc Hk].
    assert (Hlc : command l = Some c) by (destruct Hcmd as [Hx|(Hx & _)]; congruence).
    destruct (tr_absolute st) as [[|]|]; cbn [snd];
      try (rewrite Hraw; split; [reflexivity|intros k; apply within_refl, half_pos]).
    destruct (shift_two (tr_x st) (tr_y st) l) as (S1 & S2 & S3 & S4 & S5 & S6 & S7). cbv zeta in *.
    set (l' := shift_word LY (tr_y st) (shift_word LX (tr_x st) l)) in *.
    assert (Hv : forall k, option_map val (get_arg k (largs l')) = option_map (fun v => v + shift_on st k) (word k s)).
    { intros k. unfold word. rewrite <- Hk. destruct k; cbn [shift_on].
      1: change (get_arg LX (largs l')) with (l_x l'); rewrite S4; change (get_arg LX (largs l)) with (l_x l);
         destruct (l_x l); cbn; [f_equal; apply shifted_val|reflexivity].
      1: change (get_arg LY (largs l')) with (l_y l'); rewrite S5; change (get_arg LY (largs l)) with (l_y l);
         destruct (l_y l); cbn; [f_equal; apply shifted_val|reflexivity].
      all: rewrite S6 by discriminate; match goal with |- option_map _ ?o = _ => destruct o end;
        cbn; [f_equal; lra|reflexivity]. }
    destruct S7 as [S7|S7].
    + rewrite S7, Hraw. split; [reflexivity|]. intros k. rewrite <- Hv, S7, (Hk k). apply within_refl, half_pos.
    + rewrite S7, Hlc. split; [rewrite (name_unsplit E c _ Hgc); congruence|].
      intros k. rewrite <- Hv. now apply unsplit_within.
  - assert (Hsame : raw l = s) by exact Hraw.
    assert (Hkeep : command_name (raw l) = command_name s /\ forall k, within (half k) (word k (raw l)) (word k s)).
    { rewrite Hraw. split; [reflexivity|]. intros k. apply within_refl, half_pos. }
    destruct (setting s) eqn:Es.
    2: { destruct (is_command "G90" l), (is_command "G91" l); exact Hkeep. }
    assert (Hc : command_name s = Some "G92"%string).
    { unfold setting in Es. destruct (command_name s) as [c|]; [|discriminate Es]. apply String.eqb_eq in Es. now subst. }
    rewrite (is_command_eq _ "G90" _ H92), (is_command_eq _ "G91" _ H92).
    change (String.eqb "G92" "G90") with false. change (String.eqb "G92" "G91") with false. cbv iota.
    destruct (Hargs _ Hc eq_refl) as [Hgc Hk].
    assert (Hlc : command l = Some "G92"%string) by (destruct Hcmd as [Hx|(Hx & _)]; congruence).
    assert (Hgen : forall l2 : line A, command l2 = Some "G92"%string ->
      (forall k, option_map val (get_arg k (largs l2)) =
         if rebased k s then Some (match word k s with Some v => v | None => 0 end - shift_on st k) else word k s) ->
      command_name (raw (unsplit l2)) = command_name s /\
      forall k, within (half k) (word k (raw (unsplit l2)))
         (if rebased k s then Some (match word k s with Some v => v | None => 0 end - shift_on st k) else word k s)).
    { intros l2 C2 H2. cbn [unsplit raw set_raw]. rewrite C2. split; [rewrite (name_unsplit E _ _ Hgc); congruence|].
      intros k. rewrite <- H2. now apply unsplit_within. }
    assert (Hopp : forall t : option (num A), val (shift_opp t) = 0 - amount t).
    { intros [x|]; cbn; [rewrite (val_opp A E); lra|rewrite (val_n0 E); lra]. }
    assert (Hsub : forall (v : num A) t, val (shift_sub v t) = val v - amount t).
    { intros v [x|]; cbn; [apply (val_sub A E)|lra]. }
    unfold no_xyz.
    pose proof (Hk LX) as KX. pose proof (Hk LY) as KY. pose proof (Hk LZ) as KZ.
    change (get_arg LX (largs l)) with (l_x l) in KX. change (get_arg LY (largs l)) with (l_y l) in KY.
    change (get_arg LZ (largs l)) with (l_z l) in KZ. fold (word LX s) in KX. fold (word LY s) in KY. fold (word LZ s) in KZ.
    destruct (l_x l) as [vx|] eqn:Lx; destruct (l_y l) as [vy|] eqn:Ly; destruct (l_z l) as [vz|] eqn:Lz;
      cbn [is_some orb negb snd]; (apply Hgen; [exact Hlc|]);
      intros k; destruct k; unfold rebased, has; rewrite <- ?KX, <- ?KY, <- ?KZ;
      cbn [get_arg set_arg set_args put_arg largs a_x a_y a_z a_e a_f a_i a_j option_map orb negb shift_on];
      change (a_x (largs l)) with (l_x l); change (a_y (largs l)) with (l_y l); change (a_z (largs l)) with (l_z l);
      rewrite ?Lx, ?Ly, ?Lz; cbn [option_map]; rewrite ?Hopp, ?Hsub; try reflexivity; try exact (Hk LE); try exact (Hk LF); try exact (Hk LI); try exact (Hk LJ).
Qed.

Lemma within_trans : forall d e o p q, within d o p -> within e p q -> within (d + e) o q.
Proof.
  intros d e [x|] [y|] [z|] H1 H2; cbn in *; try contradiction; [|exact I].
  replace (x - z) with ((x - y) + (y - z)) by lra. eapply Rle_trans; [apply Rabs_triang|]. lra.
Qed.

Lemma within_sym : forall d o p, within d o p -> within d p o.
Proof. intros d [x|] [y|] H; cbn in *; try contradiction; [|exact I]. now rewrite Rabs_minus_sym. Qed.

Lemma within_has : forall d o p, within d o p ->
  match o with Some _ => true | None => false end = match p with Some _ => true | None => false end.
Proof. intros d [x|] [y|] H; cbn in *; try contradiction; reflexivity. Qed.

(** the state a pass is in, as a function of the text read *)
Lemma tr_states : forall s (l : line A) st, reads E s l ->
  tr_absolute (tr_next st l) = (match command_name s with
    | Some c => if String.eqb c "G90" then Some true else if String.eqb c "G91" then Some false else tr_absolute st
    | None => tr_absolute st end) /\
  forall k, shift_on (tr_next st l) k = if setting s && rebased k s then 0 else shift_on st k.
Proof.
  intros s l st Hr. destruct (tr_next_fields st l) as (F1 & F2 & F3).
  rewrite (reads_command E s l "G90" Hr), (reads_command E s l "G91" Hr) in F1 by discriminate.
  split. { rewrite F1. destruct (command_name s); reflexivity. }
  pose proof (reads_command E s l "G92" Hr ltac:(discriminate)) as H92. fold (setting s) in H92.
  assert (Hreb : forall k, k = LX \/ k = LY -> rebases k l = setting s && rebased k s).
  { intros k Hk. unfold rebases. rewrite H92. destruct (setting s) eqn:Es; [|reflexivity]. cbn [andb].
    assert (Hc : command_name s = Some "G92"%string).
    { unfold setting in Es. destruct (command_name s) as [c|]; [|discriminate Es]. apply String.eqb_eq in Es. now subst. }
    assert (Hh : forall j, match get_arg j (largs l) with Some _ => true | None => false end = has j s).
    { intros j. unfold has. rewrite <- (reads_word s l _ j Hr Hc eq_refl). destruct (get_arg j (largs l)); reflexivity. }
    pose proof (Hh LX) as HX. pose proof (Hh LY) as HY. pose proof (Hh LZ) as HZ. cbn [get_arg] in HX, HY, HZ.
    unfold rebased. rewrite Hh. unfold l_x, l_y, l_z. rewrite <- HX, <- HY, <- HZ.
    destruct Hk as [-> | ->]; destruct (a_x (largs l)), (a_y (largs l)), (a_z (largs l)); reflexivity. }
  intros k. destruct k; cbn [shift_on]; try (unfold rebased; rewrite andb_false_r; reflexivity).
  - rewrite F2, Hreb by auto. destruct (setting s && rebased LX s); reflexivity.
  - rewrite F3, Hreb by auto. destruct (setting s && rebased LY s); reflexivity.
Qed.

(** the state of the three passes *)
Definition joint (st1 st2 st3 : tstate (A:=A)) : Prop :=
  tr_absolute st2 = tr_absolute st1 /\ tr_absolute st3 = tr_absolute st1 /\
  forall k, shift_on st3 k = shift_on st1 k + shift_on st2 k.

Lemma rebased_again : forall s s1 st, command_name s1 = command_name s -> setting s = true ->
  (forall k, within (half k) (word k s1) (target st s k)) -> forall k, rebased k s1 = rebased k s.
Proof.
  intros s s1 st Hc Hs Hw.
  assert (Hm : moving s = false).
  { unfold moving, setting in *. destruct (command_name s) as [c|]; [|reflexivity]. apply String.eqb_eq in Hs. now subst. }
  assert (Hh : forall k, has k s1 = rebased k s || has k s).
  { intros k. unfold has at 1. rewrite (within_has _ _ _ (Hw k)). unfold target. rewrite Hm, Hs.
    destruct (rebased k s); reflexivity. }
  intros k. unfold rebased at 1. rewrite !Hh.
  assert (Hx : rebased LX s || has LX s || (rebased LY s || has LY s) || (rebased LZ s || has LZ s) = true).
  { unfold rebased. destruct (has LX s), (has LY s), (has LZ s); reflexivity. }
  rewrite Hx. cbn [negb].
  destruct k; try reflexivity; unfold rebased; destruct (has LX s), (has LY s), (has LZ s); reflexivity.
Qed.

Lemma same_kind : forall s s1, command_name s1 = command_name s -> moving s1 = moving s /\ setting s1 = setting s.
Proof. intros s s1 H. unfold moving, setting. now rewrite H. Qed.

Lemma targets : forall s s1 st1 st2 st3, joint st1 st2 st3 -> command_name s1 = command_name s ->
  (forall k, within (half k) (word k s1) (target st1 s k)) ->
  forall k, within (half k) (target st2 s1 k) (target st3 s k).
Proof.
  intros s s1 st1 st2 st3 (J1 & J2 & J3) Hc Hw k. destruct (same_kind s s1 Hc) as [Km Ks].
  pose proof (Hw k) as Hk. unfold target in *. rewrite Km, Ks. destruct (moving s) eqn:Em.
  - rewrite J1, J2. destruct (tr_absolute st1) as [[|]|]; try exact Hk.
    rewrite J3. destruct (word k s1) as [a|], (word k s) as [b|]; cbn in *; try contradiction; [|exact I].
    match goal with |- Rabs ?x <= _ => match type of Hk with Rabs ?y <= _ => replace x with y by lra end end. exact Hk.
  - destruct (setting s) eqn:Es; [|exact Hk].
    rewrite (rebased_again s s1 st1 Hc Es) by (intros j; unfold target; rewrite Em, Es; apply Hw).
    destruct (rebased k s); [|exact Hk]. rewrite J3.
    destruct (word k s1) as [a|]; cbn in *; [|contradiction].
    match goal with |- Rabs ?x <= _ => match type of Hk with Rabs ?y <= _ => replace x with y by lra end end. exact Hk.
Qed.

Lemma joint_next : forall s s1 (l l2 l3 : line A) st1 st2 st3, joint st1 st2 st3 ->
  reads E s l -> reads E s1 l2 -> reads E s l3 -> command_name s1 = command_name s ->
  (forall k, within (half k) (word k s1) (target st1 s k)) ->
  joint (tr_next st1 l) (tr_next st2 l2) (tr_next st3 l3).
Proof.
  intros s s1 l l2 l3 st1 st2 st3 (J1 & J2 & J3) R1 R2 R3 Hc Hw.
  destruct (tr_states s l st1 R1) as [A1 B1]. destruct (tr_states s1 l2 st2 R2) as [A2 B2]. destruct (tr_states s l3 st3 R3) as [A3 B3].
  destruct (same_kind s s1 Hc) as [Km Ks].
  unfold joint. rewrite A1, A2, A3, Hc, J1, J2. split; [reflexivity|]. split; [reflexivity|].
  intros k. rewrite B1, B2, B3, Ks, J3. destruct (setting s) eqn:Es; cbn [andb]; [|reflexivity].
  rewrite (rebased_again s s1 st1 Hc Es Hw). destruct (rebased k s); lra.
Qed.

Lemma agrees_words : forall n s s', command_name s' = command_name s ->
  (forall k, within (INR n * half k) (word k s') (word k s)) -> agrees n s s'.
Proof.
  intros n s s' Hc Hw. split; [exact Hc|]. split.
  - intros c Hin. unfold Rdiv. cbn [In] in Hin.
    destruct Hin as [<-|[<-|[<-|[<-|[<-|[<-|[]]]]]]]; [apply (Hw LX)|apply (Hw LY)|apply (Hw LZ)|apply (Hw LF)|apply (Hw LI)|apply (Hw LJ)].
  - apply (Hw LE).
Qed.

Lemma passes : forall ss (ls : list (line A)), Forall2 (reads E) ss ls -> forall st1 st2 st3 ls2, joint st1 st2 st3 ->
  Forall2 (reads E) (map raw (answers tr_opcode st1 ls)) ls2 ->
  Forall2 (agrees 3) (map raw (answers tr_opcode st3 ls)) (map raw (answers tr_opcode st2 ls2)).
Proof.
  intros ss ls H. induction H as [|s l ss ls Hr _ IH]; intros st1 st2 st3 ls2 J H2; cbn [answers map] in *.
  - inversion H2; subst. constructor.
  - inversion H2 as [|s1 l2 ss1 t2 R2 Hs2]; subst. cbn [answers map].
    destruct (tr_words s l st1 Hr) as [C1 W1]. destruct (tr_words _ l2 st2 R2) as [C2 W2]. destruct (tr_words s l st3 Hr) as [C3 W3].
    constructor.
    + apply agrees_words; [congruence|]. intros k.
      replace (INR 3 * half k) with (half k + half k + half k) by (cbn; lra).
      eapply within_trans; [|apply within_sym, W3].
      eapply within_trans; [apply W2|]. now apply (targets s _ st1 st2 st3).
    + eapply (IH _ _ _ _ (joint_next _ _ _ _ _ _ _ _ J Hr R2 Hr C1 W1)). exact Hs2.
Qed.

Lemma inches_kept : forall s s', command_name s' = command_name s -> op_of s <> Inches -> op_of s' <> Inches.
Proof.
  intros s s' H. unfold op_of. rewrite H. destruct (command_name s) as [c|]; [|discriminate].
  destruct (str_mem c ["G0"; "G1"; "G2"; "G3"]%string); [discriminate|].
  destruct (String.eqb c "G28"); [discriminate|]. destruct (String.eqb c "G92"); [discriminate|].
  destruct (String.eqb c "G20"); [congruence|].
  repeat match goal with |- context [if ?b then _ else _] => destruct b; [discriminate|] end.
  intros _. destruct c as [|d t]; [discriminate|]. all_chars d; discriminate.
Qed.

Lemma tr_names : forall ss (ls : list (line A)), Forall2 (reads E) ss ls -> Forall (fun s => op_of s <> Inches) ss ->
  forall st, Forall (fun s => op_of s <> Inches) (map raw (answers tr_opcode st ls)).
Proof.
  intros ss ls H. induction H as [|s l ss ls Hr _ IH]; intros Hf st; [constructor|]. cbn [answers map]. inversion Hf; subst.
  constructor; [|now apply IH]. apply (inches_kept s); [apply (tr_words s l st Hr)|assumption].
Qed.

Lemma translate_sum : forall home home' data x1 y1 x2 y2 x y (g g1 h h2 g2 : gcode A),
  load_gen false home data = Ok g -> translate x1 y1 g = Ok g1 ->
  load_gen false home' (write g1) = Ok h -> translate x2 y2 h = Ok h2 ->
  translate x y g = Ok g2 ->
  amount x = amount x1 + amount x2 -> amount y = amount y1 + amount y2 ->
  Forall (fun s => op_of s <> Inches) (program_text data) ->
  Forall2 (agrees 3) (write g2) (write h2).
Proof.
  intros home home' data x1 y1 x2 y2 x y g g1 h h2 g2 Hg H1 Hh H2 H3 Hx Hy Hi.
  pose proof (load_reads E _ _ _ Hg Hi) as R1.
  destruct (translate_pure _ _ _ _ H1) as (P1 & _). destruct (translate_pure _ _ _ _ H2) as (P2 & _). destruct (translate_pure _ _ _ _ H3) as (P3 & _).
  assert (Ht : program_text (write g1) = write g1).
  { apply tight_text, (translate_text _ _ _ _ H1), (load_tight _ _ _ _ Hg). }
  assert (Hi1 : Forall (fun s => op_of s <> Inches) (program_text (write g1))).
  { rewrite Ht, write_all, P1. now apply (tr_names (program_text data)). }
  pose proof (load_reads E _ _ _ Hh Hi1) as R2. rewrite Ht, write_all, P1 in R2.
  rewrite (write_all h2), (write_all g2), P2, P3. apply (passes _ _ R1 (tr_init x1 y1)); [|exact R2].
  rewrite !tr_init_of. split; [reflexivity|]. split; [reflexivity|].
  intros []; cbn [shift_on tr_x tr_y SpecFilter.amount];  rewrite ?(shift_of_val E); first [exact Hx|exact Hy|lra].
Qed.

End Exact.

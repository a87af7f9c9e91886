(** * P_Stretch: what the stretch filters keep *)
From Coq Require Import List Ascii String ZArith NArith Bool Lia Reals.
From Verif Require Import PyBase Arith ArithR Gcoder Filters SpecText SpecLoad SpecMachine SpecFilter Stretch
  SpecStretch P_Filter.
Import ListNotations.
Local Open Scope list_scope.

(** ** Marking *)

Lemma marked_trans : forall s t u, marked s t -> marked t u -> marked s u.
Proof.
  intros s t u H1 H2. induction H2 as [|t u sep r H2 IH Hs Hr]; [exact H1|].
  apply marked_more; auto.
Qed.

Lemma marked_one : forall s sep r, In sep [" ; "; "; "]%string -> In r remarks ->
  marked s (s ++ sep ++ r)%string.
Proof. intros s sep r Hs Hr. apply marked_more; auto. apply marked_none. Qed.

Section P.
Context {A : arith}.
Implicit Types l m : line A.

(** a line and its marked version *)
Definition marked_line (l l' : line A) : Prop := same_but_text l l' /\ marked (raw l) (raw l').

Lemma marked_line_refl : forall l, marked_line l l.
Proof. intros l. split; [repeat split|apply marked_none]. Qed.

Lemma marked_line_trans : forall l1 l2 l3, marked_line l1 l2 -> marked_line l2 l3 -> marked_line l1 l3.
Proof.
  intros l1 l2 l3 [(a & b & c & d) H1] [(a' & b' & c' & d') H2]. split.
  - repeat split; congruence.
  - eapply marked_trans; eassumption.
Qed.

Lemma marked_line_mark : forall sep r l, In sep [" ; "; "; "]%string -> In r remarks ->
  marked_line l (mark_with sep r l).
Proof.
  intros sep r l Hs Hr. split; [repeat split|]. cbn [raw mark_with set_raw]. now apply marked_one.
Qed.

Lemma marked_line_mark' : forall r l, In r remarks -> marked_line l (mark r l).
Proof. intros r l Hr. apply marked_line_mark; cbn; auto. Qed.

Local Ltac rem := cbn; auto 10.

Lemma mark_extrusion_marked : forall s l, marked_line l (snd (mark_extrusion s l)).
Proof.
  intros s l. unfold mark_extrusion.
  destruct (negb (k_extruding s) && is_linear l && is_some (l_e l)).
  - apply marked_line_mark'. rem.
  - destruct (_ && _ && _ && _).
    + apply marked_line_mark'. rem.
    + apply marked_line_refl.
Qed.

Lemma slic3r_perimeter_marked : forall e s l, marked_line l (snd (slic3r_perimeter e s l)).
Proof.
  intros [] s l; unfold slic3r_perimeter; cbn [snd];
    destruct (kind_eqb (k_kind s) External); try destruct (k_outer s);
    try (eapply marked_line_trans; apply marked_line_mark'); try apply marked_line_mark'; rem.
Qed.

Lemma slic3r_kind_marked : forall s l rest, marked_line l (snd (slic3r_kind s l rest)).
Proof.
  intros s l rest. unfold slic3r_kind.
  destruct (has "; perimeter external" l).
  { destruct (kind_eqb _ _); [apply marked_line_refl|apply slic3r_perimeter_marked]. }
  destruct (has "; perimeter" l).
  { destruct (kind_eqb _ _); [apply marked_line_refl|apply slic3r_perimeter_marked]. }
  destruct (has "; move to first perimeter point" l).
  { destruct (perimeter_ahead rest); [apply slic3r_perimeter_marked|apply marked_line_refl]. }
  destruct (has "unretract" l); [apply marked_line_refl|]. cbn [snd].
  destruct (kind_eqb _ _); [apply marked_line_refl|apply marked_line_mark'; rem].
Qed.

Lemma stop_loop_marked : forall s l, marked_line l (snd (stop_loop s l)).
Proof.
  intros s l. unfold stop_loop. cbn [snd].
  destruct (kind_eqb _ _); [apply marked_line_refl|apply marked_line_mark'; rem].
Qed.

Lemma cura_perimeter_marked : forall e u s l, marked_line l (snd (cura_perimeter e u s l)).
Proof.
  intros e u s l. unfold cura_perimeter. cbn [snd].
  destruct (kind_eqb _ _), e, u;
    try (eapply marked_line_trans; apply marked_line_mark'); try apply marked_line_mark'; rem.
Qed.

Lemma set_next_snd : forall n (x : mark_state * line A), snd (set_next n x) = snd x.
Proof. intros n [s l]. reflexivity. Qed.

Lemma cura_kind_marked : forall s l b, marked_line l (snd (cura_kind s l b)).
Proof.
  intros s l b. unfold cura_kind.
  match goal with |- context [let '(s1, l1) := ?X in _] => set (x := X) end.
  assert (H1 : marked_line l (snd x)).
  { unfold x. destruct (k_next s) as [[e u]|]; [rewrite set_next_snd; apply cura_perimeter_marked|apply marked_line_refl]. }
  clearbody x. destruct x as [s1 l1]. cbn [snd] in H1.
  match goal with |- context [let '(s2, l2) := ?X in _] => set (x := X) end.
  assert (H2 : marked_line l1 (snd x)).
  { unfold x. repeat match goal with |- context [if has ?t l1 then _ else _] => destruct (has t l1) end;
      rewrite ?set_next_snd; try apply stop_loop_marked. apply marked_line_refl. }
  clearbody x. destruct x as [s2 l2]. cbn [snd] in H2.
  destruct b.
  - eapply marked_line_trans; [exact H1|]. eapply marked_line_trans; [exact H2|]. apply stop_loop_marked.
  - cbn [snd]. eapply marked_line_trans; eassumption.
Qed.

Lemma skeinforge_mark_marked : forall l, marked_line l (skeinforge_mark l).
Proof.
  intros l. unfold skeinforge_mark.
  repeat match goal with |- context [if ?b then _ else _] => destruct b end;
    try apply marked_line_refl; apply marked_line_mark; rem.
Qed.

Lemma slic3r_lines_marked : forall ls s w s' w' ls',
  slic3r_lines s w ls = Ok (s', w', ls') -> Forall2 marked_line ls ls'.
Proof.
  induction ls as [|l t IH]; intros s w s' w' ls' H; cbn [slic3r_lines] in H.
  - inversion H. constructor.
  - destruct (mark_extrusion s l) as [s1 l1] eqn:E1. destruct (slic3r_kind s1 l1 t) as [s2 l2] eqn:E2.
    destruct (read_width _) as [v|e]; cbn [bind] in H; [|discriminate H].
    destruct (slic3r_lines s2 (or_width v w) t) as [[[s3 w3] t3]|e] eqn:E3; cbn [bind] in H; [|discriminate H].
    inversion H; subst. constructor; [|eapply IH; exact E3].
    pose proof (mark_extrusion_marked s l) as H1. rewrite E1 in H1.
    pose proof (slic3r_kind_marked s1 l1 t) as H2. rewrite E2 in H2.
    eapply marked_line_trans; eassumption.
Qed.

Lemma cura_lines_marked : forall profile ls s w s' w' ls',
  cura_lines profile s w ls = Ok (s', w', ls') -> Forall2 marked_line ls ls'.
Proof.
  intros profile. induction ls as [|l t IH]; intros s w s' w' ls' H; cbn [cura_lines] in H.
  - inversion H. constructor.
  - destruct (mark_extrusion s l) as [s1 l1] eqn:E1.
    match type of H with context [cura_kind s1 l1 ?b] =>
      destruct (cura_kind s1 l1 b) as [s2 l2] eqn:E2;
      pose proof (cura_kind_marked s1 l1 b) as H2; rewrite E2 in H2 end.
    destruct (cura_width _ _ _) as [v|e]; cbn [bind] in H; [|discriminate H].
    destruct (cura_lines profile s2 v t) as [[[s3 w3] t3]|e] eqn:E3; cbn [bind] in H; [|discriminate H].
    inversion H; subst. constructor; [|eapply IH; exact E3].
    pose proof (mark_extrusion_marked s l) as H1. rewrite E1 in H1.
    eapply marked_line_trans; eassumption.
Qed.

Lemma skeinforge_lines_marked : forall ls w w' ls',
  skeinforge_lines w ls = Ok (w', ls') -> Forall2 marked_line ls ls'.
Proof.
  induction ls as [|l t IH]; intros w w' ls' H; cbn [skeinforge_lines] in H.
  - inversion H. constructor.
  - destruct (read_width _) as [v|e]; cbn [bind] in H; [|discriminate H].
    destruct (skeinforge_lines (or_width v w) t) as [[w3 t3]|e] eqn:E3; cbn [bind] in H; [|discriminate H].
    inversion H; subst. constructor; [apply skeinforge_mark_marked|eapply IH; exact E3].
Qed.

(** a layer and its marked version *)
Definition marked_layer (y y' : layer A) : Prop :=
  ly_z y' = ly_z y /\ ly_dur y' = ly_dur y /\ Forall2 marked_line (ly_lines y) (ly_lines y').

Lemma setup_marked : forall profile d ys w ys', setup_filter profile d ys = Ok (w, ys') ->
  Forall2 marked_layer ys ys'.
Proof.
  intros profile d ys w ys' H. unfold setup_filter in H. destruct d.
  - destruct (slic3r_layers false None ys) as [[w1 ys1]|e] eqn:E; cbn [bind] in H; [|discriminate H].
    inversion H; subst. clear H. revert E. generalize false. generalize (@None (num A)).
    revert w1 ys'. induction ys as [|y t IH]; intros w1 ys' o b E; cbn [slic3r_layers] in E.
    + inversion E. constructor.
    + destruct (slic3r_lines _ _ _) as [[[s w2] ls]|e] eqn:E1; cbn [bind] in E; [|discriminate E].
      destruct (slic3r_layers (k_extruding s) w2 t) as [[w3 t3]|e] eqn:E2; cbn [bind] in E; [|discriminate E].
      inversion E; subst. constructor; [|eapply IH; exact E2].
      split; [reflexivity|]. split; [reflexivity|]. eapply slic3r_lines_marked; exact E1.
  - destruct (cura_layers profile false (false, None) ys) as [[[f w1] ys1]|e] eqn:E; cbn [bind] in H; [|discriminate H].
    inversion H; subst. clear H. revert E. generalize false at 1. generalize (false, @None (num A)). generalize (f, w1).
    revert ys'. induction ys as [|y t IH]; intros ys' w' o b E; cbn [cura_layers] in E.
    + inversion E. constructor.
    + destruct (cura_lines _ _ _ _) as [[[s w2] ls]|e] eqn:E1; cbn [bind] in E; [|discriminate E].
      destruct (cura_layers profile (k_extruding s) w2 t) as [[w3 t3]|e] eqn:E2; cbn [bind] in E; [|discriminate E].
      inversion E; subst. constructor; [|eapply IH; exact E2].
      split; [reflexivity|]. split; [reflexivity|]. eapply cura_lines_marked; exact E1.
  - revert H. generalize (@None (num A)). revert w ys'.
    induction ys as [|y t IH]; intros w ys' o E; cbn [skeinforge_layers] in E.
    + inversion E. constructor.
    + destruct (skeinforge_lines _ _) as [[w2 ls]|e] eqn:E1; cbn [bind] in E; [|discriminate E].
      destruct (skeinforge_layers w2 t) as [[w3 t3]|e] eqn:E2; cbn [bind] in E; [|discriminate E].
      inversion E; subst. constructor; [|eapply IH; exact E2].
      split; [reflexivity|]. split; [reflexivity|]. eapply skeinforge_lines_marked; exact E1.
Qed.

(** ** The state of the filter *)

Lemma is_linear_xy : forall l, is_linear l && has_xy l = xy_move l.
Proof.
  intros l. unfold is_linear, has_xy, xy_move, is_command, cmd_in, linear_move_gcodes, is_some.
  destruct (command l) as [c|]; cbn [str_mem existsb]; [|reflexivity].
  rewrite orb_false_r. destruct (l_x l), (l_y l); reflexivity.
Qed.

Definition lengths_of (o : options (A:=A)) (w : option (num A)) := option_map (edge_lengths o) w.

(** the state after the lines [seen] *)
Definition state_ok (o : options (A:=A)) (w : option (num A)) (seen : list (line A)) (s : sstate) : Prop :=
  st_lengths s = lengths_of o w /\
  st_loop s = (match loop_of (map raw seen) with Some _ => true | None => false end) /\
  st_max s = limit o w (loop_of (map raw seen)) /\
  fst (match st_old s with Some v => v | None => (n0, n0, n0) end) = point_of seen /\
  st_feed s = feed_of seen.

(** the same with the latest line not yet executed *)
Definition state_at (o : options (A:=A)) (w : option (num A)) l (seen : list (line A)) (s : sstate) : Prop :=
  st_lengths s = lengths_of o w /\
  st_loop s = (match loop_of (map raw (l :: seen)) with Some _ => true | None => false end) /\
  st_max s = limit o w (loop_of (map raw (l :: seen))) /\
  fst (match st_old s with Some v => v | None => (n0, n0, n0) end) = point_of seen /\
  st_feed s = feed_of seen.

Lemma read_markers_ok : forall o w seen s l s1, state_ok o w seen s ->
  read_markers s l = Ok s1 -> state_at o w l seen s1.
Proof.
  intros o w seen s l s1 (H1 & H2 & H3 & H4 & H5) H. unfold read_markers in H.
  unfold state_at. cbn [map loop_of]. unfold opened, has in *.
  change inner_marker with "stretch-loop-start stretch-inner-edge-start"%string in H.
  change outer_marker with "stretch-loop-start stretch-outer-edge-start"%string in H.
  change start_marker with "stretch-loop-start"%string in H.
  change stop_marker with "stretch-loop-stop"%string in H.
  rewrite H1 in H. unfold lengths_of in *.
  destruct (contains "stretch-loop-start stretch-inner-edge-start" (raw l)).
  { destruct w as [w|]; [|discriminate H]. cbn [option_map] in H. inversion H; subst. repeat split; auto. }
  destruct (contains "stretch-loop-start stretch-outer-edge-start" (raw l)).
  { destruct w as [w|]; [|discriminate H]. cbn [option_map] in H. inversion H; subst. repeat split; auto. }
  destruct (contains "stretch-loop-start" (raw l)).
  { destruct w as [w|]; [|discriminate H]. cbn [option_map] in H. inversion H; subst. repeat split; auto. }
  destruct (contains "stretch-loop-stop" (raw l)).
  { inversion H; subst. cbn [st_lengths st_loop st_max st_old st_feed]. repeat split; auto.
    destruct w; reflexivity. }
  inversion H; subst. repeat split; auto.
Qed.

(** what happens to one line *)
Inductive line_fate (fuel : nat) (d : dialect) (o : options (A:=A)) (w : option (num A))
  (layer_ : list (line A)) (i : nat) (seen : list (line A)) (m : line A) : line A -> Prop :=
| fate_kept l' : to_stretch o w (m :: seen) = false -> reparse m = Ok l' ->
    line_fate fuel d o w layer_ i seen m l'
| fate_moved we move printed old l' :
    w = Some we -> to_stretch o w (m :: seen) = true ->
    fst old = point_of (m :: seen) ->
    absolute_stretch fuel d (edge_lengths o we) layer_ (Z.of_nat i) (Some old)
      (limit o w (loop_of (map raw (m :: seen)))) (point_of (m :: seen)) = Ok (move, printed) ->
    reparse (stretched_line m (point_of (m :: seen)) move (feed_of (m :: seen))) = Ok l' ->
    line_fate fuel d o w layer_ i seen m l'.

Lemma parse_line_ok : forall fuel d o w layer_ i seen s m s1 l1 p l2,
  state_ok o w seen s -> parse_line fuel d layer_ (Z.of_nat i) s m = Ok (s1, l1, p) ->
  reparse l1 = Ok l2 ->
  state_ok o w (m :: seen) s1 /\ line_fate fuel d o w layer_ i seen m l2 /\
  is_stretched s1 m = to_stretch o w (m :: seen).
Proof.
  intros fuel d o w layer_ i seen s m s1 l1 p l2 Hs H Hr. unfold parse_line in H.
  destruct (read_markers s m) as [s0|e] eqn:Em; cbn [bind] in H; [|discriminate H].
  pose proof (read_markers_ok _ _ _ _ _ _ Hs Em) as (H1 & H2 & H3 & H4 & H5).
  assert (Eq : is_linear m && st_loop s0 && has_xy m = loop_move (m :: seen)).
  { unfold loop_move. rewrite <- is_linear_xy, <- H2.
    destruct (is_linear m), (st_loop s0), (has_xy m); reflexivity. }
  rewrite Eq in H. destruct (loop_move (m :: seen)) eqn:El.
  - unfold stretch_line in H.
    remember (get_location (st_old s0) m) as loc eqn:Eloc.
    remember (match l_f m with Some f => if truthy f then f else st_feed s0 | None => st_feed s0 end) as feed eqn:Ef.
    assert (Hloc : fst loc = point_of (m :: seen)).
    { rewrite Eloc. cbn [point_of]. rewrite El. clear Eloc. unfold get_location.
      rewrite <- H4. destruct (st_old s0) as [[[x y] z]|].
      2:{ cbn [fst]. unfold or_else. destruct (l_x m), (l_y m); reflexivity. } cbn [fst]. unfold or_else. destruct (l_x m), (l_y m); reflexivity. }
    assert (Hf : feed = feed_of (m :: seen)).
    { rewrite Ef. cbn [feed_of]. rewrite El, H5. reflexivity. }
    assert (Hok : forall x, x = SState (st_lengths s0) (st_max s0) (st_loop s0) (Some loc) feed ->
                  state_ok o w (m :: seen) x /\ is_stretched x m = to_stretch o w (m :: seen)).
    { intros x ->. split.
      - repeat split; cbn [st_lengths st_loop st_max st_old st_feed]; auto.
      - unfold is_stretched, to_stretch. cbn [st_loop st_max]. rewrite Eq, El, H3. reflexivity. }
    rewrite H3 in H.
    destruct (n_ltb n0 (limit o w (loop_of (map raw (m :: seen))))) eqn:Elt.
    + assert (Ht : to_stretch o w (m :: seen) = true).
      { unfold to_stretch. rewrite El. exact Elt. }
      destruct (st_lengths s0) as [ws|] eqn:Ew; [|discriminate H].
      destruct w as [we|]; [|discriminate H1]. cbn [lengths_of option_map] in H1. inversion H1; subst ws.
      destruct (absolute_stretch _ _ _ _ _ _ _ _) as [[move pr]|e] eqn:Ea; cbn [bind] in H; [|discriminate H].
      inversion H; subst s1 l1 p. rewrite H3 in Hok. split; [apply Hok; reflexivity|]. split; [|apply Hok; reflexivity].
      rewrite Hf in Hr. unfold drop_axis in Ea, Hr. rewrite Hloc in Ea, Hr.
      eapply fate_moved; [reflexivity|exact Ht|exact Hloc|exact Ea|exact Hr].
    + inversion H; subst s1 l1 p. rewrite H3 in Hok. split; [apply Hok; reflexivity|]. split; [|apply Hok; reflexivity].
      apply fate_kept; [|exact Hr]. unfold to_stretch. rewrite El. exact Elt.
  - inversion H; subst s1 l1 p. split; [|split].
    + repeat split; auto; cbn [point_of feed_of]; rewrite El; auto.
      destruct (point_of seen); auto.
    + apply fate_kept; [|exact Hr]. unfold to_stretch. rewrite El. reflexivity.
    + unfold is_stretched, to_stretch. rewrite Eq, El. reflexivity.
Qed.

(** the lines of one layer: [before] as the iterators see them *)
Inductive fates (fuel : nat) (d : dialect) (o : options (A:=A)) (w : option (num A)) :
  list (line A) -> list (line A) -> list (line A) -> list (line A) -> Prop :=
| fates_nil seen before : fates fuel d o w seen before [] []
| fates_cons seen before m t l' t' :
    line_fate fuel d o w (before ++ m :: t) (List.length before) seen m l' ->
    fates fuel d o w (m :: seen) (before ++ [if to_stretch o w (m :: seen) then m else l']) t t' ->
    fates fuel d o w seen before (m :: t) (l' :: t').

Lemma stretch_lines_ok : forall fuel d o w rest seen before s s2 out p,
  state_ok o w seen s -> stretch_lines fuel d s before rest = Ok (s2, out, p) ->
  state_ok o w (rev rest ++ seen) s2 /\ fates fuel d o w seen before rest out.
Proof.
  intros fuel d o w. induction rest as [|m t IH]; intros seen before s s2 out p Hs H; cbn [stretch_lines] in H.
  - inversion H; subst. split; [exact Hs|constructor].
  - destruct (parse_line _ _ _ _ _ _) as [[[s1 l1] p1]|e] eqn:E1; cbn [bind] in H; [|discriminate H].
    destruct (reparse l1) as [l2|e] eqn:E2; cbn [bind] in H; [|discriminate H].
    destruct (stretch_lines _ _ _ _ _) as [[[s3 t3] p3]|e] eqn:E3; cbn [bind] in H; [|discriminate H].
    inversion H; subst s3 out p. clear H.
    destruct (parse_line_ok _ _ _ _ _ _ _ _ _ _ _ _ _ Hs E1 E2) as (G1 & G2 & G3).
    destruct (IH _ _ _ _ _ _ G1 E3) as (G4 & G5). rewrite G3 in G5. split.
    + cbn [rev]. rewrite <- app_assoc. exact G4.
    + constructor; assumption.
Qed.

Lemma stretch_layers_ok : forall fuel d o w ys seen s ys2 p,
  state_ok o w seen s -> stretch_layers fuel d s ys = Ok (ys2, p) ->
  Forall2 (fun y y' => ly_z y' = ly_z y /\ ly_dur y' = ly_dur y) ys ys2 /\
  forall k, (k < List.length ys)%nat ->
    exists y y', nth_error ys k = Some y /\ nth_error ys2 k = Some y' /\
      fates fuel d o w (rev (lines_of (firstn k ys)) ++ seen) [] (ly_lines y) (ly_lines y').
Proof.
  intros fuel d o w. induction ys as [|y t IH]; intros seen s ys2 p Hs H; cbn [stretch_layers] in H.
  - inversion H. split; [constructor|]. intros k Hk. cbn in Hk. lia.
  - destruct (stretch_lines _ _ _ _ _) as [[[s1 ls] p1]|e] eqn:E1; cbn [bind] in H; [|discriminate H].
    destruct (stretch_layers _ _ _ _) as [[t2 p2]|e] eqn:E2; cbn [bind] in H; [|discriminate H].
    inversion H; subst ys2 p. clear H.
    destruct (stretch_lines_ok _ _ _ _ _ _ _ _ _ _ _ Hs E1) as (G1 & G2).
    destruct (IH _ _ _ _ G1 E2) as (G3 & G4). split.
    + constructor; [split; reflexivity|exact G3].
    + intros [|k] Hk.
      * exists y, (set_ly_lines ls y). split; [reflexivity|]. split; [reflexivity|]. exact G2.
      * cbn [List.length] in Hk. destruct (G4 k) as (z & z' & K1 & K2 & K3); [lia|].
        exists z, z'. split; [exact K1|]. split; [exact K2|].
        replace (rev (lines_of (firstn (S k) (y :: t))) ++ seen)
          with (rev (lines_of (firstn k t)) ++ rev (ly_lines y) ++ seen); [exact K3|].
        cbn [firstn]. unfold lines_of. cbn [map List.concat]. rewrite rev_app_distr, app_assoc. reflexivity.
Qed.

(** all lines, wherever they are *)
Inductive flat (fuel : nat) (d : dialect) (o : options (A:=A)) (w : option (num A)) :
  list (line A) -> list (line A) -> list (line A) -> Prop :=
| flat_nil seen : flat fuel d o w seen [] []
| flat_cons seen m t l' t' layer_ i :
    line_fate fuel d o w layer_ i seen m l' -> flat fuel d o w (m :: seen) t t' ->
    flat fuel d o w seen (m :: t) (l' :: t').

Lemma fates_flat : forall fuel d o w seen before rest out,
  fates fuel d o w seen before rest out -> flat fuel d o w seen rest out.
Proof. intros fuel d o w seen before rest out H. induction H; econstructor; eassumption. Qed.

Lemma flat_app : forall fuel d o w seen a a' b b', flat fuel d o w seen a a' ->
  flat fuel d o w (rev a ++ seen) b b' -> flat fuel d o w seen (a ++ b) (a' ++ b').
Proof.
  intros fuel d o w seen a a' b b' H. revert b b'. induction H; intros b b' Hb.
  - exact Hb.
  - cbn [app]. econstructor; [eassumption|]. apply IHflat. cbn [rev] in Hb. rewrite <- app_assoc in Hb. exact Hb.
Qed.

Lemma flat_layers : forall fuel d o w ys seen s ys2 p,
  state_ok o w seen s -> stretch_layers fuel d s ys = Ok (ys2, p) ->
  flat fuel d o w seen (lines_of ys) (lines_of ys2).
Proof.
  intros fuel d o w. induction ys as [|y t IH]; intros seen s ys2 p Hs H; cbn [stretch_layers] in H.
  - inversion H. constructor.
  - destruct (stretch_lines _ _ _ _ _) as [[[s1 ls] p1]|e] eqn:E1; cbn [bind] in H; [|discriminate H].
    destruct (stretch_layers _ _ _ _) as [[t2 p2]|e] eqn:E2; cbn [bind] in H; [|discriminate H].
    inversion H; subst ys2 p. clear H.
    destruct (stretch_lines_ok _ _ _ _ _ _ _ _ _ _ _ Hs E1) as (G1 & G2).
    unfold lines_of. cbn [map List.concat]. apply flat_app.
    + eapply fates_flat. exact G2.
    + eapply IH; eassumption.
Qed.

Lemma flat_nth : forall fuel d o w seen ms ls, flat fuel d o w seen ms ls ->
  List.length ls = List.length ms /\
  forall k m l', nth_error ms k = Some m -> nth_error ls k = Some l' ->
    exists layer_ i, line_fate fuel d o w layer_ i (rev (firstn k ms) ++ seen) m l'.
Proof.
  intros fuel d o w seen ms ls H. induction H as [|seen m t l' t' layer_ i Hf _ (IH1 & IH2)].
  - split; [reflexivity|]. intros [|k] m l' H; discriminate H.
  - split; [cbn; congruence|]. intros [|k] m0 l0 H1 H2; cbn [nth_error] in H1, H2.
    + inversion H1; inversion H2; subst. exists layer_, i. exact Hf.
    + destruct (IH2 k m0 l0 H1 H2) as (layer0 & i0 & Hf0). exists layer0, i0.
      cbn [firstn rev]. rewrite <- app_assoc. exact Hf0.
Qed.

Lemma init_state : forall o w, state_ok o w []
  (SState (option_map (edge_lengths o) w) n0 false None (lit 9590 1)).
Proof. intros o w. repeat split. destruct w; reflexivity. Qed.

Lemma marked_layers_lines : forall ys ys' : list (layer A), Forall2 marked_layer ys ys' ->
  Forall2 marked_line (lines_of ys) (lines_of ys') /\
  map (fun y => List.length (ly_lines y)) ys' = map (fun y => List.length (ly_lines y)) ys /\
  map ly_z ys' = map ly_z ys /\ map ly_dur ys' = map ly_dur ys.
Proof.
  intros ys ys' H. induction H as [|y y' t t' (H1 & H2 & H3) _ (I1 & I2 & I3 & I4)].
  - repeat split. constructor.
  - split; [|split; [|split]].
    + unfold lines_of. cbn [map List.concat]. apply Forall2_app; assumption.
    + cbn [map]. rewrite I2. f_equal. symmetry. clear - H3. induction H3; cbn; congruence.
    + cbn [map]. congruence.
    + cbn [map]. congruence.
Qed.

Lemma stretch_layers_shape : forall fuel d ys s ys2 p, stretch_layers (A:=A) fuel d s ys = Ok (ys2, p) ->
  map (fun y => List.length (ly_lines y)) ys2 = map (fun y => List.length (ly_lines y)) ys /\
  map ly_z ys2 = map ly_z ys /\ map ly_dur ys2 = map ly_dur ys.
Proof.
  intros fuel d. 
  assert (HL : forall rest before s s2 out p, stretch_lines (A:=A) fuel d s before rest = Ok (s2, out, p) ->
               List.length out = List.length rest).
  { induction rest as [|m t IH]; intros before s s2 out p H; cbn [stretch_lines] in H.
    - inversion H. reflexivity.
    - destruct (parse_line _ _ _ _ _ _) as [[[s1 l1] p1]|e]; cbn [bind] in H; [|discriminate H].
      destruct (reparse l1) as [l2|e]; cbn [bind] in H; [|discriminate H].
      destruct (stretch_lines _ _ _ _ _) as [[[s3 t3] p3]|e] eqn:E3; cbn [bind] in H; [|discriminate H].
      inversion H; subst. cbn [List.length]. f_equal. eapply IH. exact E3. }
  induction ys as [|y t IH]; intros s ys2 p H; cbn [stretch_layers] in H.
  - inversion H. repeat split.
  - destruct (stretch_lines _ _ _ _ _) as [[[s1 ls] p1]|e] eqn:E1; cbn [bind] in H; [|discriminate H].
    destruct (stretch_layers _ _ _ _) as [[t2 p2]|e] eqn:E2; cbn [bind] in H; [|discriminate H].
    inversion H; subst. destruct (IH _ _ _ E2) as (I1 & I2 & I3). cbn [map set_ly_lines ly_lines ly_z ly_dur].
    apply HL in E1. repeat split; f_equal; auto.
Qed.

Lemma lines_of_all : forall g : gcode A, lines_of (g_layers g) = all_lines g.
Proof. reflexivity. Qed.

(** the whole filter: every line of the answer *)
Lemma stretch_ok : forall profile fuel d o (g g' : gcode A) printed,
  stretch profile fuel d o g = Ok (g', printed) ->
  exists w ys, setup_filter profile d (g_layers g) = Ok (w, ys) /\
    same_frame g g' /\
    map (fun y => List.length (ly_lines y)) (g_layers g') = map (fun y => List.length (ly_lines y)) (g_layers g) /\
    Forall2 marked_line (all_lines g) (lines_of ys) /\
    List.length (all_lines g') = List.length (lines_of ys) /\
    forall k m l', nth_error (lines_of ys) k = Some m -> nth_error (all_lines g') k = Some l' ->
      exists layer_ i, line_fate fuel d o w layer_ i (rev (firstn k (lines_of ys))) m l'.
Proof.
  intros profile fuel d o g g' printed H. unfold stretch in H.
  destruct (setup_filter profile d (g_layers g)) as [[w ys]|e] eqn:E1; cbn [bind] in H; [|discriminate H].
  destruct (stretch_layers _ _ _ _) as [[ys2 p]|e] eqn:E2; cbn [bind] in H; [|discriminate H].
  inversion H; subst g' printed. clear H. exists w, ys. split; [reflexivity|].
  pose proof (setup_marked _ _ _ _ _ E1) as Hm. apply marked_layers_lines in Hm as (M1 & M2 & M3 & M4).
  pose proof (stretch_layers_shape _ _ _ _ _ _ E2) as (S1 & S2 & S3).
  pose proof (flat_layers _ _ _ _ _ _ _ _ _ (init_state o w) E2) as F. apply flat_nth in F as (F1 & F2).
  split; [|split; [|split; [|split]]].
  - apply set_layers_frame; congruence.
  - unfold set_layers. cbn [set_lines_layers g_layers]. congruence.
  - exact M1.
  - exact F1.
  - intros k m l' H1 H2. destruct (F2 k m l' H1 H2) as (la & i & Hf). exists la, i.
    rewrite app_nil_r in Hf. exact Hf.
Qed.

End P.

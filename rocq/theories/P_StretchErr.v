(** * P_StretchErr: where a stretch filter fails *)
From Coq Require Import List Ascii String ZArith NArith Bool Lia.
From Verif Require Import PyBase Arith Gcoder Filters SpecText SpecLoad SpecFilter Stretch SpecStretch
  P_Load P_Measure P_Filter P_Stretch P_StretchIter P_StretchEnd.
Import ListNotations.
Local Open Scope list_scope.

Section P.
Context {A : arith}.
Implicit Type l : line A.

(** a line as the iterators see it after the filter has passed *)
Definition passed (m b : line A) : Prop := b = m \/ reparse m = Ok b.

(** why the line [m] fails *)
Inductive blame (fuel : nat) (d : dialect) (o : options (A:=A)) (w : option (num A))
  (seen before : list (line A)) (m : line A) (t : list (line A)) : exn -> Prop :=
| blame_width : w = None -> blame fuel d o w seen before m t AttributeError
| blame_stretch we old e : w = Some we -> to_stretch o w (m :: seen) = true ->
    absolute_stretch fuel d (edge_lengths o we) (before ++ m :: t) (Z.of_nat (List.length before)) (Some old)
      (limit o w (loop_of (map raw (m :: seen)))) (point_of (m :: seen)) = Err e ->
    blame fuel d o w seen before m t e
| blame_moved we old move printed e : w = Some we -> to_stretch o w (m :: seen) = true ->
    absolute_stretch fuel d (edge_lengths o we) (before ++ m :: t) (Z.of_nat (List.length before)) (Some old)
      (limit o w (loop_of (map raw (m :: seen)))) (point_of (m :: seen)) = Ok (move, printed) ->
    reparse (stretched_line m (point_of (m :: seen)) move (feed_of (m :: seen))) = Err e ->
    blame fuel d o w seen before m t e
| blame_kept e : to_stretch o w (m :: seen) = false -> reparse m = Err e -> blame fuel d o w seen before m t e.

Lemma read_markers_err : forall o w seen s (m : line A) e, state_ok o w seen s -> read_markers s m = Err e ->
  e = AttributeError /\ w = None /\ opened (raw m) <> None.
Proof.
  intros o w seen s m e (H1 & _) H. unfold read_markers, has in H.
  change inner_marker with "stretch-loop-start stretch-inner-edge-start"%string in H.
  change outer_marker with "stretch-loop-start stretch-outer-edge-start"%string in H.
  change start_marker with "stretch-loop-start"%string in H.
  change stop_marker with "stretch-loop-stop"%string in H.
  unfold opened. rewrite H1 in H. unfold lengths_of in H.
  destruct w as [w|]; cbn [option_map] in H.
  { repeat match type of H with context [if ?x then _ else _] => destruct x; try discriminate H end. }
  repeat match type of H with context [if ?x then _ else _] => destruct x; try discriminate H end;
    inversion H; repeat split; discriminate.
Qed.

Lemma parse_line_err : forall fuel d o w seen s before (m : line A) t e, state_ok o w seen s ->
  parse_line fuel d (before ++ m :: t) (Z.of_nat (List.length before)) s m = Err e ->
  blame fuel d o w seen before m t e.
Proof.
  intros fuel d o w seen s before m t e Hs H. unfold parse_line in H.
  destruct (read_markers s m) as [s0|e0] eqn:Em; cbn [bind] in H.
  2:{ inversion H; subst e0. destruct (read_markers_err _ _ _ _ _ _ Hs Em) as (-> & H1 & _). constructor; assumption. }
  pose proof (read_markers_ok _ _ _ _ _ _ Hs Em) as (H1 & H2 & H3 & H4 & H5).
  assert (Eq : is_linear m && st_loop s0 && has_xy m = loop_move (m :: seen)).
  { unfold loop_move. rewrite <- is_linear_xy, <- H2. destruct (is_linear m), (st_loop s0), (has_xy m); reflexivity. }
  rewrite Eq in H. destruct (loop_move (m :: seen)) eqn:El; [|discriminate H].
  unfold stretch_line in H. remember (get_location (st_old s0) m) as loc eqn:Eloc.
  assert (Hloc : fst loc = point_of (m :: seen)).
  { rewrite Eloc. cbn [point_of]. rewrite El. clear Eloc. unfold get_location.
    rewrite <- H4. destruct (st_old s0) as [[[x y] z]|]; cbn [fst]; unfold or_else; destruct (l_x m), (l_y m); reflexivity. }
  rewrite H3 in H. destruct (n_ltb n0 (limit o w (loop_of (map raw (m :: seen))))) eqn:Elt; [|discriminate H].
  assert (Ht : to_stretch o w (m :: seen) = true) by (unfold to_stretch; rewrite El; exact Elt).
  destruct (st_lengths s0) as [ws|] eqn:Ew.
  - destruct w as [we|]; [|discriminate H1]. cbn [lengths_of option_map] in H1. inversion H1; subst ws.
    destruct (absolute_stretch _ _ _ _ _ _ _ _) as [[move pr]|e0] eqn:Ea; cbn [bind] in H; [discriminate H|].
    inversion H; subst e0. unfold drop_axis in Ea. rewrite Hloc in Ea.
    eapply blame_stretch; [reflexivity|exact Ht|exact Ea].
  - destruct w as [we|]; [discriminate H1|]. inversion H; subst e. constructor. reflexivity.
Qed.

(** the line is handled but its result cannot be read *)
Lemma reparse_blame : forall fuel d o w seen s before (m : line A) t s1 l1 p1 e, state_ok o w seen s ->
  parse_line fuel d (before ++ m :: t) (Z.of_nat (List.length before)) s m = Ok (s1, l1, p1) -> reparse l1 = Err e ->
  blame fuel d o w seen before m t e.
Proof.
  intros fuel d o w seen s before m t s1 l1 p1 e Hs E1 E2.
    unfold parse_line in E1. destruct (read_markers s m) as [s0|e0] eqn:Em; cbn [bind] in E1; [|discriminate E1].
    pose proof (read_markers_ok _ _ _ _ _ _ Hs Em) as (H1 & H2 & H3 & H4 & H5).
    assert (Eq : is_linear m && st_loop s0 && has_xy m = loop_move (m :: seen)).
    { unfold loop_move. rewrite <- is_linear_xy, <- H2. destruct (is_linear m), (st_loop s0), (has_xy m); reflexivity. }
    rewrite Eq in E1. destruct (loop_move (m :: seen)) eqn:El.
    2:{ inversion E1; subst. apply blame_kept; [|exact E2]. unfold to_stretch. rewrite El. reflexivity. }
    unfold stretch_line in E1. remember (get_location (st_old s0) m) as loc eqn:Eloc.
    assert (Hloc : fst loc = point_of (m :: seen)).
    { rewrite Eloc. cbn [point_of]. rewrite El. clear Eloc. unfold get_location.
      rewrite <- H4. destruct (st_old s0) as [[[x y] z]|]; cbn [fst]; unfold or_else; destruct (l_x m), (l_y m); reflexivity. }
    rewrite H3 in E1. destruct (n_ltb n0 (limit o w (loop_of (map raw (m :: seen))))) eqn:Elt.
    2:{ inversion E1; subst. apply blame_kept; [|exact E2]. unfold to_stretch. rewrite El. exact Elt. }
    assert (Ht : to_stretch o w (m :: seen) = true) by (unfold to_stretch; rewrite El; exact Elt).
    destruct (st_lengths s0) as [ws|] eqn:Ew; [|discriminate E1].
    destruct w as [we|]; [|discriminate H1]. cbn [lengths_of option_map] in H1. inversion H1; subst ws.
    destruct (absolute_stretch _ _ _ _ _ _ _ _) as [[move pr]|e0] eqn:Ea; cbn [bind] in E1; [|discriminate E1].
    inversion E1; subst s1 l1 p1. unfold drop_axis in Ea, E2. rewrite Hloc in Ea, E2.
    eapply blame_moved; [reflexivity|exact Ht|exact Ea|].
    rewrite H5 in E2. cbn [feed_of]. rewrite El. exact E2.
Qed.

Lemma stretch_lines_err : forall fuel d o w rest seen before s e, state_ok o w seen s ->
  stretch_lines fuel d s before rest = Err e ->
  exists (m1 : list (line A)) m t bs, rest = m1 ++ m :: t /\ Forall2 passed m1 bs /\
    blame fuel d o w (rev m1 ++ seen) (before ++ bs) m t e.
Proof.
  intros fuel d o w. induction rest as [|m t IH]; intros seen before s e Hs H; cbn [stretch_lines] in H; [discriminate H|].
  destruct (parse_line _ _ _ _ _ _) as [[[s1 l1] p1]|e1] eqn:E1; cbn [bind] in H.
  2:{ inversion H; subst e1. exists [], m, t, []. split; [reflexivity|]. split; [constructor|].
      rewrite app_nil_r. eapply parse_line_err; eassumption. }
  destruct (reparse l1) as [l2|e2] eqn:E2; cbn [bind] in H.
  - destruct (parse_line_ok _ _ _ _ _ _ _ _ _ _ _ _ _ Hs E1 E2) as (G1 & G2 & G3).
    destruct (stretch_lines _ _ _ _ _) as [[[s3 t3] p3]|e3] eqn:E3; cbn [bind] in H; [discriminate H|].
    inversion H; subst e3. destruct (IH _ _ _ _ G1 E3) as (m1 & m' & t' & bs & -> & F & B).
    exists (m :: m1), m', t', ((if is_stretched s1 m then m else l2) :: bs). split; [reflexivity|]. split.
    + constructor; [|exact F]. unfold passed. destruct (is_stretched s1 m) eqn:Ei; [now left|]. right.
      rewrite G3 in Ei. destruct G2 as [l' _ Hr|]; [exact Hr|congruence].
    + cbn [rev]. rewrite <- app_assoc. cbn [app]. rewrite <- app_assoc in B. exact B.
  - inversion H; subst e2. exists [], m, t, []. split; [reflexivity|]. split; [constructor|].
    rewrite app_nil_r. cbn [rev app].
    eapply reparse_blame; eassumption.
Qed.

(** the lines as the iterators see them: what is stretched is kept *)
Definition passed_lines (o : options (A:=A)) (w : option (num A)) (seen m1 bs : list (line A)) : Prop :=
  List.length bs = List.length m1 /\
  forall j mj, nth_error m1 j = Some mj -> exists bj, nth_error bs j = Some bj /\
    if to_stretch o w (rev (firstn (S j) m1) ++ seen) then bj = mj else reparse mj = Ok bj.

Lemma stretch_lines_blame : forall fuel d o w rest seen before s e, state_ok o w seen s ->
  stretch_lines fuel d s before rest = Err e ->
  exists (m1 : list (line A)) m t bs, rest = m1 ++ m :: t /\ passed_lines o w seen m1 bs /\
    blame fuel d o w (rev m1 ++ seen) (before ++ bs) m t e.
Proof.
  intros fuel d o w. induction rest as [|m t IH]; intros seen before s e Hs H; cbn [stretch_lines] in H; [discriminate H|].
  destruct (parse_line _ _ _ _ _ _) as [[[s1 l1] p1]|e1] eqn:E1; cbn [bind] in H.
  2:{ inversion H; subst e1. exists [], m, t, []. split; [reflexivity|]. split; [split; [reflexivity|intros [|j] mj Hj; discriminate Hj]|].
      rewrite app_nil_r. eapply parse_line_err; eassumption. }
  destruct (reparse l1) as [l2|e2] eqn:E2; cbn [bind] in H.
  2:{ inversion H; subst e2. exists [], m, t, []. split; [reflexivity|]. split; [split; [reflexivity|intros [|j] mj Hj; discriminate Hj]|].
      rewrite app_nil_r. eapply reparse_blame; eassumption. }
  destruct (parse_line_ok _ _ _ _ _ _ _ _ _ _ _ _ _ Hs E1 E2) as (G1 & G2 & G3).
  destruct (stretch_lines _ _ _ _ _) as [[[s3 t3] p3]|e3] eqn:E3; cbn [bind] in H; [discriminate H|].
  inversion H; subst e3. destruct (IH _ _ _ _ G1 E3) as (m1 & m' & t' & bs & -> & [F1 F2] & B).
  exists (m :: m1), m', t', ((if is_stretched s1 m then m else l2) :: bs). split; [reflexivity|]. split.
  - split; [cbn; congruence|]. intros [|j] mj Hj; cbn [nth_error] in *.
    + inversion Hj; subst mj. eexists. split; [reflexivity|]. cbn [firstn rev app]. rewrite <- G3.
      destruct (is_stretched s1 m) eqn:Ei; [reflexivity|]. rewrite G3 in Ei. destruct G2 as [l' _ Hr|]; [exact Hr|congruence].
    + destruct (F2 j mj Hj) as (bj & B1 & B2). exists bj. split; [exact B1|].
      rewrite firstn_cons. cbn [rev]. rewrite <- app_assoc. exact B2.
  - cbn [rev]. rewrite <- app_assoc. cbn [app]. rewrite <- app_assoc in B. exact B.
Qed.

Lemma stretch_layers_blame : forall fuel d o w ys seen s e, state_ok o w seen s ->
  stretch_layers fuel d s ys = Err e ->
  exists pre y post (m1 : list (line A)) m t bs, ys = pre ++ y :: post /\ ly_lines y = m1 ++ m :: t /\
    passed_lines o w (rev (lines_of pre) ++ seen) m1 bs /\ blame fuel d o w (rev m1 ++ rev (lines_of pre) ++ seen) bs m t e.
Proof.
  intros fuel d o w. induction ys as [|y t IH]; intros seen s e Hs H; cbn [stretch_layers] in H; [discriminate H|].
  destruct (stretch_lines _ _ _ _ _) as [[[s1 ls] p1]|e1] eqn:E1; cbn [bind] in H.
  - destruct (stretch_layers _ _ _ _) as [[t2 p2]|e2] eqn:E2; cbn [bind] in H; [discriminate H|].
    inversion H; subst e2. destruct (stretch_lines_ok _ _ _ _ _ _ _ _ _ _ _ Hs E1) as (G1 & _).
    destruct (IH _ _ _ G1 E2) as (pre & y' & post & m1 & m & t' & bs & -> & B1 & B2 & B3). exists (y :: pre), y', post, m1, m, t', bs.
    split; [reflexivity|]. unfold lines_of in *. cbn [map List.concat]. rewrite rev_app_distr, <- app_assoc. auto.
  - inversion H; subst e1. destruct (stretch_lines_blame _ _ _ _ _ _ _ _ _ Hs E1) as (m1 & m & t' & bs & H1 & H2 & H3).
    exists [], y, t, m1, m, t', bs. split; [reflexivity|]. cbn. auto.
Qed.

(** [blame] of a line of a layer: [ls] are its marked lines *)
Definition layer_blame fuel d o w (seen ls : list (line A)) (e : exn) : Prop :=
  exists (m1 : list (line A)) m t bs, ls = m1 ++ m :: t /\ Forall2 passed m1 bs /\
    blame fuel d o w (rev m1 ++ seen) bs m t e.

Lemma stretch_layers_err : forall fuel d o w ys seen s e, state_ok o w seen s ->
  stretch_layers fuel d s ys = Err e ->
  exists pre y post, ys = pre ++ y :: post /\ layer_blame fuel d o w (rev (lines_of pre) ++ seen) (ly_lines y) e.
Proof.
  intros fuel d o w. induction ys as [|y t IH]; intros seen s e Hs H; cbn [stretch_layers] in H; [discriminate H|].
  destruct (stretch_lines _ _ _ _ _) as [[[s1 ls] p1]|e1] eqn:E1; cbn [bind] in H.
  - destruct (stretch_layers _ _ _ _) as [[t2 p2]|e2] eqn:E2; cbn [bind] in H; [discriminate H|].
    inversion H; subst e2. destruct (stretch_lines_ok _ _ _ _ _ _ _ _ _ _ _ Hs E1) as (G1 & _).
    destruct (IH _ _ _ G1 E2) as (pre & y' & post & -> & B). exists (y :: pre), y', post. split; [reflexivity|].
    unfold lines_of in *. cbn [map List.concat]. rewrite rev_app_distr, <- app_assoc. exact B.
  - inversion H; subst e1. destruct (stretch_lines_err _ _ _ _ _ _ _ _ _ Hs E1) as (m1 & m & t' & bs & H1 & H2 & H3).
    exists [], y, t. split; [reflexivity|]. cbn. exists m1, m, t', bs. auto.
Qed.

Lemma stretch_err : forall profile fuel d o (g : gcode A) e, stretch profile fuel d o g = Err e ->
  setup_filter profile d (g_layers g) = Err e \/
  exists w ys pre y post, setup_filter profile d (g_layers g) = Ok (w, ys) /\ ys = pre ++ y :: post /\
    layer_blame fuel d o w (rev (lines_of pre)) (ly_lines y) e.
Proof.
  intros profile fuel d o g e H. unfold stretch in H.
  destruct (setup_filter profile d (g_layers g)) as [[w ys]|e0] eqn:E1; cbn [bind] in H; [|left; congruence].
  right. destruct (stretch_layers _ _ _ _) as [[ys2 p]|e2] eqn:E2; cbn [bind] in H; [discriminate H|].
  inversion H; subst e2. destruct (stretch_layers_err _ _ _ _ _ _ _ _ (init_state o w) E2) as (pre & y & post & H1 & H2).
  exists w, ys, pre, y, post. rewrite app_nil_r in H2. auto.
Qed.

(** ** What is never an exhausted fuel *)

Lemma parse_coordinates_fuel : forall imp ws (l : line A), parse_coordinates imp ws l <> Err OutOfFuel.
Proof.
  intros imp ws l. unfold parse_coordinates. destruct (command l) as [c|]; [|discriminate].
  destruct (first_is "G" c); [|discriminate]. revert l. induction ws as [|[k v] ws IH]; intros l; cbn [foldM]; [discriminate|].
  unfold parse_word. destruct (letter_of_code k); cbn [bind]; [|apply IH].
  destruct (is_empty v); cbn [bind]; [apply IH|]. destruct (py_float v); cbn [bind]; [apply IH|discriminate].
Qed.

Lemma reparse_fuel : forall l : line A, reparse l <> Err OutOfFuel.
Proof. intros l. unfold reparse. destruct (split l) as [l1 toks]. apply parse_coordinates_fuel. Qed.

Lemma read_width_fuel : forall v, read_width (A:=A) v <> Err OutOfFuel.
Proof. intros [t|]; cbn; [destruct (py_float t)|]; discriminate. Qed.

Lemma slic3r_lines_fuel : forall ls s w, slic3r_lines (A:=A) s w ls <> Err OutOfFuel.
Proof.
  induction ls as [|l t IH]; intros s w; cbn [slic3r_lines]; [discriminate|].
  destruct (mark_extrusion s l) as [s1 l1]. destruct (slic3r_kind s1 l1 t) as [s2 l2].
  pose proof (read_width_fuel (slic3r_width (raw l2))) as Hw.
  destruct (read_width (slic3r_width (raw l2))) as [v|e]; cbn [bind]; [|congruence].
  specialize (IH s2 (or_width v w)). destruct (slic3r_lines s2 (or_width v w) t) as [[[s3 w3] t3]|e]; cbn [bind]; [discriminate|congruence].
Qed.

Lemma slic3r_layers_fuel : forall ys b w, slic3r_layers (A:=A) b w ys <> Err OutOfFuel.
Proof.
  induction ys as [|y t IH]; intros b w; cbn [slic3r_layers]; [discriminate|].
  pose proof (slic3r_lines_fuel (ly_lines y) (MarkState b Unknown true None) w) as H1.
  destruct (slic3r_lines _ w (ly_lines y)) as [[[s w1] ls]|e]; cbn [bind]; [|congruence].
  specialize (IH (k_extruding s) w1). destruct (slic3r_layers (k_extruding s) w1 t) as [[w2 t2]|e]; cbn [bind]; [discriminate|congruence].
Qed.

Lemma passed_raw : forall m b : line A, passed m b -> raw b = raw m.
Proof. intros m b [-> |H]; [reflexivity|]. unfold reparse in H. pose proof (split_raw m) as Hs.
  destruct (split m) as [l1 toks]. cbn [fst] in Hs. apply parse_coordinates_raw in H. congruence.
Qed.

Lemma for_loop_moves_app : forall p pre (seen : list (line A)) y post, for_loop_moves p seen (pre ++ y :: post) = true ->
  forall i, i < List.length (ly_lines y) ->
    loop_move (rev (firstn (S i) (ly_lines y)) ++ rev (lines_of pre) ++ seen) = true -> p (ly_lines y) i = true.
Proof.
  intros p. induction pre as [|x pre IH]; intros seen y post H i Hi Hl; cbn [app for_loop_moves] in H; apply andb_prop in H as [H1 H2].
  - rewrite forallb_forall in H1. specialize (H1 i). unfold lines_of in Hl. cbn [map List.concat rev app] in Hl. rewrite Hl in H1. apply H1, in_seq. lia.
  - eapply IH; [exact H2|exact Hi|]. unfold lines_of in *. cbn [map List.concat] in Hl.
    rewrite rev_app_distr, <- app_assoc in Hl. exact Hl.
Qed.

Lemma Forall2_passed_len : forall m1 bs : list (line A), Forall2 passed m1 bs -> List.length bs = List.length m1.
Proof. intros m1 bs H. induction H; cbn; congruence. Qed.

Lemma passed_raws : forall (m1 bs : list (line A)) m t, Forall2 passed m1 bs -> map raw (bs ++ m :: t) = map raw (m1 ++ m :: t).
Proof.
  intros m1 bs m t H. rewrite !map_app. f_equal. induction H as [|a b m1 bs Hab Hp IH]; [reflexivity|].
  cbn. f_equal; [apply passed_raw, Hab|exact IH].
Qed.

Lemma firstn_here : forall (m1 : list (line A)) m t, rev (firstn (S (List.length m1)) (m1 ++ m :: t)) = m :: rev m1.
Proof.
  intros m1 m t. rewrite firstn_app, firstn_all2 by lia. replace (S (List.length m1) - List.length m1) with 1 by lia.
  cbn [firstn]. rewrite rev_app_distr. reflexivity.
Qed.

(** if the stretch of no move of a loop runs out of fuel, the filter does not *)
Lemma ends_everywhere : forall profile fuel d o (g : gcode A) w ys p,
  setup_filter profile d (g_layers g) = Ok (w, ys) -> for_loop_moves p [] ys = true ->
  (forall y m1 m t bs we old max loc, In y ys -> ly_lines y = m1 ++ m :: t -> Forall2 passed m1 bs -> xy_move m = true ->
     p (ly_lines y) (List.length m1) = true ->
     absolute_stretch fuel d we (bs ++ m :: t) (Z.of_nat (List.length bs)) old max loc <> Err OutOfFuel) ->
  stretch profile fuel d o g <> Err OutOfFuel.
Proof.
  intros profile fuel d o g w ys p Hset Hp Ha H. apply stretch_err in H as [H|H]; [congruence|].
  destruct H as (w' & ys' & pre & y & post & E & Ey & m1 & m & t & bs & Els & Hpass & Hb).
  rewrite Hset in E. assert (Ew : w' = w) by congruence. assert (Eys : ys = pre ++ y :: post) by congruence.
  clear E Ey ys'. subst w' ys.
  inversion Hb; subst.
  - match goal with Ht : to_stretch _ _ _ = true, Hx : absolute_stretch _ _ _ _ _ _ _ _ = _ |- _ =>
      unfold to_stretch in Ht; apply andb_prop in Ht as [Ht _]; revert Hx; apply (Ha y m1 m t bs);
        [apply in_or_app; right; now left|exact Els|exact Hpass| |] end.
    + unfold loop_move in *. match goal with H : _ && _ = true |- _ => apply andb_prop in H as [? ?]; assumption end.
    + apply (for_loop_moves_app p pre [] y post Hp); [rewrite Els, app_length; cbn [List.length]; lia|].
      rewrite Els, firstn_here, app_nil_r. assumption.
  - match goal with Hr : reparse _ = Err OutOfFuel |- _ => exact (reparse_fuel _ Hr) end.
  - match goal with Hr : reparse _ = Err OutOfFuel |- _ => exact (reparse_fuel _ Hr) end.
Qed.

(** C62: enclosed loops *)
Lemma slic3r_ends : forall profile fuel o (g : gcode A) w ys,
  setup_filter profile Slic3r (g_layers g) = Ok (w, ys) -> all_enclosed [] ys = true ->
  (forall y, In y ys -> 2 * List.length (ly_lines y) + 6 < fuel) ->
  stretch profile fuel Slic3r o g <> Err OutOfFuel.
Proof.
  intros profile fuel o g w ys Hset Henc Hfuel. eapply ends_everywhere; [exact Hset|exact Henc|].
  intros y m1 m t bs we old max loc Hy Els Hpass _ He C.
  pose proof (Forall2_passed_len _ _ Hpass) as Hlen. pose proof (passed_raws _ _ m t Hpass) as Hraw.
  pose proof (absolute_ends (bs ++ m :: t) (List.length bs)) as H.
  specialize (H ltac:(rewrite app_length; cbn [List.length]; lia)).
  specialize (H ltac:(rewrite Hraw, Hlen, <- Els; exact He) True (or_introl I) fuel we old max loc).
  rewrite C in H. specialize (H eq_refl). specialize (Hfuel y Hy).
  rewrite Els in Hfuel. rewrite app_length in H, Hfuel. lia.
Qed.
End P.

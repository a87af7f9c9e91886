(** * P_StretchTotal: Cura's walls end, and nothing is printed for loops that begin
    and end in one layer *)
From Coq Require Import List Ascii String ZArith NArith Bool Lia.
From Verif Require Import PyBase Arith Gcoder Filters SpecText SpecLoad SpecFilter Stretch SpecStretch
  P_Load P_Measure P_Filter P_Stretch P_StretchIter P_StretchEnd P_StretchWall P_StretchErr P_StretchRead P_Machine SpecMachine.
Import ListNotations.
Local Open Scope list_scope.

Section P.
Context {A : arith}.
Implicit Type l : line A.

(** ** A wall is told by the texts and the moves *)

Lemma existsb_ext_in : forall (p q : nat -> bool) s, (forall k, p k = q k) -> existsb p s = existsb q s.
Proof. intros p q s H. induction s as [|x s IH]; cbn; [reflexivity|]. rewrite H, IH. reflexivity. Qed.
Lemma find_ext_in : forall (p q : nat -> bool) s, (forall k, p k = q k) -> find p s = find q s.
Proof. intros p q s H. induction s as [|x s IH]; cbn; [reflexivity|]. rewrite H, IH. reflexivity. Qed.

Lemma moves_at_ext : forall (a b : list (line A)), map xy_move a = map xy_move b -> forall k, moves_at a k = moves_at b k.
Proof.
  intros a b H k. unfold moves_at.
  assert (E : option_map xy_move (nth_error a k) = option_map xy_move (nth_error b k)).
  { rewrite <- !nth_error_map, H. reflexivity. }
  destruct (nth_error a k), (nth_error b k); cbn in E; congruence.
Qed.

Lemma walled_ext : forall (a b : list (line A)) i, map raw a = map raw b -> map xy_move a = map xy_move b ->
  walled a i = walled b i.
Proof.
  intros a b i Hr Hm. pose proof (moves_at_ext a b Hm) as Ha.
  assert (Hn : List.length a = List.length b) by (rewrite <- (map_length raw a), <- (map_length raw b), Hr; reflexivity).
  assert (H1 : forall k, stop_seen a k = stop_seen b k).
  { intros k. unfold stop_seen. rewrite Hr. destruct k; [reflexivity|]. rewrite Ha. reflexivity. }
  assert (H2 : forall k, start_seen a k = start_seen b k) by (intros k; unfold start_seen; rewrite Hr, Ha; reflexivity).
  unfold walled. cbv zeta. rewrite Hr, Hn.
  unfold next_number, last_number, no_number.
  rewrite (find_ext_in _ _ _ H1), (find_ext_in _ _ (rev (seq 0 (S i))) H2).
  f_equal. apply f_equal2; [apply f_equal2; [reflexivity|]|].
  - destruct (find _ (seq (S i) _)) as [f|]; [|reflexivity]. f_equal. apply existsb_ext_in, H2.
  - destruct (find _ _) as [f|]; [|reflexivity]. f_equal. apply existsb_ext_in, H1.
Qed.

(** ** Marked lines remain moves *)

Lemma reparse_linear : forall l l', reparse l = Ok l' -> xy_move l' = true -> is_move l' = true.
Proof.
  intros l l' H Hx. rewrite reparse_read in H.
  assert (Hc : cmd_in (command l') move_gcodes = true).
  { rewrite <- is_linear_xy in Hx. apply andb_prop in Hx as [Hx _]. unfold is_linear, cmd_in in Hx |- *.
    destruct (command l') as [c|]; [|discriminate Hx]. cbn [str_mem existsb linear_move_gcodes] in Hx.
    cbn [str_mem existsb move_gcodes].
    destruct (String.eqb "G0" c), (String.eqb "G1" c), (String.eqb c "G0"), (String.eqb c "G1"); cbn in *; congruence. }
  unfold read_into in H. destruct (words (raw l)) as [|[c v] t] eqn:Ew.
  - exfalso. destruct (no_command _ Ew) as [N1 N2].
    unfold parse_coordinates in H. cbn [command set_command] in H. rewrite N2 in H.
    injection H as <-. cbn [command set_command] in Hc. congruence.
  - set (cmd := if String.eqb c "" && String.eqb v "" then command l else Some (upper c ++ v)%string) in *.
    assert (K : command l' = cmd /\ is_move l' = cmd_in cmd move_gcodes).
    { clear Hc Hx. unfold parse_coordinates in H. cbn [command set_command] in H. destruct cmd as [cc|] eqn:Ecmd.
      - destruct (first_is "G" cc); [|injection H as <-; split; reflexivity].
        destruct (parse_words_fixed _ _ _ _ H) as (_ & K1 & K2 & _). split; assumption.
      - injection H as <-. split; reflexivity. }
    destruct K as [K1 K2]. rewrite K2, <- K1. exact Hc.
Qed.

Lemma marked_steady : forall l m, settled l -> markable (raw l) -> marked_line l m -> steady m.
Proof.
  intros l m Hs Hk [Hm Hmk] l' H.
  assert (Em : xy_move m = xy_move l).
  { destruct Hm as (H1 & _ & H3 & _). unfold xy_move, is_command, l_x, l_y. rewrite H1, H3. reflexivity. }
  destruct (settled_marked l m l' Hs Hk Hm Hmk H) as (R1 & R2 & R3 & R4).
  destruct (recognised (raw l)) eqn:Er.
  - rewrite Em. unfold xy_move, is_command, l_x, l_y. rewrite (R1 eq_refl), R3. reflexivity.
  - assert (Hf : is_move l = false).
    { unfold recognised in Er. destruct (words (raw l)) as [|w t] eqn:Ew; [|discriminate Er].
      destruct (no_command _ Ew) as [N1 N2]. unfold settled in Hs. rewrite reparse_read, Ew in Hs.
      cbn [read_into] in Hs. unfold parse_coordinates in Hs. cbn [command set_command] in Hs. rewrite N2 in Hs.
      injection Hs as Hs. rewrite <- Hs. reflexivity. }
    rewrite Em. transitivity false.
    + destruct (xy_move l') eqn:E; [|reflexivity]. pose proof (reparse_linear _ _ H E). congruence.
    + symmetry. destruct (xy_move l) eqn:E; [|reflexivity]. pose proof (reparse_linear _ _ Hs E). congruence.
Qed.

Lemma setup_steady : forall profile d (ys : list (layer A)) w ys', setup_filter profile d ys = Ok (w, ys') ->
  Forall (fun l => settled l /\ markable (raw l)) (lines_of ys) -> Forall steady (lines_of ys').
Proof.
  intros profile d ys w ys' H Hs. apply setup_marked in H. unfold lines_of in *.
  induction H as [|y y' ys ys' (_ & _ & H) Hr IH]; [constructor|]. cbn [map List.concat] in *.
  apply Forall_app in Hs as [H1 H2]. apply Forall_app. split; [|exact (IH H2)]. clear - H H1.
  induction H as [|l m ls ms Hlm H IH]; [constructor|]. inversion H1; subst. constructor; [|auto].
  eapply marked_steady; [..|exact Hlm]; tauto.
Qed.

Lemma passed_moves : forall (m1 bs : list (line A)) m t, Forall steady m1 -> Forall2 passed m1 bs ->
  map xy_move (bs ++ m :: t) = map xy_move (m1 ++ m :: t).
Proof.
  intros m1 bs m t Hs H. rewrite !map_app. f_equal.
  induction H as [|x b m1 bs Hx H IH]; [reflexivity|]. inversion Hs; subst. cbn [map]. f_equal; [|auto].
  destruct Hx as [-> |Hx]; [reflexivity|]. auto.
Qed.

(** ** Walls end *)

Lemma steady_walled : forall (ys : list (layer A)) y m1 m t bs, Forall steady (lines_of ys) -> In y ys ->
  ly_lines y = m1 ++ m :: t -> Forall2 passed m1 bs ->
  walled (bs ++ m :: t) (List.length bs) = walled (ly_lines y) (List.length m1).
Proof.
  intros ys y m1 m t bs Hst Hy Els Hpass.
  rewrite (Forall2_passed_len _ _ Hpass), Els. apply walled_ext; [apply passed_raws, Hpass|].
  apply passed_moves; [|exact Hpass].
  assert (H : Forall steady (ly_lines y)).
  { rewrite Forall_forall in *. intros l Hl. apply Hst. apply in_concat. exists (ly_lines y). split; [apply in_map, Hy|exact Hl]. }
  rewrite Els in H. apply Forall_app in H as [H _]. exact H.
Qed.

Lemma move_here : forall (bs : list (line A)) m t, xy_move m = true -> moves_at (bs ++ m :: t) (List.length bs) = true.
Proof. intros bs m t H. unfold moves_at. rewrite nth_error_app2, Nat.sub_diag by lia. exact H. Qed.

Lemma walls_end : forall profile fuel o (g : gcode A) w ys,
  setup_filter profile Cura (g_layers g) = Ok (w, ys) -> Forall steady (lines_of ys) -> all_walled [] ys = true ->
  (forall y, In y ys -> 2 * List.length (ly_lines y) + 6 < fuel) ->
  stretch profile fuel Cura o g <> Err OutOfFuel.
Proof.
  intros profile fuel o g w ys Hset Hst Henc Hfuel. eapply ends_everywhere; [exact Hset|exact Henc|].
  intros y m1 m t bs we old max loc Hy Els Hpass Hx He C.
  pose proof (wall_absolute_ends (bs ++ m :: t) (List.length bs)) as H.
  specialize (H ltac:(rewrite app_length; cbn [List.length]; lia) (move_here bs m t Hx)).
  specialize (H ltac:(rewrite (steady_walled ys y m1 m t bs); assumption) True (or_introl I) fuel we old max loc).
  rewrite C in H. specialize (H eq_refl). specialize (Hfuel y Hy).
  rewrite Els in Hfuel. pose proof (Forall2_passed_len _ _ Hpass) as Hlen.
  rewrite app_length in H, Hfuel. lia.
Qed.

Lemma loaded_steady : forall home data (g : gcode A) profile d w ys, load_gen false home data = Ok g ->
  Forall (fun s => command_name s <> Some "G20"%string /\ markable s) (program_text data) ->
  setup_filter profile d (g_layers g) = Ok (w, ys) -> Forall steady (lines_of ys).
Proof.
  intros home data g profile d w ys Hl Ht Hset.
  assert (H20 : Forall (fun s => command_name s <> Some "G20"%string) (program_text data)) by
    (eapply Forall_impl; [|exact Ht]; intros s Hs; apply Hs).
  destruct (load_settled _ _ _ Hl H20) as [Hs Hr]. rewrite <- Hr in Ht. rewrite Forall_map in Ht.
  eapply setup_steady; [exact Hset|]. rewrite lines_of_all. rewrite Forall_forall in *.
  intros l Hin. split; [exact (Hs l Hin)|apply (Ht l Hin)].
Qed.

Lemma cura_ends : forall profile fuel o home data (g : gcode A) w ys, load_gen false home data = Ok g ->
  Forall (fun s => command_name s <> Some "G20"%string /\ markable s) (program_text data) ->
  setup_filter profile Cura (g_layers g) = Ok (w, ys) -> all_walled [] ys = true ->
  (forall y, In y ys -> 2 * List.length (ly_lines y) + 6 < fuel) ->
  stretch profile fuel Cura o g <> Err OutOfFuel.
Proof.
  intros profile fuel o home data g w ys Hl Ht Hset Hw Hf. eapply walls_end; try eassumption.
  eapply loaded_steady; eassumption.
Qed.

(** ** What is printed *)

Lemma parse_line_msg : forall fuel d o w seen s before (m : line A) t s1 l1 p, state_ok o w seen s ->
  parse_line fuel d (before ++ m :: t) (Z.of_nat (List.length before)) s m = Ok (s1, l1, p) ->
  p = [] \/ loop_move (m :: seen) = true /\ exists we old max loc mv,
    absolute_stretch fuel d we (before ++ m :: t) (Z.of_nat (List.length before)) old max loc = Ok (mv, p).
Proof.
  intros fuel d o w seen s before m t s1 l1 p Hs H. unfold parse_line in H.
  destruct (read_markers s m) as [s0|e0] eqn:Em; cbn [bind] in H; [|discriminate H].
  pose proof (read_markers_ok _ _ _ _ _ _ Hs Em) as (H1 & H2 & H3 & H4 & H5).
  assert (Eq : is_linear m && st_loop s0 && has_xy m = loop_move (m :: seen)).
  { unfold loop_move. rewrite <- is_linear_xy, <- H2. destruct (is_linear m), (st_loop s0), (has_xy m); reflexivity. }
  rewrite Eq in H. destruct (loop_move (m :: seen)) eqn:El; [|left; congruence].
  unfold stretch_line in H. destruct (n_ltb n0 (st_max s0)); [|left; congruence].
  destruct (st_lengths s0) as [ws|]; [|discriminate H].
  destruct (absolute_stretch _ _ _ _ _ _ _ _) as [[mv pr]|e] eqn:Ea; cbn [bind] in H; [|discriminate H].
  right. split; [reflexivity|]. inversion H; subst. exists ws. do 4 eexists. exact Ea.
Qed.

Lemma stretch_lines_msg : forall fuel d o w rest seen before s s' ls p, state_ok o w seen s ->
  stretch_lines fuel d s before rest = Ok (s', ls, p) ->
  p = [] \/ exists (m1 : list (line A)) m t bs pr we old max loc mv, rest = m1 ++ m :: t /\ Forall2 passed m1 bs /\
    loop_move (m :: rev m1 ++ seen) = true /\ pr <> [] /\
    absolute_stretch fuel d we ((before ++ bs) ++ m :: t) (Z.of_nat (List.length (before ++ bs))) old max loc = Ok (mv, pr).
Proof.
  intros fuel d o w. induction rest as [|m t IH]; intros seen before s s' ls p Hs H; cbn [stretch_lines] in H; [left; congruence|].
  destruct (parse_line _ _ _ _ _ _) as [[[s1 l1] p1]|e1] eqn:E1; cbn [bind] in H; [|discriminate H].
  destruct (reparse l1) as [l2|e2] eqn:E2; cbn [bind] in H; [|discriminate H].
  destruct (stretch_lines _ _ _ _ _) as [[[s3 t3] p3]|e3] eqn:E3; cbn [bind] in H; [|discriminate H].
  inversion H; subst. clear H.
  destruct p1 as [|x p1].
  - destruct (parse_line_ok _ _ _ _ _ _ _ _ _ _ _ _ _ Hs E1 E2) as (G1 & G2 & G3).
    destruct (IH _ _ _ _ _ _ G1 E3) as [-> |(m1 & m' & t' & bs & pr & we & old & max & loc & mv & -> & F & L & P & Ha)]; [left; reflexivity|].
    right. exists (m :: m1), m', t', ((if is_stretched s1 m then m else l2) :: bs), pr, we, old, max, loc, mv.
    split; [reflexivity|]. split.
    + constructor; [|exact F]. unfold passed. destruct (is_stretched s1 m) eqn:Ei; [now left|]. right.
      rewrite G3 in Ei. destruct G2 as [l' _ Hr|]; [exact Hr|congruence].
    + cbn [rev]. rewrite <- (app_assoc (rev m1)). cbn [app]. rewrite <- (app_assoc before) in Ha.
      split; [exact L|]. split; [exact P|exact Ha].
  - right. destruct (parse_line_msg _ _ _ _ _ _ _ _ _ _ _ _ Hs E1) as [C|(L & we & old & max & loc & mv & Ha)]; [discriminate C|].
    exists [], m, t, [], (x :: p1), we, old, max, loc, mv. split; [reflexivity|]. split; [constructor|].
    split; [exact L|]. split; [discriminate|]. rewrite app_nil_r. exact Ha.
Qed.

Lemma stretch_layers_msg : forall fuel d o w ys seen s ys' p, state_ok o w seen s ->
  stretch_layers fuel d s ys = Ok (ys', p) ->
  p = [] \/ exists pre y post (m1 : list (line A)) m t bs pr we old max loc mv, ys = pre ++ y :: post /\
    ly_lines y = m1 ++ m :: t /\ Forall2 passed m1 bs /\
    loop_move (m :: rev m1 ++ rev (lines_of pre) ++ seen) = true /\ pr <> [] /\
    absolute_stretch fuel d we (bs ++ m :: t) (Z.of_nat (List.length bs)) old max loc = Ok (mv, pr).
Proof.
  intros fuel d o w. induction ys as [|y t IH]; intros seen s ys' p Hs H; cbn [stretch_layers] in H; [left; congruence|].
  destruct (stretch_lines _ _ _ _ _) as [[[s1 ls] p1]|e1] eqn:E1; cbn [bind] in H; [|discriminate H].
  destruct (stretch_layers _ _ _ _) as [[t2 p2]|e2] eqn:E2; cbn [bind] in H; [|discriminate H].
  inversion H; subst. clear H.
  destruct (stretch_lines_msg _ _ _ _ _ _ _ _ _ _ _ Hs E1) as [-> |(m1 & m & t' & bs & pr & we & old & max & loc & mv & H1 & H2 & H3 & H4 & H5)].
  - destruct (stretch_lines_ok _ _ _ _ _ _ _ _ _ _ _ Hs E1) as (G1 & _).
    destruct (IH _ _ _ _ G1 E2) as [-> |(pre & y' & post & m1 & m & t' & bs & pr & we & old & max & loc & mv & -> & H1 & H2 & H3 & H4 & H5)];
      [left; reflexivity|].
    right. exists (y :: pre), y', post, m1, m, t', bs, pr, we, old, max, loc, mv.
    unfold lines_of in *. cbn [map List.concat]. rewrite rev_app_distr, <- app_assoc.
    split; [reflexivity|]. auto.
  - right. exists [], y, t, m1, m, t', bs, pr, we, old, max, loc, mv. split; [reflexivity|]. cbn. auto.
Qed.

(** nothing is printed, and the filter comes to an end, if that is so of each
    move of a loop *)
Lemma quiet_everywhere : forall profile fuel d o (g : gcode A) w ys p g' printed,
  setup_filter profile d (g_layers g) = Ok (w, ys) -> for_loop_moves p [] ys = true ->
  (forall y m1 m t bs we old max loc mv pr, In y ys -> ly_lines y = m1 ++ m :: t -> Forall2 passed m1 bs -> xy_move m = true ->
     p (ly_lines y) (List.length m1) = true ->
     absolute_stretch fuel d we (bs ++ m :: t) (Z.of_nat (List.length bs)) old max loc = Ok (mv, pr) -> pr = []) ->
  stretch profile fuel d o g = Ok (g', printed) -> printed = [].
Proof.
  intros profile fuel d o g w ys p g' printed Hset Hp Ha H. unfold stretch in H. rewrite Hset in H. cbn [bind] in H.
  destruct (stretch_layers _ _ _ _) as [[ys2 p2]|e2] eqn:E2; cbn [bind] in H; [|discriminate H].
  assert (Ep : p2 = printed) by congruence. subst p2. clear H.
  destruct (stretch_layers_msg _ _ _ _ _ _ _ _ _ (init_state o w) E2) as [-> |(pre & y & post & m1 & m & t & bs & pr & we & old & max & loc & mv & H1 & H2 & H3 & H4 & H5 & H6)];
    [reflexivity|].
  exfalso. apply H5. subst ys. apply (Ha y m1 m t bs we old max loc mv pr); try assumption.
  - apply in_or_app. right. now left.
  - unfold loop_move in H4. apply andb_prop in H4 as [H4 _]. exact H4.
  - apply (for_loop_moves_app p pre [] y post Hp); [rewrite H2, app_length; cbn [List.length]; lia|].
    rewrite H2, firstn_here. exact H4.
Qed.

Lemma for_loop_moves_and : forall (p q : list (line A) -> nat -> bool) ys seen,
  for_loop_moves p seen ys = true -> for_loop_moves q seen ys = true ->
  for_loop_moves (fun ls i => p ls i && q ls i) seen ys = true.
Proof.
  intros p q. induction ys as [|y t IH]; intros seen Hp Hq; [reflexivity|]. cbn [for_loop_moves] in *.
  apply andb_prop in Hp as [P1 P2]. apply andb_prop in Hq as [Q1 Q2]. apply andb_true_intro. split; [|auto].
  rewrite forallb_forall in *. intros i Hi. specialize (P1 i Hi). specialize (Q1 i Hi).
  destruct (negb _); [reflexivity|]. cbn [orb] in *. rewrite P1, Q1. reflexivity.
Qed.

Lemma slic3r_quiet : forall profile fuel o (g : gcode A) w ys g' printed,
  setup_filter profile Slic3r (g_layers g) = Ok (w, ys) -> all_enclosed [] ys = true -> all_end_here [] ys = true ->
  stretch profile fuel Slic3r o g = Ok (g', printed) -> printed = [].
Proof.
  intros profile fuel o g w ys g' printed Hset H1 H2 H.
  eapply quiet_everywhere; [exact Hset|exact (for_loop_moves_and _ _ _ _ H1 H2)| |exact H].
  intros y m1 m t bs we old max loc mv pr Hy Els Hpass Hx He C. apply andb_prop in He as [E1 E2].
  pose proof (Forall2_passed_len _ _ Hpass) as Hlen. pose proof (passed_raws _ _ m t Hpass) as Hraw.
  pose proof (absolute_ends (bs ++ m :: t) (List.length bs)) as K.
  specialize (K ltac:(rewrite app_length; cbn [List.length]; lia)).
  specialize (K ltac:(rewrite Hraw, Hlen, <- Els; exact E1) False).
  specialize (K ltac:(right; rewrite Hraw, Hlen, <- Els; exact E2) fuel we old max loc).
  rewrite C in K. tauto.
Qed.

Lemma walls_quiet : forall profile fuel o (g : gcode A) w ys g' printed,
  setup_filter profile Cura (g_layers g) = Ok (w, ys) -> Forall steady (lines_of ys) ->
  all_walled [] ys = true -> all_walls_here [] ys = true ->
  stretch profile fuel Cura o g = Ok (g', printed) -> printed = [].
Proof.
  intros profile fuel o g w ys g' printed Hset Hst H1 H2 H.
  eapply quiet_everywhere; [exact Hset|exact (for_loop_moves_and _ _ _ _ H1 H2)| |exact H].
  intros y m1 m t bs we old max loc mv pr Hy Els Hpass Hx He C. apply andb_prop in He as [E1 E2].
  pose proof (Forall2_passed_len _ _ Hpass) as Hlen. pose proof (passed_raws _ _ m t Hpass) as Hraw.
  pose proof (wall_absolute_ends (bs ++ m :: t) (List.length bs)) as K.
  specialize (K ltac:(rewrite app_length; cbn [List.length]; lia) (move_here bs m t Hx)).
  specialize (K ltac:(rewrite (steady_walled ys y m1 m t bs); assumption) False).
  specialize (K ltac:(right; rewrite Hraw, Hlen, <- Els; exact E2) fuel we old max loc).
  rewrite C in K. tauto.
Qed.

Lemma cura_quiet : forall profile fuel o home data (g : gcode A) w ys g' printed, load_gen false home data = Ok g ->
  Forall (fun s => command_name s <> Some "G20"%string /\ markable s) (program_text data) ->
  setup_filter profile Cura (g_layers g) = Ok (w, ys) -> all_walled [] ys = true -> all_walls_here [] ys = true ->
  stretch profile fuel Cura o g = Ok (g', printed) -> printed = [].
Proof.
  intros profile fuel o home data g w ys g' printed Hl Ht Hset Hw Hh. eapply walls_quiet; try eassumption.
  eapply loaded_steady; eassumption.
Qed.

End P.

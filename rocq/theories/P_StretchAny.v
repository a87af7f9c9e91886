(** * P_StretchAny: redrawing loops in any arithmetic *)
From Coq Require Import List Ascii String ZArith NArith Bool Lia.
From Verif Require Import PyBase Arith Gcoder Filters SpecText SpecLoad SpecMachine SpecMeasure SpecFilter
  Stretch SpecStretch SpecBend SpecLoops P_Load P_Text P_Wf P_Machine P_Measure P_Format P_Filter P_FilterMotion P_Stretch P_StretchRead P_StretchGeo
  P_StretchIter P_StretchLoop P_StretchProps P_StretchBend P_StretchRound P_StretchWhole.
Import ListNotations.
Local Open Scope list_scope.

(** ** Texts *)

Lemma lacks_app : forall c a b, lacks c (a ++ b)%string = lacks c a && lacks c b.
Proof. intros c a b. apply str_all_app. Qed.

Lemma cut_blank : forall u u' v v', lacks " " u = true -> lacks " " u' = true ->
  (u ++ String " " v = u' ++ String " " v')%string -> u = u' /\ v = v'.
Proof.
  induction u as [|c u IH]; intros [|c' u'] v v' H H' E; cbn in *.
  - inversion E. auto.
  - inversion E; subst. discriminate H'.
  - inversion E; subst. discriminate H.
  - apply andb_prop in H as [_ H]. apply andb_prop in H' as [_ H']. inversion E; subst.
    destruct (IH u' v v' H H' H2) as [-> ->]. auto.
Qed.

Lemma digits_lack : forall s, str_all is_digit s = true -> lacks " " s = true.
Proof.
  induction s as [|c s IH]; [reflexivity|]. cbn. intros H. apply andb_prop in H as [H1 H2]. fold (lacks " " s). rewrite (IH H2), andb_true_r.
  destruct (Ascii.eqb_spec c " "); [subst c; discriminate H1|reflexivity].
Qed.

Lemma Forall2_pick : forall (X Y : Type) (R : X -> Y -> Prop) xs ys j x, Forall2 R xs ys -> nth_error xs j = Some x ->
  exists y, nth_error ys j = Some y /\ R x y.
Proof.
  intros X Y R xs ys j x H. revert j. induction H as [|a b xs ys Hx H IH]; intros [|j] Hj; cbn in *; try discriminate Hj.
  - inversion Hj; subst. eauto.
  - apply IH. exact Hj.
Qed.

(** the way round, ahead and behind, for points of any kind *)
Definition way_ahead {X : Type} (d : dialect) (k : nat) (ps : list X) : list X :=
  match d with Cura => turn (S k) ps | _ => turn k (tl ps) end.
Definition way_behind {X : Type} (d : dialect) (k : nat) (ps : list X) : list X :=
  rev (turn k (match d with Cura => ps | _ => removelast ps end)).

Section Any.
Context {A : arith}.

Lemma fmt_lacks : forall d (x : num A), lacks " " (fmt d x) = true.
Proof.
  intros d x. unfold fmt. destruct (n_dec d x) as [neg m|[]|]; [|reflexivity|reflexivity|reflexivity].
  rewrite lacks_app. assert (H1 : lacks " " (if neg then "-" else "") = true) by (destruct neg; reflexivity). rewrite H1. clear H1. cbn [andb].
  unfold dec_string. rewrite lacks_app, (digits_lack _ (N_to_string_digits _)). destruct d as [|d]; [reflexivity|].
  rewrite lacks_app, (digits_lack _ (digits_fixed_all _ _)). reflexivity.
Qed.

Lemma written_det : forall (l : line A) t t', written_at l t -> written_at l t' -> t = t'.
Proof.
  intros l [x y] [x' y'] (c & r & E & C & X & Y) (c' & r' & E' & C' & X' & Y'). cbn [fst snd] in *. rewrite E in E'.
  apply (cut_blank c c' (String "X" (x ++ " Y" ++ y ++ " " ++ r)%string) (String "X" (x' ++ " Y" ++ y' ++ " " ++ r')%string) C C') in E' as [_ E'].
  inversion E' as [E2]. clear E'.
  apply (cut_blank x x' (String "Y" (y ++ " " ++ r)%string) (String "Y" (y' ++ " " ++ r')%string) X X') in E2 as [-> E2].
  inversion E2 as [E3]. apply (cut_blank y y' r r' Y Y') in E3 as [-> _]. reflexivity.
Qed.

Ltac fin H := apply ok_inj in H; apply (f_equal fst) in H; cbn [fst] in H; subst; reflexivity.

(** ** The walk as a function of the points *)

Fixpoint pulled (w : lengths (A:=A)) (loc lastl : cplx) (total : num A) (qs : list (num A * num A)) : res (num A * num A) :=
  match qs with
  | [] => let diff := c_sub loc lastl in
          let len := c_abs diff in
          if n_ltb n0 len then c_div diff len else Ok (n0, n0)
  | q :: t =>
      let len := c_abs (c_sub lastl q) in
      let total1 := n_add total len in
      if n_leb (w_from w) total1 then
        do ratio <- py_div (n_sub (w_from w) total) len;
        c_div (c_sub loc (c_add (c_scale q ratio) (c_scale lastl (n_sub n1 ratio)))) (w_from w)
      else pulled w loc q total1 t
  end.

Definition limited (w : lengths (A:=A)) (v loc : num A * num A) (qs : list (num A * num A)) : res (num A * num A) :=
  match qs with
  | [] => Ok v
  | q :: _ =>
      let diff := c_sub loc q in
      let len := c_abs diff in
      if n_leb len (w_fraction w) then Ok v else
      do parallel <- c_div diff len;
      let along := c_scale parallel (dot parallel v) in
      if n_ltb (w_cross w) len then Ok along else
      let cross := (snd parallel, n_opp (fst parallel)) in
      let across := c_scale cross (dot cross v) in
      do portion <- py_div (n_sub (w_cross w) len) (w_remainder w);
      Ok (c_add along (c_scale across portion))
  end.

Definition moved_by (w : lengths (A:=A)) (max : num A) (p : num A * num A) (rs qs : list (num A * num A)) : res (num A * num A) :=
  do r1 <- pulled w p p n0 rs;
  do r2 <- pulled w p p n0 qs;
  do r3 <- limited w (c_scale (c_add r1 r2) (lit 8 1)) p rs;
  do r4 <- limited w r3 p qs;
  do r5 <- (if n_ltb n1 (c_abs r4) then c_div r4 (c_abs r4) else Ok r4);
  Ok (c_scale r5 max).

Lemma goes_location : forall (l : line A) p old, goes_to l p -> drop_axis (get_location (Some old) l) = p.
Proof. intros l [px py] [[x y] z] (_ & Hx & Hy). unfold get_location. rewrite Hx, Hy. reflexivity. Qed.

Lemma loop_pulled : forall n fuel d dir (w : lengths (A:=A)) (ls : list (line A)) old loc ms qs lastl total it r pr,
  gives fuel d dir ls it ms -> Forall2 goes_to ms qs ->
  relative_loop n fuel d dir w ls (Some old) loc lastl lastl total total it = Ok (r, pr) ->
  pulled w loc lastl total qs = Ok r.
Proof.
  induction n as [|n IH]; intros fuel d dir w ls old loc ms qs lastl total it r pr Hy Hp H;
    cbn [relative_loop] in H; [discriminate H|].
  destruct (get_next fuel d dir ls it) as [nx|e] eqn:En; cbn [bind] in H; [|discriminate H].
  destruct Hp as [|l q ms qs Hl Hp]; cbn [gives] in Hy; cbn [pulled].
  - destruct (Hy nx En) as (pr' & ->). destruct (n_ltb _ _).
    + destruct (c_div _ _) as [r1|e]; cbn [bind] in H; [|discriminate H]. fin H.
    + fin H.
  - destruct (Hy nx En) as (it1 & -> & Hy1). rewrite (goes_location _ _ _ Hl) in H.
    destruct (n_leb _ _).
    + destruct (py_div _ _) as [ratio|e]; cbn [bind] in *; [|discriminate H].
      destruct (c_div _ _) as [r1|e]; cbn [bind] in H; [|discriminate H]. fin H.
    + apply (IH _ _ _ _ _ _ _ _ _ _ _ _ _ _ Hy1 Hp H).
Qed.

Lemma cross_limits : forall fuel d (w : lengths (A:=A)) (ls : list (line A)) old v dir start p ms qs r pr,
  gives fuel d dir ls (new_iter start) ms -> Forall2 goes_to ms qs ->
  cross_limited fuel d w ls (Some old) v dir start p = Ok (r, pr) -> limited w v p qs = Ok r.
Proof.
  intros fuel d w ls old v dir start p ms qs r pr Hg Hp C. unfold cross_limited in C.
  destruct (get_next _ _ _ _ _) as [nx|e] eqn:En; cbn [bind] in C; [|discriminate C].
  destruct Hp as [|l q ms qs Hl Hp]; cbn [limited]; cbn [gives] in Hg.
  - destruct (Hg nx En) as [pr1 ->]. fin C.
  - destruct (Hg nx En) as (it1 & -> & _). rewrite (goes_location _ _ _ Hl) in C.
    destruct (n_leb _ _); [fin C|].
    destruct (c_div _ _) as [pa|e]; cbn [bind] in *; [|discriminate C].
    destruct (n_ltb _ _); [fin C|].
    destruct (py_div _ _) as [po|e]; cbn [bind] in *; [|discriminate C]. fin C.
Qed.

Lemma absolute_moved : forall fuel d (w : lengths (A:=A)) (ls : list (line A)) i old max p am aps bm bps move pr,
  gives fuel d Forward ls (new_iter (i + 1)) am -> Forall2 goes_to am aps ->
  gives fuel d Backward ls (new_iter (i - 1)) bm -> Forall2 goes_to bm bps ->
  absolute_stretch fuel d w ls i (Some old) max p = Ok (move, pr) ->
  moved_by w max p aps bps = Ok move.
Proof.
  intros fuel d w ls i old max p am aps bm bps move pr Ya Pa Yb Pb H.
  unfold absolute_stretch, relative_stretch in H. unfold moved_by.
  destruct (relative_loop _ _ _ Forward _ _ _ _ _ _ _ _ _) as [[r1 p1]|e] eqn:R1; cbn [bind] in H; [|discriminate H].
  destruct (relative_loop _ _ _ Backward _ _ _ _ _ _ _ _ _) as [[r2 p2]|e] eqn:R2; cbn [bind] in H; [|discriminate H].
  rewrite (loop_pulled _ _ _ _ _ _ _ _ _ _ _ _ _ _ _ Ya Pa R1), (loop_pulled _ _ _ _ _ _ _ _ _ _ _ _ _ _ _ Yb Pb R2). cbn [bind].
  destruct (cross_limited _ _ _ _ _ _ Forward _ _) as [[r3 p3]|e] eqn:C1; cbn [bind] in H; [|discriminate H].
  rewrite (cross_limits _ _ _ _ _ _ _ _ _ _ _ _ _ Ya Pa C1). cbn [bind].
  destruct (cross_limited _ _ _ _ _ _ Backward _ _) as [[r4 p4]|e] eqn:C2; cbn [bind] in H; [|discriminate H].
  rewrite (cross_limits _ _ _ _ _ _ _ _ _ _ _ _ _ Yb Pb C2). cbn [bind].
  destruct (if n_ltb n1 (c_abs r4) then _ else _) as [r5|e]; cbn [bind] in *; [|discriminate H]. fin H.
Qed.

(** ** One point *)

Lemma stretched_written : forall (m : line A) p move feed l', xy_move m = true ->
  reparse (stretched_line m p move feed) = Ok l' ->
  written_at l' (fmt 3 (fst (c_add p move)), fmt 3 (snd (c_add p move))).
Proof.
  intros m p move feed l' Hm Hr. unfold written_at. cbn [fst snd]. rewrite (reparse_raw _ _ Hr).
  unfold xy_move in Hm. apply andb_prop in Hm as [Hm _]. apply orb_prop in Hm.
  assert (Hc : exists c, command m = Some c /\ lacks " " c = true).
  { unfold is_command, cmd_is in Hm. destruct (command m) as [c|]; [|destruct Hm; discriminate]. exists c. split; [reflexivity|].
    destruct Hm as [Hm|Hm]; apply String.eqb_eq in Hm; subst c; reflexivity. }
  destruct Hc as (c & Hc & Hl). exists c.
  unfold stretched_line, unsplit. cbn [command largs set_raw raw]. rewrite Hc. unfold unsplit_text, all_letters.
  cbn [map word_text get_arg a_x a_y a_z a_e a_f a_i a_j letter_upper].
  destruct (l_z m), (l_e m); eexists; (split; [cbn [String.concat String.append]; reflexivity|split; [exact Hl|split; apply fmt_lacks]]).
Qed.

Lemma one_any : forall profile fuel d (o : options (A:=A)) (g g' : gcode A) printed w ys n y y' pre a ms z post k b m r l' ps p,
  d <> Skeinforge ->
  stretch profile fuel d o g = Ok (g', printed) ->
  setup_filter profile d (g_layers g) = Ok (Some w, ys) ->
  nth_error ys n = Some y -> ly_lines y = pre ++ (a :: ms) ++ z :: post -> loop_lines d k (a :: ms) z ->
  n_ltb n0 (limit o (Some w) (Some k)) = true ->
  Forall2 goes_to (filter xy_move (a :: ms)) ps ->
  a :: ms = b ++ m :: r -> goes_to m p ->
  nth_error (g_layers g') n = Some y' -> nth_error (ly_lines y') (List.length pre + List.length b) = Some l' ->
  let j := List.length (filter xy_move b) in
  exists move, moved_by (edge_lengths o w) (limit o (Some w) (Some k)) p (way_ahead d j ps) (way_behind d j ps) = Ok move /\
    written_at l' (fmt 3 (fst (c_add p move)), fmt 3 (snd (c_add p move))).
Proof.
  intros profile fuel d o g g' printed w ys n y y' pre a ms z post k b m r l' ps p Hd H Hset Hy Hly
    (a' & ms' & E & Hne & Ho & Hea & Hq & Hxa & Hxl & Hn & Hz) Hltb Hps Eb Hm Hy' Hl' j.
  inversion E; subst a' ms'. clear E.
  destruct (loop_window _ _ _ _ _ _ _ _ _ _ _ _ _ _ _ _ _ _ _ _ _ _ H Hset Hy Hly Ho Hq Hxa Hn Hltb Eb (proj1 Hm) Hy' Hl')
    as (B & bs & LB & Hk & Hlo & Ht & Hfate). cbv zeta in *.
  set (seen := rev (lines_of (firstn n ys) ++ pre ++ b)) in *.
  destruct Hfate as [l' Hno _|we move pr old l' Hw' _ Hold Ha Hr]; [congruence|].
  assert (we = w) by congruence. subst we. rewrite Hlo in Ha.
  assert (Hp : point_of (m :: seen) = p).
  { pose proof Ht as Ht'. unfold to_stretch in Ht'. apply andb_prop in Ht' as [Hlm _]. cbn [point_of].
    destruct (point_of seen) as [a1 c1]. rewrite Hlm. destruct Hm as (_ & Bx & By). rewrite Bx, By. destruct p. reflexivity. }
  rewrite Hp in *. clear Hp Hold.
  (* the loop as the iterators see it *)
  assert (Hkall : Forall2 kept_line (a :: ms) (bs ++ m :: r)) by (rewrite Eb; apply Forall2_app; [exact Hk|apply kept_refl]).
  assert (Hex : exists a1 ms1, bs ++ m :: r = a1 :: ms1).
  { destruct bs as [|a1 bs]; cbn [app]; eauto. }
  destruct Hex as (a1 & ms1 & E1). rewrite E1 in *.
  pose proof (kept_moves _ _ Hkall) as Hmv.
  inversion Hkall as [|x1 y1 l1 l2 Hka Hkms]; subst.
  assert (Ea : a1 = a). { destruct Hka as [_ Hka]. rewrite Hxa in Hka. exact Hka. } subst a1.
  assert (Hraw : forall l2, In l2 ms1 -> exists l1, In l1 ms /\ raw l2 = raw l1).
  { clear - Hkms. induction Hkms as [|l1 l2 t1 t2 [Hl _] Hk IH]; [intros l3 []|]; intros l3 [<-|Hin]; [exists l1; split; [left; reflexivity|exact Hl]|].
    destruct (IH l3 Hin) as (l4 & H1 & H2). exists l4. split; [right; exact H1|exact H2]. }
  assert (Hne1 : ms1 <> []) by (intros ->; inversion Hkms; subst; congruence).
  assert (Hlast : xy_move (last ms1 a) = true).
  { clear - Hkms Hxl. revert Hxl. generalize a. induction Hkms as [|l1 l2 t1 t2 Hl Hk IH]; intros a0 Hx; [exact Hx|].
    destruct Hk as [|l3 l4 t3 t4 Hl' Hk]; [|apply (IH a0 Hx)]. cbn [last] in *. destruct Hl as [_ Hl]. rewrite Hx in Hl. congruence. }
  assert (G1 : Forall (fun l => ends d l = false) (a :: ms1)).
  { constructor; [destruct d; exact Hea|]. apply Forall_forall. intros l2 Hin. destruct (Hraw l2 Hin) as (l1 & I1 & I2).
    destruct (proj1 (Forall_forall _ _) Hq l1 I1) as (_ & _ & Q). unfold ends, has, ends_loop in *. rewrite I2. destruct d; exact Q. }
  assert (G2 : has start_marker a = true) by (rewrite opened_start, Ho; reflexivity).
  assert (G3 : Forall (fun l => has start_marker l = false) ms1).
  { apply Forall_forall. intros l2 Hin. destruct (Hraw l2 Hin) as (l1 & I1 & I2).
    destruct (proj1 (Forall_forall _ _) Hq l1 I1) as (Q & _ & _). rewrite opened_start, I2, Q. reflexivity. }
  assert (G4 : ends d z = true) by (destruct d; exact Hz).
  assert (Lb : (List.length bs <= List.length ms1)%nat).
  { apply (f_equal (@List.length _)) in E1. rewrite app_length in E1. cbn [List.length] in E1. lia. }
  pose proof (ring_ahead fuel d B a ms1 z post Hd Hne1 G1 Hlast G2 G3 G4 (List.length bs) Lb) as RA1.
  pose proof (ring_behind fuel d B a ms1 z post Hd Hne1 G1 Hlast G2 G3 G4 Hxa (List.length bs) Lb) as RB1.
  destruct (ahead_moves bs m r a ms1 (proj1 Hm) Hxa E1) as [A1 A2].
  assert (Hlast' : xy_move (last (a :: ms1) m) = true).
  { destruct ms1 as [|x ms1]; [congruence|]. change (last (a :: x :: ms1) m) with (last (x :: ms1) m).
    clear - Hlast. revert Hlast. generalize x. induction ms1 as [|x' ms1 IH]; intros x0 Hl; [exact Hl|]. apply (IH x'). exact Hl. }
  destruct (behind_moves bs m r (a :: ms1) (eq_sym E1) Hlast') as [B1 B2].
  assert (Hj : List.length (moves bs) = List.length (filter xy_move b)) by (rewrite (kept_moves _ _ Hk); reflexivity).
  rewrite Hj in A1, A2, B1, B2. rewrite Hmv in A1, A2, B1, B2.
  assert (Fa : exists am, gives fuel d Forward (B ++ (a :: ms1) ++ z :: post) (new_iter (Z.of_nat (List.length B + List.length bs) + 1)) am /\
    Forall2 goes_to am (way_ahead d (List.length (filter xy_move b)) ps)).
  { eexists. split; [exact RA1|]. unfold way_ahead. destruct d; [rewrite A1|rewrite A2|congruence].
    - apply Forall2_turn, Forall2_tl. exact Hps.
    - apply Forall2_turn. exact Hps. }
  assert (Fb : exists bm, gives fuel d Backward (B ++ (a :: ms1) ++ z :: post) (new_iter (Z.of_nat (List.length B + List.length bs) - 1)) bm /\
    Forall2 goes_to bm (way_behind d (List.length (filter xy_move b)) ps)).
  { eexists. split; [exact RB1|]. unfold way_behind. destruct d; [rewrite B2|rewrite B1|congruence].
    - apply Forall2_rev, Forall2_turn, Forall2_removelast. exact Hps.
    - apply Forall2_rev, Forall2_turn. exact Hps. }
  destruct Fa as (am & Fa1 & Fa2). destruct Fb as (bm & Fb1 & Fb2).
  exists move. split; [apply (absolute_moved _ _ _ _ _ _ _ _ _ _ _ _ _ _ Fa1 Fa2 Fb1 Fb2 Ha)|].
  apply (stretched_written _ _ _ _ _ (proj1 Hm) Hr).
Qed.

(** ** All points *)

Lemma whole_any : forall profile fuel d (o : options (A:=A)) w most ps ts j t,
  redraws_loop profile fuel d o w most ps ts -> d <> Skeinforge -> nth_error ts j = Some t ->
  exists p move, nth_error ps j = Some p /\
    moved_by (edge_lengths o w) most p (way_ahead d j ps) (way_behind d j ps) = Ok move /\
    t = (fmt 3 (fst (c_add p move)), fmt 3 (snd (c_add p move))).
Proof.
  intros profile fuel d o w most ps ts j t
    (g & g' & printed & ys & n & y & y' & pre & body & z & post & k & H1 & H2 & H3 & H4 & H5 & H6 & H7 & H8 & H9 & H10) Hd Hj.
  destruct (Forall2_nth _ _ _ _ _ _ _ H10 Hj) as (l' & N1 & N2).
  apply filter_combine_nth in N1 as (b & m & r & Eb & Em & El & Ej).
  apply nth_firstn in El. rewrite nth_skipn in El.
  assert (Hex : exists a ms, body = a :: ms) by (destruct H5 as (a & ms & E & _); eauto). destruct Hex as (a & ms & ->).
  assert (Hmj : nth_error (filter xy_move (a :: ms)) j = Some m).
  { rewrite Eb, filter_app. rewrite nth_error_app2 by lia. rewrite Ej, Nat.sub_diag. cbn [filter]. rewrite Em. reflexivity. }
  destruct (Forall2_pick _ _ _ _ _ _ _ H9 Hmj) as (p & Hp & Hm). subst most.
  destruct (one_any _ _ _ _ _ _ _ _ _ _ _ _ _ _ _ _ _ _ _ _ _ _ _ _ Hd H1 H2 H3 H4 H5 H7 H9 Eb Hm H8 El) as (move & M & W).
  rewrite Ej in *. exists p, move. split; [exact Hp|]. split; [exact M|]. apply (written_det _ _ _ N2 W).
Qed.

Lemma whole_any_length : forall profile fuel d (o : options (A:=A)) w most ps ts,
  redraws_loop profile fuel d o w most ps ts -> List.length ts = List.length ps.
Proof.
  intros profile fuel d o w most ps ts
    (g & g' & printed & ys & n & y & y' & pre & body & z & post & k & H1 & H2 & H3 & H4 & H5 & H6 & H7 & H8 & H9 & H10).
  rewrite (Forall2_len _ _ _ _ _ H10), (Forall2_len _ _ _ _ _ H9).
  destruct (stretch_shape _ _ _ _ _ _ _ H1) as [_ Hs].
  pose proof (setup_marked _ _ _ _ _ H2) as Hm.
  assert (Hlen : map (fun y => List.length (ly_lines y)) ys = map (fun y => List.length (ly_lines y)) (g_layers g)).
  { clear - Hm. induction Hm as [|a c l1 l2 (_ & _ & Hac) Hm IH]; [reflexivity|]. cbn [map]. f_equal; [|exact IH].
    clear - Hac. induction Hac; cbn; congruence. }
  rewrite <- Hlen in Hs. apply (f_equal (fun l => nth_error l n)) in Hs. rewrite !nth_error_map, H3, H8 in Hs. cbn [option_map] in Hs.
  assert (Hy : List.length (ly_lines y') = List.length (ly_lines y)) by congruence.
  set (body' := firstn _ _). assert (Lb : List.length body' = List.length body).
  { unfold body'. apply firstn_length_le. rewrite skipn_length, Hy, H4, !app_length. cbn. lia. }
  clearbody body'. rewrite map_length. clear - Lb. revert body' Lb. induction body as [|x body IH]; intros [|x' body'] Lb; try discriminate Lb; [reflexivity|].
  cbn [combine filter fst]. cbn in Lb. destruct (xy_move x); cbn [List.length]; [f_equal|]; apply IH; congruence.
Qed.

(** C99, in any arithmetic *)
Lemma any_det : forall profile1 fuel1 profile2 fuel2 d (o : options (A:=A)) w most ps ts1 ts2,
  redraws_loop profile1 fuel1 d o w most ps ts1 -> redraws_loop profile2 fuel2 d o w most ps ts2 ->
  d <> Skeinforge -> ts1 = ts2.
Proof.
  intros profile1 fuel1 profile2 fuel2 d o w most ps ts1 ts2 H1 H2 Hd.
  pose proof (whole_any_length _ _ _ _ _ _ _ _ H1) as L1. pose proof (whole_any_length _ _ _ _ _ _ _ _ H2) as L2.
  apply nth_ext_error. intros j. destruct (nth_error ts1 j) as [t1|] eqn:E1.
  - destruct (nth_error ts2 j) as [t2|] eqn:E2.
    2:{ apply nth_error_None in E2. assert (j < List.length ts1)%nat by (apply nth_error_Some; congruence). lia. }
    destruct (whole_any _ _ _ _ _ _ _ _ _ _ H1 Hd E1) as (q1 & u1 & P1 & U1 & ->).
    destruct (whole_any _ _ _ _ _ _ _ _ _ _ H2 Hd E2) as (q2 & u2 & P2 & U2 & ->). congruence.
  - apply nth_error_None in E1. symmetry. apply nth_error_None. lia.
Qed.

(** C98, in any arithmetic *)
Lemma any_closed : forall profile fuel (o : options (A:=A)) w most ps ts,
  redraws_loop profile fuel Slic3r o w most ps ts -> comes_back ps -> comes_back ts.
Proof.
  intros profile fuel o w most ps ps' H (p & mid & Ep).
  pose proof (whole_any_length _ _ _ _ _ _ _ _ H) as L. set (n := S (List.length mid)).
  assert (Lp : List.length ps = S n) by (rewrite Ep; cbn; rewrite app_length; cbn; unfold n; lia).
  assert (Hlt : forall j, (j <= n)%nat -> exists p', nth_error ps' j = Some p').
  { intros j Hj. destruct (nth_error ps' j) as [p'|] eqn:E; [eauto|]. apply nth_error_None in E. lia. }
  destruct (Hlt 0%nat) as [p0 E0]; [lia|]. destruct (Hlt n) as [pn En]; [lia|].
  assert (Hd : Slic3r <> Skeinforge) by discriminate.
  destruct (whole_any _ _ _ _ _ _ _ _ _ _ H Hd E0) as (q1 & u1 & P1 & U1 & Q1).
  destruct (whole_any _ _ _ _ _ _ _ _ _ _ H Hd En) as (q2 & u2 & P2 & U2 & Q2).
  assert (Hq1 : q1 = p) by (rewrite Ep in P1; cbn in P1; congruence).
  assert (Hq2 : q2 = p).
  { rewrite Ep in P2. unfold n in P2. cbn [nth_error] in P2. rewrite nth_error_app2, Nat.sub_diag in P2 by lia. cbn in P2. congruence. }
  subst q1 q2.
  assert (Ea : way_ahead Slic3r n ps = way_ahead Slic3r 0 ps).
  { unfold way_ahead, turn. rewrite Ep. cbn [tl skipn firstn]. rewrite app_nil_r.
    rewrite skipn_all2, firstn_all2 by (rewrite app_length; cbn; unfold n; lia). reflexivity. }
  assert (Eb : way_behind Slic3r n ps = way_behind Slic3r 0 ps).
  { unfold way_behind, turn. assert (Lr : List.length (removelast ps) = n).
    { rewrite Ep. change (p :: mid ++ [p]) with ((p :: mid) ++ [p]). rewrite removelast_last. reflexivity. }
    cbn [skipn firstn]. rewrite app_nil_r. rewrite skipn_all2, firstn_all2 by lia. reflexivity. }
  rewrite Ea, Eb in *. assert (u1 = u2) by congruence. subst u2.
  assert (Epn : pn = p0) by congruence. rewrite Epn in En. clear Q1 Q2 Epn.
  exists p0. destruct ps' as [|x ps']; [discriminate E0|]. cbn in E0. inversion E0; subst x.
  exists (removelast ps'). f_equal.
  assert (Hne : ps' <> []) by (intros ->; cbn in L; lia).
  rewrite (app_removelast_last p0 Hne) at 1. f_equal. f_equal.
  unfold n in En. cbn [nth_error] in En. assert (Ll : List.length ps' = S (List.length mid)) by (cbn in L; unfold n in *; lia).
  clear - En Ll Hne. rewrite (app_removelast_last p0 Hne) in En.
  assert (Lr : List.length (removelast ps') = List.length mid).
  { rewrite (app_removelast_last p0 Hne), app_length in Ll. cbn in Ll. lia. }
  rewrite nth_error_app2, Lr, Nat.sub_diag in En by lia. cbn in En. congruence.
Qed.

Lemma redraw_intro : forall profile fuel d (o : options (A:=A)) (g : gcode A) w ys n y pre body z post k ps,
  d <> Skeinforge ->
  (exists r, stretch profile fuel d o g = Ok r) ->
  setup_filter profile d (g_layers g) = Ok (Some w, ys) ->
  nth_error ys n = Some y -> ly_lines y = pre ++ body ++ z :: post -> loop_lines d k body z ->
  n_ltb n0 (limit o (Some w) (Some k)) = true -> Forall2 goes_to (filter xy_move body) ps ->
  exists ps', redraws_loop profile fuel d o w (limit o (Some w) (Some k)) ps ps'.
Proof.
  intros profile fuel d o g w ys n y pre body z post k ps Hd [[g' pr] H] Hset Hy Hly Hloop Hmost Hps.
  destruct (stretch_shape _ _ _ _ _ _ _ H) as [_ Hs].
  pose proof (setup_marked _ _ _ _ _ Hset) as Hm.
  assert (Hlen : map (fun y => List.length (ly_lines y)) ys = map (fun y => List.length (ly_lines y)) (g_layers g)).
  { clear - Hm. induction Hm as [|a c l1 l2 (_ & _ & Hac) Hm IH]; [reflexivity|]. cbn [map]. f_equal; [|exact IH].
    clear - Hac. induction Hac; cbn; congruence. }
  rewrite <- Hlen in Hs. apply (f_equal (fun l => nth_error l n)) in Hs. rewrite !nth_error_map, Hy in Hs. cbn [option_map] in Hs.
  destruct (nth_error (g_layers g') n) as [y'|] eqn:Ey'; cbn [option_map] in Hs; [|discriminate Hs].
  set (body' := firstn (List.length body) (skipn (List.length pre) (ly_lines y'))).
  assert (Hex : exists ps', Forall2 written_at (map snd (filter (fun ll => xy_move (fst ll)) (combine body body'))) ps').
  { assert (Hall : forall j l', nth_error (map snd (filter (fun ll => xy_move (fst ll)) (combine body body'))) j = Some l' -> exists p', written_at l' p').
    { intros j l' N1. apply filter_combine_nth in N1 as (b & m & r & Eb & Em & El & Ej).
      unfold body' in El. apply nth_firstn in El. rewrite nth_skipn in El.
      assert (Hex : exists a ms, body = a :: ms) by (destruct Hloop as (a & ms & E & _); eauto). destruct Hex as (a & ms & ->).
      assert (Hmj : nth_error (filter xy_move (a :: ms)) j = Some m).
      { rewrite Eb, filter_app. rewrite nth_error_app2 by lia. rewrite Ej, Nat.sub_diag. cbn [filter]. rewrite Em. reflexivity. }
      assert (Hp : exists p, nth_error ps j = Some p /\ goes_to m p).
      { clear - Hps Hmj. revert j Hmj. induction Hps as [|x y xs ys Hx H IH]; intros [|j] Hj; cbn in *; try discriminate Hj.
        - inversion Hj; subst. eauto.
        - apply IH. exact Hj. }
      destruct Hp as (p & Hp & Hm').
      destruct (one_any _ _ _ _ _ _ _ _ _ _ _ _ _ _ _ _ _ _ _ _ _ _ _ _ Hd H Hset Hy Hly Hloop Hmost Hps Eb Hm' Ey' El) as (move & M & W).
      eexists. exact W. }
    revert Hall. generalize (map snd (filter (fun ll => xy_move (fst ll)) (combine body body'))). clear.
    intros ls. induction ls as [|l ls IH]; intros Hall; [exists []; constructor|].
    destruct (Hall 0%nat l eq_refl) as [p' Hp]. destruct IH as [ps' Hps]; [intros j l' Hj; apply (Hall (S j) l' Hj)|].
    exists (p' :: ps'). constructor; assumption. }
  destruct Hex as [ps' Hps']. exists ps'. exists g, g', pr, ys, n, y, y', pre, body, z, post, k. cbv zeta.
  repeat (split; [first [eassumption|reflexivity]|]). exact Hps'.
Qed.
End Any.

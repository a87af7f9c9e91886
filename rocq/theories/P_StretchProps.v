(** * P_StretchProps: C56-C61, C64, C65, C68 as stated in the properties *)
From Coq Require Import List Ascii String ZArith NArith Bool Lia Reals Lra.
From Verif Require Import PyBase Arith ArithR Gcoder Filters SpecText SpecLoad SpecMachine SpecMeasure SpecEqual SpecFilter
  Stretch SpecStretch SpecLoop P_Load P_Text P_Wf P_Measure P_Format P_FilterMotion P_Stretch P_StretchRead P_StretchGeo P_StretchIter
  P_StretchErr P_StretchLoop P_StretchTotal P_StretchSafe.
Import ListNotations.
Local Open Scope list_scope.

Lemma nth_firstn : forall T (l : list T) n i, i < n -> nth_error (firstn n l) i = nth_error l i.
Proof.
  induction l as [|x l IH]; intros n i H; [now rewrite firstn_nil|].
  destruct n as [|n]; [lia|]. destruct i as [|i]; [reflexivity|]. cbn. apply IH. lia.
Qed.
Lemma nth_skipn : forall T (l : list T) n i, nth_error (skipn n l) i = nth_error l (n + i).
Proof.
  induction l as [|x l IH]; intros n i; [rewrite skipn_nil; destruct i, n; reflexivity|].
  destruct n as [|n]; [reflexivity|]. cbn. apply IH.
Qed.
Lemma forall2_nth_l : forall T U (R : T -> U -> Prop) l1 l2 i y, Forall2 R l1 l2 -> nth_error l2 i = Some y ->
  exists x, nth_error l1 i = Some x /\ R x y.
Proof.
  intros T U R l1 l2 i y H. revert i. induction H as [|a b l1 l2 Hab H IH]; intros [|i] Hi; try discriminate Hi.
  - inversion Hi; subst. exists a. split; [reflexivity|exact Hab].
  - apply IH, Hi.
Qed.

Section P.
Context {A : arith}.

(** C56 for a loaded program in millimetres *)
Lemma texts_loaded : forall profile fuel d o home data (g g' : gcode A) printed,
  load_gen false home data = Ok g ->
  Forall (fun s => command_name s <> Some "G20"%string) (program_text data) ->
  stretch profile fuel d o g = Ok (g', printed) ->
  exists w ms, marking profile d g w ms /\
    Forall2 (fun l m => same_but_text l m /\ marked (raw l) (raw m)) (all_lines g) ms /\
    List.length (all_lines g') = List.length (all_lines g) /\
    forall k l l', nth_error (all_lines g) k = Some l -> nth_error (all_lines g') k = Some l' ->
      to_stretch o w (upto k ms) = false ->
      marked (raw l) (raw l') /\ (markable (raw l) -> reads_alike l l').
Proof.
  intros profile fuel d o home data g g' printed Hl Hn H.
  destruct (load_settled _ _ _ Hl Hn) as [Hs _].
  destruct (stretch_texts _ _ _ _ _ _ _ H) as (w & ms & H1 & H2 & H3 & H4).
  exists w, ms. split; [exact H1|]. split; [exact H2|]. split; [exact H3|].
  intros k l l' Hk Hk' Ht. destruct (H4 k l l' Hk Hk' Ht) as [Ha Hb]. split; [exact Ha|].
  apply Hb. rewrite Forall_forall in Hs. apply Hs, (nth_error_In _ _ Hk).
Qed.

Lemma zero_loaded : forall (E : exact A) profile fuel d o home data (g g' : gcode A) printed,
  (val E (o_strength o) = 0)%R -> load_gen false home data = Ok g ->
  Forall (fun s => command_name s <> Some "G20"%string) (program_text data) ->
  stretch profile fuel d o g = Ok (g', printed) ->
  Forall2 (fun l l' => marked (raw l) (raw l') /\ (markable (raw l) -> reads_alike l l'))
    (all_lines g) (all_lines g').
Proof.
  intros E profile fuel d o home data g g' printed Hz Hl Hn H.
  destruct (load_settled _ _ _ Hl Hn) as [Hs _].
  pose proof (zero_strength_texts E _ _ _ _ _ _ _ Hz H) as Hf.
  revert Hs. clear - Hf. induction Hf as [|l l' ls ls' [H1 H2] Hf IH]; intros Hs; [constructor|].
  inversion Hs as [|? ? Hl Ht]; subst. constructor; [split; [exact H1|exact (H2 Hl)]|exact (IH Ht)].
Qed.

(** ** The point, the feedrate *)

Lemma point_of_words : forall (l : line A) before, loop_move (l :: before) = true ->
  (forall v, l_x l = Some v -> fst (point_of (l :: before)) = v) /\
  (forall v, l_y l = Some v -> snd (point_of (l :: before)) = v).
Proof.
  intros l before H. cbn [point_of]. destruct (point_of before) as [x y]. rewrite H. cbn [fst snd].
  split; intros v ->; reflexivity.
Qed.

Lemma feed_of_word : forall (l : line A) before f, loop_move (l :: before) = true ->
  l_f l = Some f -> truthy f = true -> feed_of (l :: before) = f.
Proof. intros l before f H Hf Ht. cbn [feed_of]. rewrite H, Hf, Ht. reflexivity. Qed.

(** lines that are not moves leave the point alone *)
Lemma point_of_still : forall (ls before : list (line A)),
  Forall (fun l => xy_move l = false) ls -> point_of (ls ++ before) = point_of before.
Proof.
  induction ls as [|l ls IH]; intros before H; [reflexivity|]. inversion H as [|? ? Hl Ht]; subst.
  cbn [app point_of]. rewrite (IH before Ht). destruct (point_of before) as [x y].
  unfold loop_move. rewrite Hl. reflexivity.
Qed.

Lemma upto_split : forall j k (ms : list (line A)) m, nth_error ms j = Some m -> j <= k ->
  exists between, upto k ms = between ++ upto j ms /\
    forall l, In l between -> exists i, j < i <= k /\ nth_error ms i = Some l.
Proof.
  intros j k ms m Hm Hjk. unfold upto.
  exists (rev (firstn (k - j) (skipn (S j) ms))).
  assert (Hs : firstn (S k) ms = firstn (S j) ms ++ firstn (k - j) (skipn (S j) ms)).
  { rewrite <- (firstn_skipn (S j) (firstn (S k) ms)). rewrite firstn_firstn, skipn_firstn_comm.
    replace (Nat.min (S j) (S k)) with (S j) by lia. replace (S k - S j) with (k - j) by lia. reflexivity. }
  split; [rewrite Hs; apply rev_app_distr|].
  intros l Hl. apply in_rev in Hl. apply In_nth_error in Hl as (i & Hi).
  assert (Hlt : i < k - j).
  { assert (i < List.length (firstn (k - j) (skipn (S j) ms))) by (apply nth_error_Some; congruence).
    rewrite firstn_length in H. lia. }
  exists (S j + i). split; [lia|]. rewrite nth_firstn, nth_skipn in Hi by exact Hlt. exact Hi.
Qed.

(** the point after the latest move of a loop *)
Lemma point_after : forall j k (ms : list (line A)) m x y, nth_error ms j = Some m -> loop_move (upto j ms) = true ->
  l_x m = Some x -> l_y m = Some y -> j <= k ->
  (forall i l, j < i <= k -> nth_error ms i = Some l -> xy_move l = false) ->
  point_of (upto k ms) = (x, y).
Proof.
  intros j k ms m x y Hm Hlp Hx Hy Hjk Hb.
  destruct (upto_split j k ms m Hm Hjk) as (bt & -> & Hin).
  rewrite point_of_still.
  - rewrite (upto_cons _ _ _ Hm) in *. destruct (point_of_words _ _ Hlp) as [H1 H2].
    rewrite (surjective_pairing (point_of _)). rewrite (H1 x Hx), (H2 y Hy). reflexivity.
  - apply Forall_forall. intros l Hl. destruct (Hin l Hl) as (i & Hi & Hn). exact (Hb i l Hi Hn).
Qed.

(** lines without F leave the feedrate alone *)
Lemma feed_of_still : forall (ls before : list (line A)),
  Forall (fun l => l_f l = None) ls -> feed_of (ls ++ before) = feed_of before.
Proof.
  induction ls as [|l ls IH]; intros before H; [reflexivity|]. inversion H as [|? ? Hl Ht]; subst.
  cbn [app feed_of]. rewrite (IH before Ht), Hl. now destruct (loop_move _).
Qed.

Lemma feed_after : forall j k (ms : list (line A)) m f, nth_error ms j = Some m -> loop_move (upto j ms) = true ->
  l_f m = Some f -> truthy f = true -> j <= k ->
  (forall i l, j < i <= k -> nth_error ms i = Some l -> l_f l = None) -> feed_of (upto k ms) = f.
Proof.
  intros j k ms m f Hm Hlp Hf Ht Hjk Hb.
  destruct (upto_split j k ms m Hm Hjk) as (bt & -> & Hin).
  rewrite feed_of_still.
  - rewrite (upto_cons _ _ _ Hm) in *. now apply feed_of_word.
  - apply Forall_forall. intros l Hl. destruct (Hin l Hl) as (i & Hi & Hn). exact (Hb i l Hi Hn).
Qed.

(** ** The iterators *)

(** C64: when nothing sends the search back, the next line is the nearest move *)
Lemma next_straight : forall fuel d dir (ls : list (line A)) it0 l it,
  wraps d dir ls (i_index it0) = Ok false ->
  (stops_on_off d = true -> forall j x, beyond dir (i_index it0) j -> line_at ls j = Some x -> has off_marker x = false) ->
  get_next fuel d dir ls it0 = Ok (Next l it) ->
  beyond dir (i_index it0) (i_index it - increment dir) /\
  forall j x, beyond dir (i_index it0) j -> beyond dir j (i_index it - increment dir) ->
    j <> (i_index it - increment dir)%Z -> line_at ls j = Some x -> xy_move x = false.
Proof.
  intros fuel d dir ls it0 l it Hw Ho H. unfold get_next in H. rewrite Hw in H. cbn [bind] in H.
  exact (scan_straight _ _ _ _ _ _ _ _ Ho H).
Qed.

(** ** The dialect *)

Lemma cura_iff : forall g : gcode A,
  is_cura_gcode g = true <-> exists l, In l (all_lines g) /\ contains "CURA_PROFILE_STRING" (raw l) = true.
Proof.
  intros g. unfold is_cura_gcode, all_lines. rewrite existsb_exists. split.
  - intros (y & Hy & H). apply existsb_exists in H as (l & Hl & H). exists l. split; [|exact H].
    apply in_concat. exists (ly_lines y). split; [apply in_map; exact Hy|exact Hl].
  - intros (l & Hl & H). apply in_concat in Hl as (ls & Hls & Hin). apply in_map_iff in Hls as (y & <- & Hy).
    exists y. split; [exact Hy|]. apply existsb_exists. exists l. split; assumption.
Qed.
End P.

(** ** Over the reals *)
Local Open Scope R_scope.

Lemma r3 : forall x : R, Rabs (py_round (A:=RA) 3 x - x) <= / 2000.
Proof. exact (P_FilterMotion.round3 exactR). Qed.
Lemma r5 : forall x : R, Rabs (py_round (A:=RA) 5 x - x) <= / 200000.
Proof. exact (P_FilterMotion.round5 exactR). Qed.

Lemma sqrt_le : forall s r : R, 0 < r -> s <= r * r -> sqrt s <= r.
Proof.
  intros s r Hr H. rewrite <- (sqrt_square r) by lra. apply sqrt_le_1_alt, H.
Qed.

(** what the property theorems need from [stretch_moves], on the original lines *)
Lemma stretched_all : forall profile fuel d (o : options (A:=RA)) (g g' : gcode RA) printed,
  stretch profile fuel d o g = Ok (g', printed) ->
  exists w ms, marking profile d g w ms /\
    Forall2 (fun l m => same_but_text l m /\ marked (raw l) (raw m)) (all_lines g) ms /\
    forall k l l', nth_error (all_lines g) k = Some l -> nth_error (all_lines g') k = Some l' ->
      to_stretch o w (upto k ms) = true ->
      let r := limit o w (loop_of (map raw (upto k ms))) in
      let p := point_of (upto k ms) in
      loop_move (upto k ms) = true /\ 0 < r /\
      (forall v, l_x l = Some v -> fst p = v) /\ (forall v, l_y l = Some v -> snd p = v) /\
      command l' = command l /\ is_move l' = true /\
      exists dx dy, dx * dx + dy * dy <= r * r /\
        l_x l' = Some (py_round (A:=RA) 3 (fst p + dx)) /\ l_y l' = Some (py_round (A:=RA) 3 (snd p + dy)) /\
        l_z l' = option_map (py_round (A:=RA) 3) (l_z l) /\
        l_e l' = match l_e l with Some e => Some (py_round (A:=RA) 5 (e * (1 - sqrt (dx * dx + dy * dy)))) | None => None end /\
        l_f l' = Some (py_round (A:=RA) 3 (feed_of (upto k ms))).
Proof.
  intros profile fuel d o g g' printed H.
  destruct (stretch_texts _ _ _ _ _ _ _ H) as (w & ms & Hm & H2 & _ & _).
  destruct (stretch_moves _ _ _ _ _ _ _ H) as (w' & ms' & Hm' & H4).
  assert (Heq : w' = w /\ ms' = ms).
  { destruct Hm as (ys & Hs & ->), Hm' as (ys' & Hs' & ->). rewrite Hs in Hs'. split; congruence. }
  destruct Heq as [-> ->]. exists w, ms. split; [exact Hm|]. split; [exact H2|].
  intros k l l' Hl Hl' Ht. cbv zeta.
  destruct (H4 k l' Hl' Ht) as (m & dx & dy & Hmk & Hb & Hc & Hi & Ha).
  destruct (forall2_nth_l _ _ _ _ _ _ _ H2 Hmk) as (l0 & Hl0 & (Hs1 & _ & Hs3 & _) & _).
  assert (El : l0 = l) by congruence. subst l0.
  pose proof Ht as Ht'. unfold to_stretch in Ht'. apply andb_prop in Ht' as [Hlp Hpos].
  apply (val_ltb RA exactR) in Hpos. rewrite val_n0 in Hpos.
  split; [exact Hlp|]. split; [exact Hpos|].
  assert (Hw : (forall v, l_x l = Some v -> fst (point_of (upto k ms)) = v) /\
               (forall v, l_y l = Some v -> snd (point_of (upto k ms)) = v)).
  { unfold l_x, l_y. rewrite <- Hs3. rewrite (upto_cons _ _ _ Hmk) in *. exact (point_of_words m _ Hlp). }
  destruct Hw as [Hx Hy]. split; [exact Hx|]. split; [exact Hy|]. split; [congruence|]. split; [exact Hi|].
  exists dx, dy. split; [exact Hb|].
  unfold l_x, l_y, l_z, l_e, l_f. rewrite Ha, <- Hs3. unfold rounded_args, moved_args.
  cbn [a_x a_y a_z a_e a_f a_i a_j option_map fst snd]. split; [reflexivity|]. split; [reflexivity|].
  split; [reflexivity|]. split; [|reflexivity]. unfold l_e.
  destruct (a_e (largs m)) as [e|]; [|reflexivity]. cbn [option_map]. do 2 f_equal. cbn. f_equal. f_equal. lra.
Qed.

(** C57 *)
Lemma stretched_point : forall profile fuel d (o : options (A:=RA)) (g g' : gcode RA) printed,
  stretch profile fuel d o g = Ok (g', printed) ->
  exists w ms, marking profile d g w ms /\
    forall k l l', nth_error (all_lines g) k = Some l -> nth_error (all_lines g') k = Some l' ->
      to_stretch o w (upto k ms) = true ->
      exists x y dx dy x' y',
        (forall v, l_x l = Some v -> x = v) /\ (forall v, l_y l = Some v -> y = v) /\
        sqrt (dx * dx + dy * dy) <= limit o w (loop_of (map raw (upto k ms))) /\
        l_x l' = Some x' /\ Rabs (x' - (x + dx)) <= / 2000 /\
        l_y l' = Some y' /\ Rabs (y' - (y + dy)) <= / 2000.
Proof.
  intros profile fuel d o g g' printed H.
  destruct (stretched_all _ _ _ _ _ _ _ H) as (w & ms & Hm & _ & Ha).
  exists w, ms. split; [exact Hm|]. intros k l l' Hl Hl' Ht.
  destruct (Ha k l l' Hl Hl' Ht) as (_ & Hr & Hx & Hy & _ & _ & dx & dy & Hb & Ex & Ey & _).
  eexists _, _, dx, dy, _, _. split; [exact Hx|]. split; [exact Hy|].
  split; [apply sqrt_le; assumption|]. split; [exact Ex|]. split; [apply r3|]. split; [exact Ey|]. apply r3.
Qed.

(** C59 *)
Lemma stretched_words : forall profile fuel d (o : options (A:=RA)) (g g' : gcode RA) printed,
  stretch profile fuel d o g = Ok (g', printed) ->
  exists w ms, marking profile d g w ms /\
    forall k l l', nth_error (all_lines g) k = Some l -> nth_error (all_lines g') k = Some l' ->
      to_stretch o w (upto k ms) = true ->
      command l' = command l /\
      match l_z l, l_z l' with
      | Some z, Some z' => Rabs (z' - z) <= / 2000
      | None, None => True
      | _, _ => False
      end /\
      match l_e l, l_e l' with
      | Some e, Some e' => exists f, 1 - limit o w (loop_of (map raw (upto k ms))) <= f <= 1 /\
                                     Rabs (e' - e * f) <= / 200000
      | None, None => True
      | _, _ => False
      end.
Proof.
  intros profile fuel d o g g' printed H.
  destruct (stretched_all _ _ _ _ _ _ _ H) as (w & ms & Hm & _ & Ha).
  exists w, ms. split; [exact Hm|]. intros k l l' Hl Hl' Ht.
  destruct (Ha k l l' Hl Hl' Ht) as (_ & Hr & _ & _ & Hc & _ & dx & dy & Hb & _ & _ & Ez & Ee & _).
  split; [exact Hc|]. rewrite Ez, Ee. split.
  - destruct (l_z l) as [z|]; [apply r3|exact I].
  - destruct (l_e l) as [e|]; [|exact I]. eexists. split; [|apply r5].
    pose proof (sqrt_pos (dx * dx + dy * dy)). pose proof (sqrt_le _ _ Hr Hb). lra.
Qed.

(** C60: the F word of the move itself, or of the latest move of a loop *)
Lemma stretched_feed : forall profile fuel d (o : options (A:=RA)) (g g' : gcode RA) printed,
  stretch profile fuel d o g = Ok (g', printed) ->
  exists w ms, marking profile d g w ms /\
    forall k l', nth_error (all_lines g') k = Some l' -> to_stretch o w (upto k ms) = true ->
      forall j lj f, (j <= k)%nat -> nth_error (all_lines g) j = Some lj -> loop_move (upto j ms) = true ->
        l_f lj = Some f -> f <> 0 ->
        (forall i li, (j < i <= k)%nat -> nth_error (all_lines g) i = Some li -> l_f li = None) ->
        exists f', l_f l' = Some f' /\ Rabs (f' - f) <= / 2000.
Proof.
  intros profile fuel d o g g' printed H.
  pose proof (stretch_texts _ _ _ _ _ _ _ H) as (_ & _ & _ & _ & Hlen & _).
  destruct (stretched_all _ _ _ _ _ _ _ H) as (w & ms & Hm & H2 & Ha).
  exists w, ms. split; [exact Hm|]. intros k l' Hl' Ht j lj f Hjk Hlj Hlp Hf Hnz Hno.
  destruct (nth_of_length _ _ _ _ _ _ Hlen Hl') as (l & Hl).
  destruct (Ha k l l' Hl Hl' Ht) as (_ & _ & _ & _ & _ & _ & dx & dy & _ & _ & _ & _ & _ & Ef).
  eexists. split; [exact Ef|].
  destruct (forall2_nth _ _ _ _ _ _ _ H2 Hlj) as (mj & Hmj & (_ & _ & Hs & _) & _).
  rewrite (feed_after j k ms mj f Hmj Hlp).
  - apply r3.
  - unfold l_f. rewrite Hs. exact Hf.
  - unfold truthy. destruct (n_eqb (a:=RA) f n0) eqn:Eq; [|reflexivity].
    apply (val_eqb RA exactR) in Eq. rewrite val_n0 in Eq. contradiction.
  - exact Hjk.
  - intros i mi Hi Hmi. destruct (forall2_nth_l _ _ _ _ _ _ _ H2 Hmi) as (li & Hli & (_ & _ & Hsi & _) & _).
    unfold l_f. rewrite Hsi. exact (Hno i li Hi Hli).
Qed.

(** C61: the other coordinate is the one of the previous move, if that one is a
    move of a loop with both *)
Lemma stretched_from : forall profile fuel d (o : options (A:=RA)) (g g' : gcode RA) printed,
  stretch profile fuel d o g = Ok (g', printed) ->
  exists w ms, marking profile d g w ms /\
    forall j k lj l l' x0 y0, (j < k)%nat -> nth_error (all_lines g) j = Some lj -> loop_move (upto j ms) = true ->
      l_x lj = Some x0 -> l_y lj = Some y0 ->
      (forall i li, (j < i < k)%nat -> nth_error (all_lines g) i = Some li -> xy_move li = false) ->
      nth_error (all_lines g) k = Some l -> nth_error (all_lines g') k = Some l' ->
      to_stretch o w (upto k ms) = true ->
      exists dx dy x' y',
        sqrt (dx * dx + dy * dy) <= limit o w (loop_of (map raw (upto k ms))) /\
        l_x l' = Some x' /\ Rabs (x' - (match l_x l with Some x => x | None => x0 end + dx)) <= / 2000 /\
        l_y l' = Some y' /\ Rabs (y' - (match l_y l with Some y => y | None => y0 end + dy)) <= / 2000.
Proof.
  intros profile fuel d o g g' printed H.
  destruct (stretched_all _ _ _ _ _ _ _ H) as (w & ms & Hm & H2 & Ha).
  exists w, ms. split; [exact Hm|]. intros j k lj l l' x0 y0 Hjk Hlj Hlp Hx0 Hy0 Hno Hl Hl' Ht.
  destruct (Ha k l l' Hl Hl' Ht) as (Hlk & Hr & _ & _ & _ & _ & dx & dy & Hb & Ex & Ey & _).
  assert (Hp : point_of (upto k ms) = (match l_x l with Some x => x | None => x0 end,
                                       match l_y l with Some y => y | None => y0 end)).
  { destruct (forall2_nth _ _ _ _ _ _ _ H2 Hlj) as (mj & Hmj & (_ & _ & Hsj & _) & _).
    destruct (forall2_nth _ _ _ _ _ _ _ H2 Hl) as (mk & Hmk & (_ & _ & Hsk & _) & _).
    rewrite (upto_cons _ _ _ Hmk) in *. cbn [point_of]. rewrite Hlk.
    destruct k as [|k]; [lia|].
    assert (Hpre : point_of (rev (firstn (S k) ms)) = (x0, y0)).
    { change (rev (firstn (S k) ms)) with (upto k ms).
      apply (point_after j k ms mj); try (unfold l_x, l_y; rewrite Hsj; assumption); try assumption; [lia|].
      intros i mi Hi Hmi. destruct (forall2_nth_l _ _ _ _ _ _ _ H2 Hmi) as (li & Hli & (Hci & _ & Hsi & _) & _).
      pose proof (Hno i li ltac:(lia) Hli) as Hx. revert Hx. unfold xy_move, is_command, l_x, l_y. now rewrite Hci, Hsi. }
    rewrite Hpre. unfold l_x, l_y. rewrite Hsk. reflexivity. }
  rewrite Hp in Ex, Ey. cbn [fst snd] in Ex, Ey.
  eexists dx, dy, _, _. split; [apply sqrt_le; assumption|].
  split; [exact Ex|]. split; [apply r3|]. split; [exact Ey|]. apply r3.
Qed.

(** ** A loaded program of Cura *)

Lemma cura_safe : forall (A : arith) (E : exact A) profile fuel o home data (g : gcode A),
  load_gen false home data = Ok g ->
  Forall (fun s => command_name s <> Some "G20"%string /\ markable s /\
                   startswith ";CURA_PROFILE_STRING:" s = false) (program_text data) ->
  (forall y, In y (g_layers g) -> ends_moving (ly_lines y) = false) ->
  (0 <= val E (o_cross o))%R -> (0 < val E (o_from o))%R ->
  match stretch profile fuel Cura o g with Ok _ => True | Err e => e = OutOfFuel end.
Proof.
  intros A E profile fuel o home data g Hl Ht Hend Hc Hf.
  assert (H20 : Forall (fun s => command_name s <> Some "G20"%string) (program_text data)) by
    (eapply Forall_impl; [|exact Ht]; intros s Hs; apply Hs).
  destruct (load_settled _ _ _ Hl H20) as [Hs Hr]. rewrite <- Hr in Ht. rewrite Forall_map in Ht.
  destruct (cura_setup profile g) as (ys & Hset).
  { eapply Forall_impl; [|exact Ht]. intros l Hl'. apply Hl'. }
  eapply stretch_safe; [exact Hset| |exact Hc|exact Hf|intros _; exact Hend|].
  - rewrite (val_lit E). cbn. lra.
  - rewrite Forall_forall in *. intros l Hin. split; [apply (Ht l Hin)|]. exists l. exact (Hs l Hin).
Qed.

Lemma cura_total : forall (A : arith) (E : exact A) profile fuel o home data (g : gcode A) w ys,
  load_gen false home data = Ok g ->
  Forall (fun s => command_name s <> Some "G20"%string /\ markable s /\
                   startswith ";CURA_PROFILE_STRING:" s = false) (program_text data) ->
  (forall y, In y (g_layers g) -> ends_moving (ly_lines y) = false) ->
  (0 <= val E (o_cross o))%R -> (0 < val E (o_from o))%R ->
  setup_filter profile Cura (g_layers g) = Ok (w, ys) -> all_walled [] ys = true -> all_walls_here [] ys = true ->
  (forall y, In y ys -> (2 * List.length (ly_lines y) + 6 < fuel)%nat) ->
  exists g', stretch profile fuel Cura o g = Ok (g', []).
Proof.
  intros A E profile fuel o home data g w ys Hl Ht Hend Hc Hf Hset Hw Hh Hfuel.
  pose proof (cura_safe A E profile fuel o home data g Hl Ht Hend Hc Hf) as Hsafe.
  assert (Ht' : Forall (fun s => command_name s <> Some "G20"%string /\ markable s) (program_text data)) by
    (eapply Forall_impl; [|exact Ht]; intros s (H1 & H2 & _); split; assumption).
  pose proof (cura_ends profile fuel o home data g w ys Hl Ht' Hset Hw Hfuel) as Hend'.
  destruct (stretch profile fuel Cura o g) as [[g' p]|e] eqn:Es; [|congruence].
  exists g'. do 2 f_equal. eapply cura_quiet; eassumption.
Qed.

Lemma slic3r_total : forall (A : arith) (E : exact A) profile fuel o (g : gcode A) we ys,
  setup_filter profile Slic3r (g_layers g) = Ok (Some we, ys) ->
  (0 < val E we)%R -> (0 <= val E (o_cross o))%R -> (0 < val E (o_from o))%R ->
  Forall (fun l => markable (raw l) /\ exists l', reparse l = Ok l') (all_lines g) ->
  all_enclosed [] ys = true -> all_end_here [] ys = true ->
  (forall y, In y ys -> (2 * List.length (ly_lines y) + 6 < fuel)%nat) ->
  exists g', stretch profile fuel Slic3r o g = Ok (g', []).
Proof.
  intros A E profile fuel o g we ys Hset Hw Hc Hf Hr He Hh Hfuel.
  assert (Hd : Slic3r = Cura -> forall y, In y (g_layers g) -> ends_moving (ly_lines y) = false) by discriminate.
  pose proof (stretch_safe E profile fuel Slic3r o g we ys Hset Hw Hc Hf Hd Hr) as Hsafe.
  pose proof (slic3r_ends profile fuel o g (Some we) ys Hset He Hfuel) as Hend'.
  destruct (stretch profile fuel Slic3r o g) as [[g' p]|e] eqn:Es; [|congruence].
  exists g'. do 2 f_equal. eapply slic3r_quiet; eassumption.
Qed.

(** C65: outside loops *)
Lemma outside_kept : forall (A : arith) o w (seen : list (line A)),
  loop_of (map raw seen) = None -> to_stretch o w seen = false.
Proof.
  intros A o w [|l t] H; [reflexivity|]. unfold to_stretch, loop_move. rewrite H, andb_false_r. reflexivity.
Qed.

(** C68: the command *)
Lemma main_dialect : forall (A : arith) profile fuel o data (g g1 : gcode A),
  load_gen false home0 data = Ok g -> to_relative_extrusion g = Ok g1 ->
  stretch_main profile fuel o data =
  bind (stretch profile fuel (if is_cura_gcode g1 then Cura else Slic3r) o g1) (fun x => Ok (snd x ++ write (fst x))).
Proof.
  intros A profile fuel o data g g1 Hl Hr. unfold stretch_main. rewrite Hl. cbn [bind]. rewrite Hr. cbn [bind].
  destruct (stretch _ _ _ _ _) as [[g2 p]|e]; reflexivity.
Qed.

(** C81: layers that end outside loops *)
Lemma layers_apart : forall (A : arith) (ys : list (layer A)),
  Forall (fun y => last (slic3r_layer None None true (texts y)) None = None) ys ->
  loops Slic3r None ys = List.concat (map (fun y => slic3r_layer None None true (texts y)) ys).
Proof.
  intros A ys H. induction H as [|y ys Hy H IH]; [reflexivity|]. cbn [loops layer_loops map List.concat].
  rewrite Hy. f_equal. exact IH.
Qed.

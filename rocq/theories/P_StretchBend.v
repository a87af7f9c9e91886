(** * P_StretchBend: where a stretched point goes *)
From Coq Require Import List Ascii String ZArith NArith Bool Lia Reals Lra.
From Verif Require Import PyBase Arith ArithR Gcoder Filters SpecText SpecLoad SpecMachine SpecMeasure SpecFilter
  Stretch SpecStretch SpecBend P_Load P_Text P_Wf P_Machine P_Measure P_Format P_Filter P_FilterMotion P_Stretch P_StretchRead P_StretchGeo
  P_StretchIter P_StretchLoop P_StretchProps.
Import ListNotations.
Local Open Scope list_scope.

Lemma no_marks : forall s, contains "stretch-" s = false ->
  contains on_marker s = false /\ contains off_marker s = false /\ contains start_marker s = false /\
  contains inner_marker s = false /\ contains outer_marker s = false /\ contains stop_marker s = false.
Proof.
  intros s H. repeat apply conj.
  - apply (contains_shorter "stretch-" "extrusion-on" s H).
  - apply (contains_shorter "stretch-" "extrusion-off" s H).
  - apply (contains_shorter "stretch-" "loop-start" s H).
  - apply (contains_shorter "stretch-" "loop-start stretch-inner-edge-start" s H).
  - apply (contains_shorter "stretch-" "loop-start stretch-outer-edge-start" s H).
  - apply (contains_shorter "stretch-" "loop-stop" s H).
Qed.

(** ** The iterators where there is no mark *)

Section Iter.
Context {A : arith}.
Implicit Types l : line A.

Definition plain (l : line A) : Prop := xy_move l = true /\ contains "stretch-" (raw l) = false.

(** the iterator returns these lines in turn, if anything *)
Fixpoint yields (fuel : nat) (d : dialect) (dir : direction) (ls : list (line A)) (it : iter) (out : list (line A)) : Prop :=
  match out with
  | [] => True
  | l :: t => forall nx, get_next fuel d dir ls it = Ok nx -> exists it1, nx = Next l it1 /\ yields fuel d dir ls it1 t
  end.

Lemma scan_here : forall fuel d dir (ls : list (line A)) first k l nx, nth_error ls k = Some l -> plain l ->
  is_first first (Z.of_nat k) = false ->
  scan fuel d dir ls first (Z.of_nat k) = Ok nx ->
  nx = Next l (Iter (Some (match first with None => Z.of_nat k | Some f => f end)) (Z.of_nat k + increment dir)).
Proof.
  intros [|n] d dir ls first k l nx Hl [Hx Hm] Hf H; cbn [scan] in H; [discriminate H|].
  rewrite line_at_nat, Hl, Hf in H. destruct (no_marks _ Hm) as (_ & Ho & _). unfold has in H. rewrite Ho in H.
  cbn [andb] in H. rewrite xy_line, Hx in H. destruct first; congruence.
Qed.

Definition ahead_of (first : option BinNums.Z) (k : nat) : Prop :=
  match first with None => True | Some f => (f < Z.of_nat k)%Z end.
Definition behind_of (first : option BinNums.Z) (k : nat) : Prop :=
  match first with None => True | Some f => (Z.of_nat k < f)%Z end.

Lemma yields_forward : forall fuel d (ls : list (line A)) out first k,
  (forall j l, nth_error out j = Some l -> nth_error ls (k + j) = Some l) -> Forall plain out -> ahead_of first k ->
  yields fuel d Forward ls (Iter first (Z.of_nat k)) out.
Proof.
  intros fuel d ls. induction out as [|l t IH]; intros first k Hn Hp Hf; cbn [yields]; [exact I|].
  intros nx H. inversion Hp as [|? ? Hl Ht]; subst.
  pose proof (Hn 0%nat l eq_refl) as E. rewrite Nat.add_0_r in E.
  unfold get_next in H. cbn [i_index i_first] in H.
  assert (Ew : wraps d Forward ls (Z.of_nat k) = Ok false).
  { unfold wraps. destruct d; [reflexivity| |reflexivity]. rewrite line_at_nat, E. f_equal.
    destruct Hl as [_ Hl]. apply no_marks in Hl. apply Hl. }
  rewrite Ew in H. cbn [bind] in H.
  assert (Hi : is_first first (Z.of_nat k) = false).
  { destruct first as [f|]; [|reflexivity]. cbn in *. apply Z.eqb_neq. lia. }
  apply (scan_here _ _ _ _ _ _ _ _ E Hl Hi) in H. subst nx. eexists. split; [reflexivity|].
  cbn [increment]. replace (Z.of_nat k + 1)%Z with (Z.of_nat (S k)) by lia. apply IH.
  - intros j x Hx. rewrite <- (Hn (S j) x Hx). f_equal. lia.
  - exact Ht.
  - destruct first as [f|]; cbn in *; lia.
Qed.

(** [out] are the lines before number [k], nearest first *)
Lemma yields_backward : forall fuel d (ls : list (line A)) out first k b,
  (forall j l, nth_error out j = Some l -> j + 1 < k /\ nth_error ls (k - 1 - j) = Some l) -> Forall plain out ->
  nth_error ls k = Some b -> contains "stretch-" (raw b) = false ->
  behind_of first (k - 1) ->
  yields fuel d Backward ls (Iter first (Z.of_nat k - 1)) out.
Proof.
  intros fuel d ls. induction out as [|l t IH]; intros first k b Hn Hp Hb Hbm Hf; cbn [yields]; [exact I|].
  intros nx H. inversion Hp as [|? ? Hl Ht]; subst.
  destruct (Hn 0%nat l eq_refl) as [Hk E]. rewrite Nat.sub_0_r in E.
  unfold get_next in H. cbn [i_index i_first] in H.
  assert (Ez : (Z.of_nat k - 1 + 1)%Z = Z.of_nat k) by lia.
  assert (Ew : wraps d Backward ls (Z.of_nat k - 1) = Ok false).
  { unfold wraps. destruct (no_marks _ Hbm) as (_ & _ & Hs & _).
    destruct d.
    - destruct (Z.ltb_spec (Z.of_nat k - 1) 0); [lia|]. rewrite Ez, line_at_nat, Hb. unfold has. rewrite Hs. reflexivity.
    - destruct (Z.ltb_spec (Z.of_nat k - 1) 0); [lia|]. rewrite Ez, line_at_nat, Hb. unfold has. rewrite Hs. reflexivity.
    - destruct (Z.ltb_spec (Z.of_nat k - 1) 1); [lia|reflexivity]. }
  rewrite Ew in H. cbn [bind] in H.
  replace (Z.of_nat k - 1)%Z with (Z.of_nat (k - 1)) in H by lia.
  assert (Hi : is_first first (Z.of_nat (k - 1)) = false).
  { destruct first as [f|]; [|reflexivity]. cbn in *. apply Z.eqb_neq. lia. }
  apply (scan_here _ _ _ _ _ _ _ _ E Hl Hi) in H. subst nx. eexists. split; [reflexivity|].
  cbn [increment]. replace (Z.of_nat (k - 1) + -1)%Z with (Z.of_nat (k - 1) - 1)%Z by lia. apply (IH _ _ l).
  - intros j x Hx. destruct (Hn (S j) x Hx) as [H1 H2]. split; [lia|]. rewrite <- H2. f_equal. lia.
  - exact Ht.
  - exact E.
  - apply Hl.
  - destruct first as [f|]; cbn in *; lia.
Qed.

(** ** The lines of a layer as the iterators see them *)

Lemma fates_at : forall fuel d o w m1 seen before (m : line A) t out l', fates fuel d o w seen before (m1 ++ m :: t) out ->
  nth_error out (List.length m1) = Some l' ->
  exists bs, List.length bs = List.length m1 /\
    (forall j mj, nth_error m1 j = Some mj -> to_stretch o w (rev (firstn (S j) m1) ++ seen) = true -> nth_error bs j = Some mj) /\
    line_fate fuel d o w (before ++ bs ++ m :: t) (List.length (before ++ bs)) (rev m1 ++ seen) m l'.
Proof.
  intros fuel d o w. induction m1 as [|a m1 IH]; intros seen before m t out l' H Hl.
  - inversion H as [|? ? ? ? ? ? Hf _]; subst. cbn in Hl. inversion Hl; subst. exists []. split; [reflexivity|].
    split; [intros [|j] mj Hj; discriminate Hj|]. rewrite app_nil_r. exact Hf.
  - cbn [app] in H. inversion H as [|? ? ? ? ? ? Hf Hr]; subst. cbn in Hl.
    destruct (IH _ _ _ _ _ _ Hr Hl) as (bs & H1 & H2 & H3).
    match type of H3 with context [before ++ [?e]] => exists (e :: bs) end. split; [cbn; congruence|]. split.
    + intros [|j] mj Hj Ht.
      * cbn in Hj, Ht. inversion Hj; subst. rewrite Ht. reflexivity.
      * cbn [nth_error] in *. apply H2; [exact Hj|]. cbn [firstn rev] in Ht |- *. rewrite <- app_assoc in Ht. exact Ht.
    + cbn [rev]. rewrite <- !app_assoc in *. cbn [app] in *. exact H3.
Qed.

(** an unmarked move is in the loop of the lines before it *)
Lemma loop_of_plain : forall t before, contains "stretch-" t = false -> loop_of (t :: before) = loop_of before.
Proof.
  intros t before H. destruct (no_marks _ H) as (_ & _ & H1 & H2 & H3 & H4). cbn [loop_of]. unfold opened.
  change (contains "stretch-loop-start stretch-inner-edge-start" t) with (contains inner_marker t).
  change (contains "stretch-loop-start stretch-outer-edge-start" t) with (contains outer_marker t).
  change (contains "stretch-loop-start" t) with (contains start_marker t).
  change (contains "stretch-loop-stop" t) with (contains stop_marker t).
  rewrite H1, H2, H3, H4. reflexivity.
Qed.

Lemma to_stretch_back : forall o w back seen, Forall plain back -> back <> [] ->
  forall b, contains "stretch-" (raw b) = false ->
  to_stretch o w (b :: back ++ seen) = true -> to_stretch o w (back ++ seen) = true.
Proof.
  intros o w [|a back] seen Hp Hne b Hb H; [congruence|]. inversion Hp as [|? ? [Ha _] _]; subst.
  unfold to_stretch, loop_move in *. cbn [app map] in *. rewrite loop_of_plain in H by exact Hb.
  rewrite Ha. cbn [andb]. apply andb_prop in H as [H1 H2]. apply andb_prop in H1 as [_ H1]. rewrite H1. exact H2.
Qed.

Lemma to_stretch_all : forall o w back seen j, Forall plain back ->
  forall b, contains "stretch-" (raw b) = false ->
  to_stretch o w (b :: back ++ seen) = true -> j < List.length back -> to_stretch o w (skipn j back ++ seen) = true.
Proof.
  intros o w. induction back as [|a back IH]; intros seen j Hp b Hb H Hj; [cbn in Hj; lia|].
  assert (H1 : to_stretch o w ((a :: back) ++ seen) = true) by (eapply to_stretch_back; try eassumption; discriminate).
  destruct j as [|j]; [exact H1|]. cbn [skipn]. inversion Hp as [|? ? [_ Ha] Hp']; subst.
  apply (IH seen j Hp' a Ha H1). cbn in Hj. lia.
Qed.

Lemma nth_rev : forall (X : Type) (xs : list X) j, j < List.length xs -> nth_error (rev xs) j = nth_error xs (List.length xs - 1 - j).
Proof.
  intros X. induction xs as [|x xs IH]; intros j Hj; [cbn in Hj; lia|]. cbn [rev List.length] in *.
  destruct (Nat.lt_ge_cases j (List.length xs)) as [C|C].
  - rewrite nth_error_app1 by (rewrite rev_length; exact C). rewrite IH by exact C.
    replace (S (List.length xs) - 1 - j) with (S (List.length xs - 1 - j)) by lia. reflexivity.
  - rewrite nth_error_app2 by (rewrite rev_length; exact C). rewrite rev_length.
    replace (j - List.length xs) with 0 by lia. replace (S (List.length xs) - 1 - j) with 0 by lia. reflexivity.
Qed.

Lemma rev_firstn : forall (X : Type) (xs : list X) n, rev (firstn n xs) = skipn (List.length xs - n) (rev xs).
Proof.
  intros X xs n.
  assert (E : List.length xs - n = List.length (rev (skipn n xs))) by (rewrite rev_length, skipn_length; reflexivity).
  rewrite E. rewrite <- (firstn_skipn n xs) at 3. rewrite rev_app_distr, skipn_app, skipn_all, Nat.sub_diag. reflexivity.
Qed.

(** the layer that the iterators see around an unmarked stretched line *)
Lemma window : forall profile fuel d o (g g' : gcode A) printed w ys n y y' x pre back b rest l',
  stretch profile fuel d o g = Ok (g', printed) ->
  setup_filter profile d (g_layers g) = Ok (w, ys) ->
  nth_error ys n = Some y -> ly_lines y = x :: pre ++ rev back ++ b :: rest ->
  Forall plain back -> contains "stretch-" (raw b) = false ->
  to_stretch o w (rev (lines_of (firstn n ys) ++ x :: pre ++ rev back ++ [b])) = true ->
  nth_error (g_layers g') n = Some y' -> nth_error (ly_lines y') (S (List.length (pre ++ back))) = Some l' ->
  exists x' pre', List.length pre' = List.length pre /\
    line_fate fuel d o w (x' :: pre' ++ rev back ++ b :: rest) (S (List.length (pre ++ back)))
      (rev (lines_of (firstn n ys) ++ x :: pre ++ rev back)) b l'.
Proof.
  intros profile fuel d o g g' printed w ys n y y' x pre back b rest l' H Hset Hy Hly Hp Hb Ht Hy' Hl'.
  unfold stretch in H. rewrite Hset in H. cbn [bind] in H.
  destruct (stretch_layers _ _ _ _) as [[ys2 p2]|e] eqn:E; cbn [bind] in H; [|discriminate H].
  apply ok_inj in H. apply (f_equal fst) in H. cbn [fst] in H. subst g'. change (nth_error ys2 n = Some y') in Hy'.
  destruct (stretch_layers_ok _ _ _ _ _ _ _ _ _ (init_state o w) E) as (_ & Hk).
  destruct (Hk n) as (z & z' & K1 & K2 & K3). { apply nth_error_Some. rewrite Hy. discriminate. }
  assert (z = y) by congruence. assert (z' = y') by congruence. subst z z'.
  rewrite Hly, app_nil_r in K3.
  replace (x :: pre ++ rev back ++ b :: rest) with ((x :: pre ++ rev back) ++ b :: rest) in K3
    by (cbn [app]; rewrite <- app_assoc; reflexivity).
  assert (EL : List.length (x :: pre ++ rev back) = S (List.length (pre ++ back))).
  { cbn [List.length]. rewrite !app_length, rev_length. reflexivity. }
  rewrite <- EL in Hl'.
  destruct (fates_at _ _ _ _ _ _ _ _ _ _ _ K3 Hl') as (bs & B1 & B2 & B3). cbn [app] in B3.
  assert (Ebs : exists x' pre', List.length pre' = List.length pre /\ bs = x' :: pre' ++ rev back).
  { destruct bs as [|x' bs]; [discriminate B1|]. exists x', (firstn (List.length pre) bs).
    assert (Lb : List.length bs = List.length pre + List.length back).
    { cbn [List.length] in B1. rewrite app_length, rev_length in B1. lia. }
    split; [apply firstn_length_le; lia|]. f_equal. rewrite <- (firstn_skipn (List.length pre) bs) at 1. f_equal.
    (* the lines of [back] are as they were *)
    assert (Hj : forall j, j < List.length back ->
      nth_error (skipn (List.length pre) bs) j = nth_error (rev back) j).
    { intros j Hj. rewrite nth_skipn.
      destruct (nth_error (rev back) j) as [mj|] eqn:Ej.
      2:{ apply nth_error_None in Ej. rewrite rev_length in Ej. lia. }
      apply (B2 (S (List.length pre + j)) mj).
      - cbn [nth_error]. rewrite nth_error_app2 by lia. rewrite <- Ej. f_equal. lia.
      - assert (Ef : firstn (S (S (List.length pre + j))) (x :: pre ++ rev back) = x :: pre ++ firstn (S j) (rev back)).
        { rewrite firstn_cons. f_equal. rewrite firstn_app, firstn_all2 by lia. f_equal.
          replace (S (List.length pre + j) - List.length pre) with (S j) by lia. reflexivity. }
        rewrite Ef. cbn [rev]. rewrite rev_app_distr, rev_firstn, rev_involutive, rev_length, <- !app_assoc.
        apply (to_stretch_all _ _ _ _ _ Hp b Hb); [|lia].
        rewrite !rev_app_distr in Ht. cbn [rev] in Ht. rewrite !rev_app_distr in Ht. cbn [rev app] in Ht.
        rewrite rev_involutive in Ht. rewrite <- !app_assoc in Ht. cbn [app] in Ht |- *. exact Ht. }
    assert (Ls : List.length (skipn (List.length pre) bs) = List.length (rev back)) by (rewrite skipn_length, rev_length; lia).
    clear - Hj Ls. revert Hj Ls. rewrite <- (rev_length back). generalize (rev back) (skipn (List.length pre) bs).
    intros l1 l2. revert l1. induction l2 as [|a l2 IH]; intros [|c l1] Hj Ls; cbn in Ls; try discriminate; [reflexivity|].
    pose proof (Hj 0%nat ltac:(cbn; lia)) as H0. cbn in H0. f_equal; [congruence|].
    apply IH; [|congruence]. intros j Hl. apply (Hj (S j)). cbn. lia. }
  destruct Ebs as (x' & pre' & L & ->). exists x', pre'. split; [exact L|].
  replace (x' :: pre' ++ rev back ++ b :: rest) with ((x' :: pre' ++ rev back) ++ b :: rest)
    by (cbn [app]; rewrite <- app_assoc; reflexivity).
  rewrite <- EL, <- B1. rewrite rev_app_distr. exact B3.
Qed.
End Iter.

(** ** Over the reals *)

Local Open Scope R_scope.

Lemma c_abs_size : forall a : point, c_abs (A:=RA) a = size a.
Proof. intros [x y]. reflexivity. Qed.
Lemma c_sub_minus : forall a b : point, c_sub (A:=RA) a b = minus a b.
Proof. intros [x y] [x' y']. reflexivity. Qed.
Lemma c_add_plus : forall a b : point, c_add (A:=RA) a b = plus a b.
Proof. intros [x y] [x' y']. reflexivity. Qed.
Lemma c_scale_times : forall (a : point) (k : R), c_scale (A:=RA) a k = times k a.
Proof. intros [x y] k. rewrite r_scale. unfold times. cbn [fst snd num RA]. f_equal; ring. Qed.
Lemma dot_inner : forall a b : point, dot (A:=RA) a b = inner a b.
Proof. intros [x y] [x' y']. reflexivity. Qed.
Lemma c_div_times : forall (a : point) (k : R) r, c_div (A:=RA) a k = Ok r -> k <> 0 /\ r = times (/ k) a.
Proof.
  intros [x y] k r H. apply r_div in H as [Hk ->]. split; [exact Hk|]. unfold times. cbn [fst snd]. f_equal; unfold Rdiv; ring.
Qed.
Lemma py_div_real : forall a b r : R, py_div (A:=RA) a b = Ok r -> b <> 0 /\ r = a / b.
Proof.
  intros a b r H. unfold py_div in H. destruct (n_eqb (a:=RA) b n0) eqn:E; [discriminate H|]. split.
  - intros C. assert (n_eqb (a:=RA) b n0 = true) by (apply (val_eqb RA exactR); rewrite val_n0; exact C). congruence.
  - apply ok_inj in H. symmetry. exact H.
Qed.
Lemma leb_real : forall a b : R, n_leb (a:=RA) a b = true <-> a <= b.
Proof. intros a b. apply (val_leb RA exactR). Qed.
Lemma ltb_real : forall a b : R, n_ltb (a:=RA) a b = true <-> a < b.
Proof. intros a b. apply (val_ltb RA exactR). Qed.
Lemma leb_false : forall a b : R, n_leb (a:=RA) a b = false <-> b < a.
Proof.
  intros a b. rewrite <- not_true_iff_false, leb_real. lra.
Qed.
Lemma ltb_false : forall a b : R, n_ltb (a:=RA) a b = false <-> b <= a.
Proof.
  intros a b. rewrite <- not_true_iff_false, ltb_real. lra.
Qed.

Lemma size_nonneg : forall a, 0 <= size a.
Proof. intros a. apply sqrt_pos. Qed.
Lemma size_sq : forall a, size a * size a = inner a a.
Proof. intros [x y]. unfold size. apply sqrt_sqrt. unfold inner. cbn. nra. Qed.

Lemma move_location : forall l p old, move_to l p -> drop_axis (get_location (A:=RA) (Some old) l) = p.
Proof.
  intros l [px py] [[x y] z] (_ & Hx & Hy). unfold get_location. rewrite Hx, Hy. reflexivity.
Qed.

Lemma loop_reaches : forall n fuel d dir (w : lengths (A:=RA)) (ls : list (line RA)) old (loc : point) ms qs (lastl : point) pt (total : R) it f r pr,
  yields fuel d dir ls it ms -> Forall2 move_to ms qs -> 0 < w_from w - total ->
  reaches (w_from w - total) lastl qs f ->
  relative_loop (A:=RA) n fuel d dir w ls (Some old) loc lastl pt total total it = Ok (r, pr) ->
  w_from w <> 0 /\ r = times (/ w_from w) (minus loc f).
Proof.
  induction n as [|n IH]; intros fuel d dir w ls old loc ms qs lastl pt total it f r pr Hy Hp Hs Hr H;
    cbn [relative_loop] in H; [discriminate H|].
  destruct (get_next fuel d dir ls it) as [nx|e] eqn:En; cbn [bind] in H; [|discriminate H].
  destruct Hp as [|l q ms qs Hl Hp]; [inversion Hr|]. cbn [yields] in Hy.
  destruct (Hy nx En) as (it1 & -> & Hy1). rewrite (move_location _ _ _ Hl) in H.
  rewrite c_sub_minus, c_abs_size in H. change (size (minus lastl q)) with (distance lastl q) in H.
  change (n_add (a:=RA) total (distance lastl q)) with (total + distance lastl q) in H.
  change (n_sub (a:=RA) (w_from w) total) with (w_from w - total) in H.
  inversion Hr as [s p q' qs' Hle E1 E2 E3|s p q' qs' r' Hlt Hr' E1 E2 E3]; subst.
  - assert (El : n_leb (a:=RA) (w_from w) (total + distance lastl q) = true) by (apply leb_real; cbn [num RA] in *; lra).
    rewrite El in H. destruct (py_div _ _) as [ratio|e] eqn:Ed; cbn [bind] in H; [|discriminate H].
    apply py_div_real in Ed as [Hd ->].
    destruct (c_div _ _) as [r1|e] eqn:Ec; cbn [bind] in H; [|discriminate H].
    rewrite !c_scale_times, c_add_plus, c_sub_minus in Ec.
    apply c_div_times in Ec as [Hw ->]. apply ok_inj in H. apply (f_equal fst) in H. cbn [fst] in H. subst r.
    split; [exact Hw|]. f_equal. f_equal. destruct lastl as [a b], q as [c e].
    change (n_sub (a:=RA) n1 ((w_from w - total) / distance (a, b) (c, e))) with (n1 (A:=RA) - (w_from w - total) / distance (a, b) (c, e)).
    replace (n1 (A:=RA)) with 1 by (symmetry; apply (val_n1 exactR)).
    unfold heading. set (D := distance (a, b) (c, e)) in *. unfold plus, times, minus. cbn [fst snd num RA].
    f_equal; field; exact Hd.
  - assert (El : n_leb (a:=RA) (w_from w) (total + distance lastl q) = false) by (apply leb_false; cbn [num RA] in *; lra).
    rewrite El in H. apply (IH _ _ _ _ _ _ _ _ _ _ _ _ _ f _ _ Hy1 Hp) in H; [exact H| |].
    + cbn [num RA] in *. lra.
    + replace (w_from w - (total + distance lastl q)) with (w_from w - total - distance lastl q) by (cbn [num RA]; ring). exact Hr'.
Qed.

Lemma heading_size : forall p q, distance p q <> 0 -> inner (heading p q) (heading p q) = 1.
Proof.
  intros [a b] [c e] H. unfold heading. set (D := distance (a, b) (c, e)) in *.
  assert (HD : D * D = (a - c) * (a - c) + (b - e) * (b - e)).
  { unfold D, distance. rewrite size_sq. reflexivity. }
  unfold inner, times, minus. cbn [fst snd].
  replace (/ D * (c - a) * (/ D * (c - a)) + / D * (e - b) * (/ D * (e - b)))
    with (((a - c) * (a - c) + (b - e) * (b - e)) / (D * D)) by (field; exact H).
  rewrite <- HD. field. exact H.
Qed.

Lemma restrained_near : forall c p q v, 0 < c -> distance p q <= c / 3 -> restrained c p q v = v.
Proof.
  intros c p q v Hc H. unfold restrained.
  assert (Hk : portion ((c - distance p q) / (2 / 3 * c)) = 1).
  { assert (1 <= (c - distance p q) / (2 / 3 * c)).
    { apply (Rmult_le_reg_r (2 / 3 * c)); [lra|]. unfold Rdiv at 2. rewrite Rmult_assoc, Rinv_l by lra. lra. }
    unfold portion. rewrite Rmin_left by assumption. apply Rmax_right. lra. }
  rewrite Hk. unfold across, plus, times, minus. destruct v as [x y]. cbn [fst snd]. f_equal; ring.
Qed.

Lemma restrained_far : forall c p q v, 0 < c -> c <= distance p q -> restrained c p q v = along (heading p q) v.
Proof.
  intros c p q v Hc H. unfold restrained.
  assert (Hk : portion ((c - distance p q) / (2 / 3 * c)) = 0).
  { assert ((c - distance p q) / (2 / 3 * c) <= 0).
    { apply (Rmult_le_reg_r (2 / 3 * c)); [lra|]. unfold Rdiv at 1. rewrite Rmult_assoc, Rinv_l by lra. lra. }
    unfold portion. rewrite Rmin_right by lra. apply Rmax_left. assumption. }
  rewrite Hk. unfold plus, times. destruct (along _ _) as [x y]. cbn [fst snd]. f_equal; ring.
Qed.

Lemma cross_restrained : forall fuel d (w : lengths (A:=RA)) (ls : list (line RA)) old (v : point) dir start (p q : point) l t r pr,
  yields fuel d dir ls (new_iter start) (l :: t) -> drop_axis (get_location (Some old) l) = q ->
  0 < w_cross w -> w_fraction w = w_cross w / 3 -> w_remainder w = 2 / 3 * w_cross w ->
  cross_limited (A:=RA) fuel d w ls (Some old) v dir start p = Ok (r, pr) ->
  r = restrained (w_cross w) p q v.
Proof.
  intros fuel d w ls old v dir start p q l t r pr Hy Hl Hc Hf Hrem H. unfold cross_limited in H.
  destruct (get_next _ _ _ _ _) as [nx|e] eqn:En; cbn [bind] in H; [|discriminate H].
  destruct (Hy nx En) as (it1 & -> & _). rewrite Hl in H.
  rewrite c_sub_minus, c_abs_size in H. change (size (minus p q)) with (distance p q) in H.
  destruct (n_leb (a:=RA) (distance p q) (w_fraction w)) eqn:E1.
  { apply leb_real in E1. apply ok_inj in H. apply (f_equal fst) in H. cbn [fst] in H. subst r. symmetry. apply restrained_near; [exact Hc|].
    rewrite <- Hf. exact E1. }
  apply leb_false in E1.
  destruct (c_div _ _) as [u|e] eqn:Ed; cbn [bind] in H; [|discriminate H]. apply c_div_times in Ed as [Hd ->].
  assert (Ea : forall k, times (inner (times (/ distance p q) (minus p q)) v) (times (/ distance p q) (minus p q)) = k ->
               along (heading p q) v = k).
  { intros k <-. unfold along, heading, inner, times, minus. destruct p, q, v. cbn [fst snd]. f_equal; ring. }
  rewrite dot_inner in H. rewrite !c_scale_times in H. rewrite <- (Ea _ eq_refl) in H.
  destruct (n_ltb (a:=RA) (w_cross w) (distance p q)) eqn:E2.
  { apply ltb_real in E2. apply ok_inj in H. apply (f_equal fst) in H. cbn [fst] in H. subst r. symmetry. apply restrained_far; [exact Hc|lra]. }
  apply ltb_false in E2.
  destruct (py_div _ _) as [k|e] eqn:Ep; cbn [bind] in H; [|discriminate H]. apply py_div_real in Ep as [Hr ->].
  apply ok_inj in H. apply (f_equal fst) in H. cbn [fst] in H. subst r.
  rewrite c_add_plus, dot_inner, c_scale_times. unfold restrained.
  change (n_sub (a:=RA) (w_cross w) (distance p q)) with (w_cross w - distance p q). rewrite Hrem.
  assert (Hk : portion ((w_cross w - distance p q) / (2 / 3 * w_cross w)) = (w_cross w - distance p q) / (2 / 3 * w_cross w)).
  { cbn [num RA] in *.
    assert (0 <= (w_cross w - distance p q) / (2 / 3 * w_cross w) <= 1).
    { split; (apply (Rmult_le_reg_r (2 / 3 * w_cross w)); [lra|]).
      - unfold Rdiv at 2. rewrite Rmult_assoc, Rinv_l by lra. lra.
      - unfold Rdiv at 1. rewrite Rmult_assoc, Rinv_l by lra. lra. }
    unfold portion. rewrite Rmin_right by lra. apply Rmax_right. lra. }
  rewrite Hk. f_equal. f_equal.
  pose proof (heading_size p q Hd) as Hu. revert Hu. unfold across, along, heading.
  set (D := distance p q). destruct p as [a b], q as [a' b'], v as [x y].
  unfold inner, times, minus. cbn [fst snd]. intros Hu.
  change (n_opp (a:=RA)) with Ropp.
  set (ux := / D * (a' - a)) in *. set (uy := / D * (b' - b)) in *.
  replace (/ D * (a - a')) with (- ux) by (unfold ux; ring). replace (/ D * (b - b')) with (- uy) by (unfold uy; ring).
  f_equal.
  - replace x with ((ux * ux + uy * uy) * x) at 2 by (rewrite Hu; ring). ring.
  - replace y with ((ux * ux + uy * uy) * y) at 2 by (rewrite Hu; ring). ring.
Qed.

Lemma clip_clipped : forall (v r : point),
  (if n_ltb (a:=RA) n1 (c_abs (A:=RA) v) then c_div (A:=RA) v (c_abs (A:=RA) v) else Ok v) = Ok r -> r = clipped v.
Proof.
  intros v r H. rewrite c_abs_size in H. unfold clipped.
  replace (n1 (A:=RA)) with 1 in H by (symmetry; apply (val_n1 exactR)).
  destruct (n_ltb (a:=RA) 1 (size v)) eqn:E.
  - apply ltb_real in E. apply c_div_times in H as [_ ->]. rewrite Rmax_right by lra. reflexivity.
  - apply ltb_false in E. rewrite Rmax_left by lra. apply ok_inj in H. subst r.
    destruct v. unfold times. cbn [fst snd]. f_equal; field.
Qed.

Lemma absolute_bend : forall fuel d (o : options (A:=RA)) (we : R) (ls : list (line RA)) i old (max : R) (p : point) am aps bm bps r q f k move pr,
  0 < we -> 0 < o_cross o -> 0 < o_from o ->
  yields fuel d Forward ls (new_iter (i + 1)) am -> Forall2 move_to am aps ->
  yields fuel d Backward ls (new_iter (i - 1)) bm -> Forall2 move_to bm bps ->
  hd_error aps = Some r -> hd_error bps = Some q ->
  reaches (o_from o * we) p aps f -> reaches (o_from o * we) p bps k ->
  absolute_stretch (A:=RA) fuel d (edge_lengths o we) ls i (Some old) max p = Ok (move, pr) ->
  move = times max (bend (o_from o * we) (we * o_cross o) p r f q k).
Proof.
  intros fuel d o we ls i old max p am aps bm bps r q f k move pr Hw Hc Hf Ya Pa Yb Pb Er Eq Ra Rb H.
  unfold absolute_stretch, relative_stretch in H.
  set (w := edge_lengths o we) in *.
  assert (E1 : w_from w = o_from o * we) by reflexivity.
  assert (E2 : w_cross w = we * o_cross o) by reflexivity.
  assert (E3 : w_fraction w = w_cross w / 3).
  { change (w_fraction w) with (w_cross w / lit (A:=RA) 3 0). f_equal. etransitivity; [apply (val_lit exactR)|cbn; lra]. }
  assert (E4 : w_remainder w = 2 / 3 * w_cross w).
  { change (w_remainder w) with (w_cross w - w_fraction w). rewrite E3. cbn [num RA]. field. }
  clearbody w.
  assert (Hfw : 0 < o_from o * we) by (cbn [num RA] in *; nra).
  assert (Hcw : 0 < w_cross w) by (rewrite E2; cbn [num RA] in *; nra).
  assert (En0 : n0 (A:=RA) = 0) by (apply (val_n0 exactR)).
  destruct (relative_loop _ _ _ Forward _ _ _ _ _ _ _ _ _) as [[r1 p1]|e] eqn:R1; cbn [bind] in H; [|discriminate H].
  destruct (relative_loop _ _ _ Backward _ _ _ _ _ _ _ _ _) as [[r2 p2]|e] eqn:R2; cbn [bind] in H; [|discriminate H].
  rewrite En0 in R1, R2.
  apply (loop_reaches _ _ _ _ _ _ _ _ _ _ _ _ _ _ f _ _ Ya Pa) in R1 as [H0 ->];
    [|rewrite E1; cbn [num RA] in *; lra|replace (w_from w - 0) with (o_from o * we) by (rewrite E1; cbn [num RA]; ring); exact Ra].
  apply (loop_reaches _ _ _ _ _ _ _ _ _ _ _ _ _ _ k _ _ Yb Pb) in R2 as [_ ->];
    [|rewrite E1; cbn [num RA] in *; lra|replace (w_from w - 0) with (o_from o * we) by (rewrite E1; cbn [num RA]; ring); exact Rb].
  rewrite c_add_plus, c_scale_times in H. rewrite E1 in *.
  set (v := times (lit (A:=RA) 8 1) _) in H.
  destruct Pa as [|la r' am aps La Pa]; [discriminate Er|]. cbn in Er. assert (r' = r) by congruence. subst r'.
  destruct Pb as [|lb q' bm bps Lb Pb]; [discriminate Eq|]. cbn in Eq. assert (q' = q) by congruence. subst q'.
  destruct (cross_limited _ _ _ _ _ _ Forward _ _) as [[r3 p3]|e] eqn:C1; cbn [bind] in H; [|discriminate H].
  apply (cross_restrained _ _ _ _ _ _ _ _ _ _ _ _ _ _ Ya (move_location _ _ _ La) Hcw E3 E4) in C1.
  destruct (cross_limited _ _ _ _ _ _ Backward _ _) as [[r4 p4]|e] eqn:C2; cbn [bind] in H; [|discriminate H].
  apply (cross_restrained _ _ _ _ _ _ _ _ _ _ _ _ _ _ Yb (move_location _ _ _ Lb) Hcw E3 E4) in C2.
  match type of H with context [bind ?X _] => destruct X as [r5|e] eqn:C3; cbn [bind] in H; [|discriminate H] end.
  apply clip_clipped in C3. apply ok_inj in H. apply (f_equal fst) in H. cbn [fst] in H. subst move.
  rewrite c_scale_times. f_equal. rewrite C3, C2, C1, E2. unfold bend. do 3 f_equal. unfold v.
  assert (E8 : lit (A:=RA) 8 1 = 8 / 10) by (etransitivity; [apply (val_lit exactR)|cbn; lra]).
  rewrite E8. clear - H0. revert H0. generalize (o_from o * we). intros F H0. destruct p as [a b], f as [c e'], k as [c' e'']. unfold times, plus, minus. cbn [fst snd num RA].
  f_equal; field; exact H0.
Qed.

Lemma plain_moves : forall ls ps, Forall2 plain_move ls ps -> Forall2 move_to ls ps.
Proof. intros ls ps H. induction H as [|l p ls ps (H1 & H2 & H3 & _) H IH]; constructor; [repeat split; assumption|exact IH]. Qed.

Lemma plain_of : forall l p, plain_move l p -> plain l.
Proof. intros l p (H1 & _ & _ & H2). split; assumption. Qed.

Lemma plains : forall ls ps, Forall2 plain_move ls ps -> Forall plain ls.
Proof. intros ls ps H. induction H as [|l p ls ps Hl H IH]; constructor; [exact (plain_of _ _ Hl)|exact IH]. Qed.

(** C96 *)
Lemma bent : forall profile fuel d (o : options (A:=RA)) (g g' : gcode RA) printed (w : R) ys n y y' x pre back b ahead post l' p qs q rs r f k,
  stretch profile fuel d o g = Ok (g', printed) ->
  setup_filter profile d (g_layers g) = Ok (Some w, ys) ->
  0 < w -> 0 < o_cross o -> 0 < o_from o ->
  nth_error ys n = Some y -> ly_lines y = x :: pre ++ rev back ++ b :: ahead ++ post ->
  Forall2 plain_move back (q :: qs) -> plain_move b p -> Forall2 plain_move ahead (r :: rs) ->
  to_stretch o (Some w) (rev (lines_of (firstn n ys) ++ x :: pre ++ rev back ++ [b])) = true ->
  reaches (o_from o * w) p (r :: rs) f -> reaches (o_from o * w) p (q :: qs) k ->
  nth_error (g_layers g') n = Some y' -> nth_error (ly_lines y') (S (List.length (pre ++ back))) = Some l' ->
  exists x' y',
    let move := times (limit o (Some w) (loop_of (map raw (rev (lines_of (firstn n ys) ++ x :: pre ++ rev back ++ [b])))))
                      (bend (o_from o * w) (w * o_cross o) p r f q k) in
    l_x l' = Some x' /\ Rabs (x' - (fst p + fst move)) <= / 2000 /\
    l_y l' = Some y' /\ Rabs (y' - (snd p + snd move)) <= / 2000.
Proof.
  intros profile fuel d o g g' printed w ys n y y' x pre back b ahead post l' p qs q rs r f k
    H Hset Hw Hc Hfr Hy Hly Hback Hb Hahead Ht Hf Hk Hy' Hl'.
  destruct (window _ _ _ _ _ _ _ _ _ _ _ _ _ _ _ _ _ _ H Hset Hy Hly (plains _ _ Hback) (proj2 (plain_of _ _ Hb)) Ht Hy' Hl')
    as (x1 & pre1 & Lp & Hfate).
  assert (Es : rev (lines_of (firstn n ys) ++ x :: pre ++ rev back ++ [b]) = b :: rev (lines_of (firstn n ys) ++ x :: pre ++ rev back)).
  { replace (lines_of (firstn n ys) ++ x :: pre ++ rev back ++ [b]) with ((lines_of (firstn n ys) ++ x :: pre ++ rev back) ++ [b])
      by (rewrite <- !app_assoc; cbn [app]; rewrite <- !app_assoc; reflexivity).
    rewrite rev_app_distr. reflexivity. }
  rewrite Es in Ht |- *.
  destruct Hfate as [l' Hn _|we move pr old l' Hw' _ Hold Ha Hr]; [congruence|].
  assert (we = w) by congruence. subst we.
  assert (Hp : point_of (b :: rev (lines_of (firstn n ys) ++ x :: pre ++ rev back)) = p).
  { pose proof Ht as Ht'. unfold to_stretch in Ht'. apply andb_prop in Ht' as [Hlm _]. cbn [point_of].
    destruct (point_of (rev _)) as [a c]. rewrite Hlm. destruct Hb as (_ & Bx & By & _). rewrite Bx, By. destruct p. reflexivity. }
  rewrite Hp in *.
  set (ls := x1 :: pre1 ++ rev back ++ b :: ahead ++ post) in *.
  set (i := S (List.length (pre ++ back))) in *.
  assert (Ei : i = List.length (x1 :: pre1 ++ rev back)).
  { unfold i. cbn [List.length]. rewrite !app_length, rev_length, Lp. reflexivity. }
  assert (Els : ls = (x1 :: pre1 ++ rev back) ++ b :: ahead ++ post).
  { unfold ls. cbn [app]. rewrite <- app_assoc. reflexivity. }
  apply (absolute_bend _ _ _ _ _ _ _ _ _ ahead (r :: rs) back (q :: qs) r q f k) in Ha; auto using plain_moves.
  - (* the words *)
    subst move. apply stretched_reads in Hr as (_ & _ & Hargs); [|exact (proj1 Hb)|apply (exact_finite exactR)].
    set (move := times _ _) in *. cbv zeta.
    eexists _, _. unfold l_x, l_y. rewrite Hargs. unfold rounded_args, moved_args.
    split; [reflexivity|]. split; [apply r3|]. split; [reflexivity|]. apply r3.
  - replace (Z.of_nat i + 1)%Z with (Z.of_nat (S i)) by lia. apply yields_forward; [|apply (plains _ _ Hahead)|exact I].
    intros j l Hj. rewrite Els, nth_error_app2 by lia. rewrite <- Ei. replace (S i + j - i)%nat with (S j) by lia. cbn [nth_error].
    rewrite nth_error_app1; [exact Hj|]. apply nth_error_Some. congruence.
  - apply yields_backward with (b := b).
    + intros j l Hj. assert (Hlt : (j < List.length back)%nat) by (apply nth_error_Some; congruence).
      split. { unfold i. rewrite app_length. lia. }
      unfold ls. assert (Eb : nth_error (rev back) (List.length back - 1 - j) = Some l).
      { rewrite nth_rev by lia. rewrite <- Hj. f_equal. lia. }
      replace (i - 1 - j)%nat with (S (List.length pre1 + (List.length back - 1 - j))) by (unfold i; rewrite app_length; lia).
      cbn [nth_error]. rewrite nth_error_app2 by lia.
      replace (List.length pre1 + (List.length back - 1 - j) - List.length pre1)%nat with (List.length back - 1 - j)%nat by lia.
      rewrite nth_error_app1 by (rewrite rev_length; lia). exact Eb.
    + apply (plains _ _ Hback).
    + rewrite Els, nth_error_app2 by lia. rewrite Ei, Nat.sub_diag. reflexivity.
    + apply Hb.
    + exact I.
Qed.

Lemma stretches_bent : forall profile fuel d (o : options (A:=RA)) (w most : R) q qs p r rs p' f k,
  stretches profile fuel d o w most (q :: qs) p (r :: rs) p' ->
  0 < w -> 0 < o_cross o -> 0 < o_from o ->
  reaches (o_from o * w) p (r :: rs) f -> reaches (o_from o * w) p (q :: qs) k ->
  close_to p' (plus p (times most (bend (o_from o * w) (w * o_cross o) p r f q k))).
Proof.
  intros profile fuel d o w most q qs p r rs p' f k
    (g & g' & printed & ys & n & y & y' & x & pre & back & b & ahead & post & l' & H1 & H2 & H3 & H4 & H5 & H6 & H7 & H8 & H9 & H10 & H11 & H12 & H13)
    Hw Hc Hf Ra Rb.
  destruct (bent _ _ _ _ _ _ _ _ _ _ _ _ _ _ _ _ _ _ _ _ _ _ _ _ _ _ H1 H2 Hw Hc Hf H3 H4 H5 H6 H7 H8 Ra Rb H10 H11)
    as (x' & y1 & B1 & B2 & B3 & B4).
  rewrite <- H9 in B2, B4. assert (x' = fst p') by congruence. assert (y1 = snd p') by congruence. subst x' y1.
  split; cbn [fst snd plus]; assumption.
Qed.

(** ** Corners between long threads *)

Lemma cosine_le : forall q p r, distance p q <> 0 -> distance p r <> 0 -> -1 <= cosine q p r <= 1.
Proof.
  intros q p r Hq Hr. unfold cosine. pose proof (heading_size p q Hq) as H1. pose proof (heading_size p r Hr) as H2.
  destruct (heading p q) as [a b], (heading p r) as [c e]. unfold inner in *. cbn [fst snd] in *.
  pose proof (Rle_0_sqr (a - c)). pose proof (Rle_0_sqr (b - e)). pose proof (Rle_0_sqr (a + c)). pose proof (Rle_0_sqr (b + e)).
  unfold Rsqr in *. split; nra.
Qed.

Lemma size_times : forall k u, inner u u = 1 -> size (times k u) = Rabs k.
Proof.
  intros k u Hu. unfold size. replace (inner (times k u) (times k u)) with (Rsqr k).
  - apply sqrt_Rsqr_abs.
  - unfold inner, times in *. cbn [fst snd] in *. unfold Rsqr. replace (k * k) with (k * k * (fst u * fst u + snd u * snd u)) by (rewrite Hu; ring). ring.
Qed.

Lemma bend_corner : forall far c p r q, 0 < far -> 0 < c -> c <= distance p r -> c <= distance p q ->
  bend far c p r (plus p (times far (heading p r))) q (plus p (times far (heading p q))) =
  times (- Rmin 1 (8 / 10 * (1 + cosine q p r) * cosine q p r)) (heading p q).
Proof.
  intros far c p r q Hf Hc Hr Hq. unfold bend.
  rewrite (restrained_far c p r) by assumption. rewrite (restrained_far c p q) by assumption.
  assert (Hr0 : distance p r <> 0) by lra. assert (Hq0 : distance p q <> 0) by lra.
  pose proof (cosine_le q p r Hq0 Hr0) as Hcos. pose proof (heading_size p q Hq0) as Uq. pose proof (heading_size p r Hr0) as Ur.
  unfold cosine in *. set (u := heading p q) in *. set (v := heading p r) in *. clearbody u v. clear Hr Hq Hr0 Hq0.
  set (t := 8 / 10 * (1 + inner u v) * inner u v).
  replace (along u (along v _)) with (times (- t) u).
  - assert (Ht : -1 <= t) by (unfold t; nra).
    unfold clipped. rewrite size_times, Rabs_Ropp by exact Uq.
    destruct (Rle_or_lt t 1) as [C|C].
    + rewrite Rmax_left by (apply Rabs_le; lra). rewrite Rmin_right by exact C.
      destruct u. unfold times. cbn [fst snd]. f_equal; field.
    + rewrite Rabs_pos_eq by lra. rewrite Rmax_right by lra. rewrite Rmin_left by lra.
      destruct u. unfold times. cbn [fst snd]. f_equal; field; lra.
  - unfold t. destruct p as [px py], u as [a b], v as [c' e]. unfold along, inner, times, plus, minus in *. cbn [fst snd] in *.
    assert (E : 8 / 10 / far * (px - (px + far * c') + (px - (px + far * a))) = - (8 / 10) * (c' + a)) by (field; lra).
    assert (E' : 8 / 10 / far * (py - (py + far * e) + (py - (py + far * b))) = - (8 / 10) * (e + b)) by (field; lra).
    rewrite E, E'.
    replace (c' * (- (8 / 10) * (c' + a)) + e * (- (8 / 10) * (e + b)))
      with (- (8 / 10) * ((c' * c' + e * e) + (a * c' + b * e))) by ring.
    rewrite Ur. f_equal; ring.
Qed.

Lemma inwards_times : forall q p r k, distance p q <> 0 -> inwards q p r (times k (heading p q)) = k * (1 + cosine q p r).
Proof.
  intros q p r k H. unfold inwards, cosine. pose proof (heading_size p q H) as Hu.
  destruct (heading p q) as [a b], (heading p r) as [c e]. unfold inner, times, plus in *. cbn [fst snd] in *.
  replace (k * a * (a + c) + k * b * (b + e)) with (k * ((a * a + b * b) + (a * c + b * e))) by ring. rewrite Hu. reflexivity.
Qed.

(** long threads on both sides *)
Lemma stretches_corner : forall profile fuel d (o : options (A:=RA)) (w most : R) q qs p r rs p',
  stretches profile fuel d o w most (q :: qs) p (r :: rs) p' ->
  0 < w -> 0 < o_cross o -> 0 < o_from o ->
  o_from o * w <= distance p r -> o_from o * w <= distance p q -> w * o_cross o <= distance p r -> w * o_cross o <= distance p q ->
  close_to p' (plus p (times (most * - Rmin 1 (8 / 10 * (1 + cosine q p r) * cosine q p r)) (heading p q))).
Proof.
  intros profile fuel d o w most q qs p r rs p' H Hw Hc Hf F1 F2 C1 C2.
  pose proof (stretches_bent _ _ _ _ _ _ _ _ _ _ _ _ _ _ H Hw Hc Hf (reaches_here _ _ _ _ F1) (reaches_here _ _ _ _ F2)) as B.
  cbn [num RA] in *. rewrite bend_corner in B by (assumption || nra).
  replace (times (most * _) _) with (times most (times (- Rmin 1 (8 / 10 * (1 + cosine q p r) * cosine q p r)) (heading p q))); [exact B|].
  destruct (heading p q). unfold times. cbn [fst snd]. f_equal; ring.
Qed.

Lemma most_pos : forall profile fuel d (o : options (A:=RA)) (w most : R) qs p rs p',
  stretches profile fuel d o w most qs p rs p' -> 0 < most.
Proof.
  intros profile fuel d o w most qs p rs p'
    (g & g' & printed & ys & n & y & y' & x & pre & back & b & ahead & post & l' & H1 & H2 & H3 & H4 & H5 & H6 & H7 & H8 & H9 & _).
  unfold to_stretch in H8. apply andb_prop in H8 as [_ H8]. rewrite <- H9 in H8.
  apply ltb_real in H8. replace (n0 (A:=RA)) with 0 in H8 by (symmetry; apply (val_n0 exactR)). exact H8.
Qed.

Lemma corner_sharp : forall profile fuel d (o : options (A:=RA)) (w most : R) q qs p r rs p',
  stretches profile fuel d o w most (q :: qs) p (r :: rs) p' ->
  0 < w -> 0 < o_cross o -> 0 < o_from o ->
  o_from o * w <= distance p r -> o_from o * w <= distance p q -> w * o_cross o <= distance p r -> w * o_cross o <= distance p q ->
  0 <= cosine q p r ->
  exists move, close_to p' (plus p move) /\ inwards q p r move <= 0.
Proof.
  intros profile fuel d o w most q qs p r rs p' H Hw Hc Hf F1 F2 C1 C2 Hcos.
  pose proof (stretches_corner _ _ _ _ _ _ _ _ _ _ _ _ H Hw Hc Hf F1 F2 C1 C2) as N. pose proof (most_pos _ _ _ _ _ _ _ _ _ _ H) as Hm.
  eexists. split; [exact N|].
  assert (Hq0 : distance p q <> 0) by (cbn [num RA] in *; nra).
  rewrite inwards_times by exact Hq0. set (cs := cosine q p r) in *.
  assert (0 <= Rmin 1 (8 / 10 * (1 + cs) * cs)) by (apply Rmin_glb; nra).
  assert (0 <= most * Rmin 1 (8 / 10 * (1 + cs) * cs)) by nra. nra.
Qed.

Lemma corner_blunt : forall profile fuel d (o : options (A:=RA)) (w most : R) q qs p r rs p',
  stretches profile fuel d o w most (q :: qs) p (r :: rs) p' ->
  0 < w -> 0 < o_cross o -> 0 < o_from o ->
  o_from o * w <= distance p r -> o_from o * w <= distance p q -> w * o_cross o <= distance p r -> w * o_cross o <= distance p q ->
  -1 < cosine q p r < 0 ->
  exists move, close_to p' (plus p move) /\ 0 < inwards q p r move.
Proof.
  intros profile fuel d o w most q qs p r rs p' H Hw Hc Hf F1 F2 C1 C2 Hcos.
  pose proof (stretches_corner _ _ _ _ _ _ _ _ _ _ _ _ H Hw Hc Hf F1 F2 C1 C2) as N. pose proof (most_pos _ _ _ _ _ _ _ _ _ _ H) as Hm.
  eexists. split; [exact N|].
  assert (Hq0 : distance p q <> 0) by (cbn [num RA] in *; nra).
  rewrite inwards_times by exact Hq0. set (cs := cosine q p r) in *.
  rewrite Rmin_right by nra.
  assert (0 < (1 + cs) * - cs) by nra. assert (0 < most * ((1 + cs) * - cs)) by nra.
  replace (most * - (8 / 10 * (1 + cs) * cs) * (1 + cs)) with (8 / 10 * (most * ((1 + cs) * - cs)) * (1 + cs)) by ring. nra.
Qed.

(** ** Fine curves *)

Lemma curve_fine : forall profile fuel d (o : options (A:=RA)) (w most : R) q qs p r rs p' f k,
  stretches profile fuel d o w most (q :: qs) p (r :: rs) p' ->
  0 < w -> 0 < o_cross o -> 0 < o_from o ->
  reaches (o_from o * w) p (r :: rs) f -> reaches (o_from o * w) p (q :: qs) k ->
  distance p r <= w * o_cross o / 3 -> distance p q <= w * o_cross o / 3 ->
  exists t, 0 < t /\ close_to p' (plus p (times t (minus p (middle f k)))).
Proof.
  intros profile fuel d o w most q qs p r rs p' f k H Hw Hc Hf Ra Rb C1 C2.
  pose proof (stretches_bent _ _ _ _ _ _ _ _ _ _ _ _ _ _ H Hw Hc Hf Ra Rb) as B. pose proof (most_pos _ _ _ _ _ _ _ _ _ _ H) as Hm.
  cbn [num RA] in *. unfold bend in B. rewrite !restrained_near in B by (assumption || nra).
  unfold clipped in B. set (F := o_from o * w) in *. assert (HF : 0 < F) by (unfold F; nra).
  match type of B with context [times (/ ?s) _] => set (S := s) in * end.
  assert (HS : 1 <= S) by (unfold S; apply Rmax_l). clearbody S F.
  exists (most * / S * (8 / 10 / F) * 2). split.
  { assert (0 < / S) by (apply Rinv_0_lt_compat; lra). assert (0 < 8 / 10 / F) by (apply Rdiv_lt_0_compat; lra).
    assert (0 < most * / S) by nra. assert (0 < most * / S * (8 / 10 / F)) by nra. lra. }
  replace (times (most * / S * (8 / 10 / F) * 2) (minus p (middle f k)))
    with (times most (times (/ S) (times (8 / 10 / F) (plus (minus p f) (minus p k))))); [exact B|].
  destruct p, f, k. unfold middle, times, plus, minus. cbn [fst snd]. f_equal; field; lra.
Qed.

(** ** Such points exist *)

Lemma stretches_intro : forall profile fuel d (o : options (A:=RA)) (g : gcode RA) (w : R) ys n y x pre back b ahead post qs p rs,
  (exists r, stretch profile fuel d o g = Ok r) ->
  setup_filter profile d (g_layers g) = Ok (Some w, ys) ->
  nth_error ys n = Some y -> ly_lines y = x :: pre ++ rev back ++ b :: ahead ++ post ->
  Forall2 plain_move back qs -> plain_move b p -> Forall2 plain_move ahead rs ->
  to_stretch o (Some w) (rev (lines_of (firstn n ys) ++ x :: pre ++ rev back ++ [b])) = true ->
  exists p', stretches profile fuel d o w
    (limit o (Some w) (loop_of (map raw (rev (lines_of (firstn n ys) ++ x :: pre ++ rev back ++ [b]))))) qs p rs p'.
Proof.
  intros profile fuel d o g w ys n y x pre back b ahead post qs p rs [[g' pr] H] Hset Hy Hly Hq Hb Hr Ht.
  destruct (stretch_shape _ _ _ _ _ _ _ H) as [_ Hs].
  pose proof (setup_marked _ _ _ _ _ Hset) as Hm.
  assert (Hlen : map (fun y => List.length (ly_lines y)) ys = map (fun y => List.length (ly_lines y)) (g_layers g)).
  { clear - Hm. induction Hm as [|a c l1 l2 (_ & _ & Hac) Hm IH]; [reflexivity|]. cbn [map]. f_equal; [|exact IH].
    clear - Hac. induction Hac; cbn; congruence. }
  rewrite <- Hlen in Hs. apply (f_equal (fun l => nth_error l n)) in Hs. rewrite !nth_error_map, Hy in Hs. cbn [option_map] in Hs.
  destruct (nth_error (g_layers g') n) as [y'|] eqn:Ey'; cbn [option_map] in Hs; [|discriminate Hs].
  assert (Hl : exists l', nth_error (ly_lines y') (S (List.length (pre ++ back))) = Some l').
  { destruct (nth_error (ly_lines y') (S (List.length (pre ++ back)))) as [l'|] eqn:E; [eauto|]. exfalso.
    apply nth_error_None in E. assert (Hs' : List.length (ly_lines y') = List.length (ly_lines y)) by congruence.
    rewrite Hs', Hly in E. cbn [List.length] in E. rewrite !app_length, rev_length in E. cbn [List.length] in E. lia. }
  destruct Hl as [l' Hl].
  destruct (window _ _ _ _ _ _ _ _ _ _ _ _ _ _ _ _ _ _ H Hset Hy Hly (plains _ _ Hq) (proj2 (plain_of _ _ Hb)) Ht Ey' Hl)
    as (x1 & pre1 & _ & Hfate).
  assert (Es : rev (lines_of (firstn n ys) ++ x :: pre ++ rev back ++ [b]) = b :: rev (lines_of (firstn n ys) ++ x :: pre ++ rev back)).
  { replace (lines_of (firstn n ys) ++ x :: pre ++ rev back ++ [b]) with ((lines_of (firstn n ys) ++ x :: pre ++ rev back) ++ [b])
      by (rewrite <- !app_assoc; cbn [app]; rewrite <- !app_assoc; reflexivity).
    rewrite rev_app_distr. reflexivity. }
  pose proof Ht as Ht'. rewrite Es in Ht'.
  destruct Hfate as [l' Hn _|we move pr' old l' Hw' _ Hold Ha Hre]; [congruence|].
  apply stretched_reads in Hre as (_ & _ & Hargs); [|exact (proj1 Hb)|apply (exact_finite exactR)].
  assert (Ex : exists px, l_x l' = Some px) by (eexists; unfold l_x; rewrite Hargs; reflexivity).
  assert (Eyy : exists py, l_y l' = Some py) by (eexists; unfold l_y; rewrite Hargs; reflexivity).
  destruct Ex as [px Ex]. destruct Eyy as [py Eyy]. exists (px, py).
  exists g, g', pr, ys, n, y, y', x, pre, back, b, ahead, post, l'. cbv zeta. repeat (split; [first [eassumption|reflexivity]|]). exact Eyy.
Qed.

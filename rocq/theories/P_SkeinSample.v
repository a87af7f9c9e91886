(** * P_SkeinSample: concrete programs for the examples of the loops of Skeinforge *)
From Coq Require Import SpecFloat List Ascii String ZArith NArith Bool Reals Lra Lia.
From Verif Require Import PyBase Arith ArithR ArithB64 Gcoder Filters Stretch SpecLoad SpecText SpecFilter SpecStretch SpecLoop SpecBend Samples.
From Verif Require Import P_Load P_Stretch P_StretchRead P_StretchGeo P_StretchErr P_StretchSafe P_StretchRefuted P_StretchBend P_StretchWhole P_StretchSkein P_LoopSample P_Wf.
Import ListNotations.
Local Open Scope list_scope.

(** ** Over the real numbers *)

(** the layers of skeinforge_square.gcode *)
Definition square_head : list string := ["(<edgeWidth> 0.72 </edgeWidth>)"; "(<edge> outer)"]%string.
Definition square_loop : list string :=
  ["G1 X-1 Y0 Z0.6 F960.0"; "M101"; "G1 X0 Y1 Z0.6 F960.0"; "G1 X1 Y0 Z0.6 F960.0"; "G1 X0 Y-1 Z0.6 F960.0";
   "G1 X-1 Y0 Z0.6 F960.0"; "M103"; "(</edge>)"]%string.
Definition readR (s : string) : line RA := get (new_line s) (reparse (new_line s)).
Definition squareR : gcode RA :=
  set_layers [Layer (map readR square_head) None n0; Layer (map readR square_loop) None n0] empty_program.
Definition markedS : option (num RA) * list (layer RA) := get (None, []) (setup_filter no_profile Skeinforge (g_layers squareR)).
Lemma markedS_ok : setup_filter no_profile Skeinforge (g_layers squareR) = Ok (Some (lit 72 2), snd markedS).
Proof. reflexivity. Qed.

(** the [k]-th marked line of the loop *)
Definition lineS (k : nat) : line RA := nth k (nth 1 (map ly_lines (snd markedS)) []) (new_line "").
Definition headS (k : nat) : line RA := nth k (nth 0 (map ly_lines (snd markedS)) []) (new_line "").

Local Open Scope R_scope.

Lemma square_limit : limit default_options (Some (lit (A:=RA) 72 2)) (Some Outer) = 72 / 1000.
Proof. cbn. lra. Qed.

Lemma unmoving_read : forall l, is_ok (reparse l) = true -> xy_move l = false -> xy_move (get l (reparse l)) = false -> unmoving l.
Proof. intros l H1 H2 H3. split; [exact H2|]. intros l' H. rewrite H in H3. exact H3. Qed.

Lemma square_is_loop : skein_loop Outer [headS 0; headS 1] [] [lineS 0; lineS 1; lineS 2; lineS 3; lineS 4; lineS 5] (lineS 6).
Proof.
  exists (lineS 0), [], (lineS 1), [lineS 2; lineS 3; lineS 4; lineS 5].
  split; [reflexivity|]. split; [reflexivity|]. split; [repeat (apply Forall_cons; [repeat split; reflexivity|]); apply Forall_nil|].
  split; [reflexivity|]. split; [apply Forall_cons; [apply unmoving_read; reflexivity|apply Forall_nil]|].
  split; [reflexivity|]. split; [repeat (apply Forall_cons; [reflexivity|]); apply Forall_nil|].
  split; [discriminate|]. split; [reflexivity|].
  split; [repeat (apply Forall_cons; [intros C; discriminate C|]); apply Forall_nil|].
  split; [reflexivity|]. left. cbn. lia.
Qed.

Definition square_points : list point := [(-1, 0); (0, 1); (1, 0); (0, -1); (-1, 0)].

Lemma square_moves : Forall2 move_to (filter xy_move [lineS 0; lineS 1; lineS 2; lineS 3; lineS 4; lineS 5]) square_points.
Proof.
  change (filter xy_move [lineS 0; lineS 1; lineS 2; lineS 3; lineS 4; lineS 5]) with [lineS 0; lineS 2; lineS 3; lineS 4; lineS 5].
  repeat (apply Forall2_cons; [split; [reflexivity|split; [cbn; f_equal; lra|cbn; f_equal; lra]]|]). apply Forall2_nil.
Qed.

Lemma square_closed : closed square_points.
Proof. exists (-1, 0), [(0, 1); (1, 0); (0, -1)]. reflexivity. Qed.

Lemma side_long : forall a b c d, (a - c) * (a - c) = 1 -> 1 <= distance (a, b) (c, d).
Proof. intros a b c d H. unfold distance, size, inner, minus. cbn [fst snd]. rewrite <- sqrt_1 at 1. apply sqrt_le_1_alt. pose proof (Rle_0_sqr (b - d)) as Hs. unfold Rsqr in Hs. lra. Qed.

Lemma square_long : 2 * (72 / 100) <= perimeter square_points.
Proof.
  unfold perimeter, square_points. cbn [path_length].
  pose proof (side_long (-1) 0 0 1 ltac:(lra)). pose proof (side_long 0 1 1 0 ltac:(lra)).
  pose proof (side_long 1 0 0 (-1) ltac:(lra)). pose proof (side_long 0 (-1) (-1) 0 ltac:(lra)). lra.
Qed.

Lemma from_far : o_from (default_options (A:=RA)) * lit (A:=RA) 72 2 = 2 * (72 / 100).
Proof. cbn. lra. Qed.

Lemma squareS_layers : snd markedS = [hd (Layer [] None n0) (snd markedS); nth 1 (snd markedS) (Layer [] None n0)].
Proof. reflexivity. Qed.

Lemma square_all : all_skein default_options (lit (A:=RA) 72 2) (2 * (72 / 100)) (snd markedS).
Proof.
  intros n y m1 m t Hy Hl Hs. unfold to_stretch in Hs. apply andb_prop in Hs as [Hs _].
  destruct n as [|[|n]]; [| |destruct n; discriminate Hy].
  - injection Hy as <-. change (ly_lines _) with [headS 0; headS 1] in Hl.
    destruct m1 as [|? [|? [|]]]; try discriminate Hl; injection Hl; intros; subst; discriminate Hs.
  - injection Hy as <-.
    change (ly_lines _) with [lineS 0; lineS 1; lineS 2; lineS 3; lineS 4; lineS 5; lineS 6; lineS 7] in Hl.
    assert (Hmain : exists b r, m1 = b /\ b ++ m :: r = [lineS 0; lineS 1; lineS 2; lineS 3; lineS 4; lineS 5] /\ t = r ++ [lineS 6; lineS 7]).
    { destruct m1 as [|a0 [|a1 [|a2 [|a3 [|a4 [|a5 [|a6 [|a7 [|]]]]]]]]]; try discriminate Hl.
      1: injection Hl as <- <-; exists [], [lineS 1; lineS 2; lineS 3; lineS 4; lineS 5]; repeat split; reflexivity.
      1: injection Hl as <- <- <-; exists [lineS 0], [lineS 2; lineS 3; lineS 4; lineS 5]; repeat split; reflexivity.
      1: injection Hl as <- <- <- <-; exists [lineS 0; lineS 1], [lineS 3; lineS 4; lineS 5]; repeat split; reflexivity.
      1: injection Hl as <- <- <- <- <-; exists [lineS 0; lineS 1; lineS 2], [lineS 4; lineS 5]; repeat split; reflexivity.
      1: injection Hl as <- <- <- <- <- <-; exists [lineS 0; lineS 1; lineS 2; lineS 3], [lineS 5]; repeat split; reflexivity.
      1: injection Hl as <- <- <- <- <- <- <-; exists [lineS 0; lineS 1; lineS 2; lineS 3; lineS 4], []; repeat split; reflexivity.
      1: injection Hl as <- <- <- <- <- <- <- <-; discriminate Hs.
      1: injection Hl as <- <- <- <- <- <- <- <- <-; discriminate Hs. }
    destruct Hmain as (b & r & -> & E & ->).
    exists [], b, r, (lineS 6), [lineS 7], Outer, square_points. rewrite E.
    split; [reflexivity|]. split; [reflexivity|]. split; [exact square_is_loop|]. split; [exact square_moves|].
    split; [exact square_closed|exact square_long].
Qed.

Lemma square_ends : exists fuel r, stretch no_profile fuel Skeinforge default_options squareR = Ok r.
Proof.
  destruct (skein_ends no_profile default_options squareR (lit (A:=RA) 72 2) (snd markedS) markedS_ok) as [N HN].
  - cbn. lra.
  - cbn. lra.
  - rewrite from_far. exact square_all.
  - exists N. specialize (HN N (le_n N)).
    pose proof (stretch_safe exactR no_profile N Skeinforge default_options squareR (lit 72 2) (snd markedS) markedS_ok) as H.
    destruct (stretch no_profile N Skeinforge default_options squareR) as [r|e]; [eauto|].
    exfalso. apply HN. f_equal. apply H.
    + rewrite (val_lit exactR). cbn. lra.
    + cbn. lra.
    + cbn. lra.
    + discriminate.
    + apply Forall_cons; [split; [split; [reflexivity|right; exists "<edgeWidth> 0.72 </edgeWidth>"%string; repeat split; reflexivity]|eexists; reflexivity]|].
      apply Forall_cons; [split; [split; [reflexivity|right; exists "<edge> outer"%string; repeat split; reflexivity]|eexists; reflexivity]|].
      do 7 (apply Forall_cons; [split; [split; [reflexivity|left; reflexivity]|eexists; reflexivity]|]).
      apply Forall_cons; [split; [split; [reflexivity|right; exists "</edge>"%string; repeat split; reflexivity]|eexists; reflexivity]|].
      apply Forall_nil.
Qed.

Lemma square_sample : exists fuel ps',
  stretches_skein no_profile fuel default_options (72 / 100) (72 / 1000) [(-1, 0); (0, 1); (1, 0); (0, -1); (-1, 0)] ps'.
Proof.
  destruct square_ends as (fuel & Hend). exists fuel.
  assert (E4 : lit (A:=RA) 72 2 = 72 / 100) by (cbn; lra).
  destruct (skein_intro no_profile fuel default_options squareR (lit (A:=RA) 72 2) (snd markedS) 1 (nth 1 (snd markedS) (Layer [] None n0))
    [] [lineS 0; lineS 1; lineS 2; lineS 3; lineS 4; lineS 5] (lineS 6) [lineS 7] Outer square_points) as [ps' H].
  - rewrite E4. lra.
  - cbn. lra.
  - cbn. lra.
  - exact Hend.
  - exact markedS_ok.
  - reflexivity.
  - reflexivity.
  - exact square_is_loop.
  - change (0 < limit default_options (Some (lit (A:=RA) 72 2)) (Some Outer)). rewrite square_limit. lra.
  - exact square_moves.
  - exists ps'. change (stretches_skein no_profile fuel default_options (lit (A:=RA) 72 2) (limit default_options (Some (lit (A:=RA) 72 2)) (Some Outer))
      square_points ps') in H.
    rewrite square_limit, E4 in H. exact H.
Qed.

(** the program of [C62_skeinforge_partial] *)
Lemma square_setup : exists (g : gcode RA) ys,
  setup_filter no_profile Skeinforge (g_layers g) = Ok (Some (lit (A:=RA) 72 2), ys) /\
  all_skein default_options (lit (A:=RA) 72 2) (2 * (72 / 100)) ys /\
  exists n y m1 m t, nth_error ys n = Some y /\ ly_lines y = m1 ++ m :: t /\
    to_stretch default_options (Some (lit (A:=RA) 72 2)) (rev (lines_of (firstn n ys) ++ m1 ++ [m])) = true.
Proof.
  exists squareR, (snd markedS). split; [exact markedS_ok|]. split; [exact square_all|].
  exists 1%nat, (nth 1 (snd markedS) (Layer [] None n0)), [], (lineS 0), [lineS 1; lineS 2; lineS 3; lineS 4; lineS 5; lineS 6; lineS 7].
  split; [reflexivity|]. split; [reflexivity|]. unfold to_stretch. apply andb_true_intro. split; [reflexivity|].
  change (n_ltb n0 (limit default_options (Some (lit (A:=RA) 72 2)) (Some Outer)) = true). rewrite square_limit.
  cbn [n_ltb n0 RA]. apply r_ltb_iff. cbn. lra.
Qed.

Lemma skein_round_close : forall profile fuel (o : options (A:=RA)) (w most : R) ps ps' j p p',
  stretches_skein profile fuel o w most ps ps' -> 0 < w -> 0 < o_cross o -> 0 < o_from o ->
  nth_error ps j = Some p -> nth_error ps' j = Some p' ->
  o_from o * w <= path_length p (ahead Skeinforge j ps) -> o_from o * w <= path_length p (behind Skeinforge j ps) ->
  exists u v,
    pull (o_from o * w) p (ahead Skeinforge j ps) u /\ pull (o_from o * w) p (behind Skeinforge j ps) v /\
    close_to p' (plus p (times most (displaced (w * o_cross o) p (ahead Skeinforge j ps) (behind Skeinforge j ps) u v))).
Proof.
  intros profile fuel o w most ps ps' j p p' H Hw Hc Hf Hp Hj La Lb.
  destruct (skein_whole _ _ _ _ _ _ _ _ _ _ H Hw Hc Hf Hp Hj La Lb) as (u & v & Hu & Hv & ->).
  exists u, v. split; [exact Hu|]. split; [exact Hv|apply rounds_close].
Qed.

(** all the points of a closed loop that is long enough *)
Lemma skein_round_all : forall profile fuel (o : options (A:=RA)) (w most : R) ps ps' j p',
  stretches_skein profile fuel o w most ps ps' -> 0 < w -> 0 < o_cross o -> 0 < o_from o ->
  closed ps -> o_from o * w <= perimeter ps -> nth_error ps' j = Some p' ->
  exists p u v, nth_error ps j = Some p /\
    pull (o_from o * w) p (ahead Skeinforge j ps) u /\ pull (o_from o * w) p (behind Skeinforge j ps) v /\
    close_to p' (plus p (times most (displaced (w * o_cross o) p (ahead Skeinforge j ps) (behind Skeinforge j ps) u v))).
Proof.
  intros profile fuel o w most ps ps' j p' H Hw Hc Hf Hcl Hper Hj.
  pose proof (skein_length _ _ _ _ _ _ _ H) as L.
  assert (Hlt : (j < List.length ps')%nat) by (apply nth_error_Some; congruence).
  destruct (nth_error ps j) as [p|] eqn:Ep; [|apply nth_error_None in Ep; lia]. exists p.
  destruct (skein_round_close _ _ _ _ _ _ _ _ _ _ H Hw Hc Hf Ep Hj) as (u & v & R).
  - rewrite (ahead_perimeter _ _ _ Hcl Ep). exact Hper.
  - rewrite (behind_perimeter _ _ _ Hcl Ep). exact Hper.
  - exists u, v. split; [reflexivity|exact R].
Qed.

(** ** In binary64 *)

(** stretch.py 728-744: what the class for the files of Skeinforge makes of a
    file, and what it prints *)
Definition skein_stretch (fuel : nat) (data : list string) : res (list string) :=
  do g <- load_gen (A:=B64) false home0 data;
  do '(g2, printed) <- stretch no_profile fuel Skeinforge default_options g;
  Ok (printed ++ write g2).

Lemma square_alone : skein_stretch 100 (square_head ++ square_loop) =
  Ok ["(<edgeWidth> 0.72 </edgeWidth>)"; "(<edge> outer); stretch-loop-start stretch-outer-edge-start";
      "G1 X-1.072 Y-0.000 Z0.600 F960.000"; "M101; stretch-extrusion-on"; "G1 X-0.000 Y1.072 Z0.600 F960.000";
      "G1 X1.072 Y0.000 Z0.600 F960.000"; "G1 X0.000 Y-1.072 Z0.600 F960.000"; "G1 X-1.072 Y-0.000 Z0.600 F960.000";
      "M103; stretch-extrusion-off"; "(</edge>); stretch-loop-stop"]%string.
Proof. vm_compute. reflexivity. Qed.

Lemma square_opens : skein_stretch 100
  (["(<edgeWidth> 0.72 </edgeWidth>)"; "G1 Z0.6 F960.0"; "(<boundaryPerimeter>)"; "(<edge> outer)"]%string ++ square_loop) =
  Ok ["(<edgeWidth> 0.72 </edgeWidth>)"; "G1 Z0.6 F960.0"; "(<boundaryPerimeter>)";
      "(<edge> outer); stretch-loop-start stretch-outer-edge-start";
      "G1 X-1.041 Y-0.039 Z0.600 F960.000"; "M101; stretch-extrusion-on"; "G1 X0.001 Y1.072 Z0.600 F960.000";
      "G1 X1.072 Y0.000 Z0.600 F960.000"; "G1 X0.000 Y-1.072 Z0.600 F960.000"; "G1 X-1.072 Y-0.000 Z0.600 F960.000";
      "M103; stretch-extrusion-off"; "(</edge>); stretch-loop-stop"]%string.
Proof. vm_compute. reflexivity. Qed.

(** a triangle shorter than the distance walked *)
Lemma short_opens : skein_stretch 100
  ["(<edgeWidth> 0.72 </edgeWidth>)"; "(<edge> outer)"; "G1 X0 Y0 Z0.6 F960.0"; "M101"; "G1 X0.2 Y0 Z0.6 F960.0";
   "G1 X0.2 Y0.3 Z0.6 F960.0"; "G1 X0 Y0 Z0.6 F960.0"; "M103"; "(</edge>)"]%string =
  Ok ["(<edgeWidth> 0.72 </edgeWidth>)"; "(<edge> outer); stretch-loop-start stretch-outer-edge-start";
      "G1 X-0.006 Y-0.009 Z0.600 F960.000"; "M101; stretch-extrusion-on"; "G1 X0.200 Y0.000 Z0.600 F960.000";
      "G1 X0.200 Y0.300 Z0.600 F960.000"; "G1 X0.000 Y0.000 Z0.600 F960.000"; "M103; stretch-extrusion-off";
      "(</edge>); stretch-loop-stop"]%string.
Proof. vm_compute. reflexivity. Qed.

(** *** A loop that is walked round forever *)

Definition iter_eqb (a b : iter) : bool :=
  match i_first a, i_first b with
  | Some x, Some y => Z.eqb x y
  | None, None => true
  | _, _ => false
  end && Z.eqb (i_index a) (i_index b).
Lemma iter_eqb_eq : forall a b, iter_eqb a b = true -> a = b.
Proof.
  intros [[x|] i] [[y|] j] H; unfold iter_eqb in H; cbn [i_first i_index andb] in H; try discriminate H.
  - apply andb_prop in H as [H1 H2]. apply Z.eqb_eq in H1, H2. now subst.
  - apply Z.eqb_eq in H. now subst.
Qed.

Definition point_eqb (p q : cplx (A:=B64)) : bool := sf_eqb (fst p) (fst q) && sf_eqb (snd p) (snd q).
Lemma point_eqb_eq : forall p q, point_eqb p q = true -> p = q.
Proof.
  intros [a b] [c d] H. unfold point_eqb in H. apply andb_prop in H as [H1 H2]. apply sf_eqb_eq in H1, H2.
  cbn [fst snd] in *. now subst.
Qed.

(** from each of the iterators [its] the walk comes to the point [p] and to another one *)
Definition stays d dir (ls : list (line B64)) old (p : cplx) (k : nat) (its : list iter) : bool :=
  forallb (fun it => match get_next k d dir ls it with
                     | Ok (Next l it') => existsb (iter_eqb it') its && point_eqb (drop_axis (get_location old l)) p
                     | _ => false
                     end) its.

Lemma stays_forever : forall fuel d dir w (ls : list (line B64)) old loc p t k its, stays d dir ls old p k its = true -> (k <= fuel)%nat ->
  sf_eqb (n_add t (c_abs (c_sub p p))) t = true -> n_leb (w_from w) t = false ->
  forall n it, In it its -> relative_loop n fuel d dir w ls old loc p p t t it = Err OutOfFuel.
Proof.
  intros fuel d dir w ls old loc p t k its H Hk Ht Hw n. induction n as [|n IH]; intros it Hit; [reflexivity|].
  unfold stays in H. pose proof (proj1 (forallb_forall _ _) H it Hit) as Hx. cbv beta in Hx.
  destruct (get_next k d dir ls it) as [[l it'|]|] eqn:En; try discriminate Hx.
  apply andb_prop in Hx as [H1 H2]. apply existsb_exists in H1 as (it1 & Hi & E1). apply iter_eqb_eq in E1. subst it1.
  apply point_eqb_eq in H2. apply sf_eqb_eq in Ht.
  cbn [relative_loop]. rewrite (get_next_more _ _ _ _ _ _ _ En Hk). cbn [bind]. rewrite H2, Ht, Hw. apply IH, Hi.
Qed.

(** a layer whose lines are not stretched *)
Lemma quiet_layer : forall fuel d (pre : list (line B64)) s s2 before b, quiet s pre = Some (s2, b) ->
  stretch_lines fuel d s before pre = Ok (s2, b, []).
Proof.
  intros fuel d pre. induction pre as [|l t IH]; intros s s2 before b Hq.
  { injection Hq as <- <-. reflexivity. }
  cbn [quiet] in Hq. destruct (read_markers s l) as [s1|] eqn:Es; [|discriminate Hq].
  destruct (reparse l) as [l2|] eqn:El; [|discriminate Hq].
  destruct (is_linear l && st_loop s1 && has_xy l) eqn:Ex; [discriminate Hq|].
  destruct (quiet s1 t) as [[s3 b3]|] eqn:Eq; [|discriminate Hq]. injection Hq as <- <-.
  cbn [stretch_lines]. unfold parse_line. rewrite Es. cbn [bind]. rewrite Ex. cbn [bind]. rewrite El. cbn [bind].
  rewrite (IH s1 s3 _ b3 Eq). reflexivity.
Qed.

(** the check that the first move of the second layer is walked round forever,
    after a first layer that is not stretched *)
Definition stuck (o : options (A:=B64)) (its : list iter) (g : gcode B64) : bool :=
  match setup_filter no_profile Skeinforge (g_layers g) with
  | Ok (w, x :: y :: _) =>
      match quiet (SState (option_map (edge_lengths o) w) n0 false None (lit 9590 1)) (ly_lines x), ly_lines y with
      | Some (s, _), l :: t =>
          match read_markers s l with
          | Ok s1 =>
              match st_lengths s1 with
              | Some lw =>
                  let loc := get_location (st_old s1) l in
                  is_linear l && st_loop s1 && has_xy l && n_ltb n0 (st_max s1) &&
                  existsb (iter_eqb (new_iter 1)) its && stays Skeinforge Forward (l :: t) (Some loc) (drop_axis loc) 3 its &&
                  sf_eqb (n_add (n0 (A:=B64)) (c_abs (c_sub (drop_axis loc) (drop_axis loc)))) (n0 (A:=B64)) && negb (n_leb (w_from lw) n0)
              | None => false
              end
          | Err _ => false
          end
      | _, _ => false
      end
  | _ => false
  end.

Lemma stuck_forever : forall o its g fuel, stuck o its g = true -> (3 <= fuel)%nat ->
  stretch no_profile fuel Skeinforge o g = Err OutOfFuel.
Proof.
  intros o its g fuel H Hf. unfold stuck in H. unfold stretch.
  destruct (setup_filter no_profile Skeinforge (g_layers g)) as [[w [|x [|y ys]]]|e]; try discriminate H. cbn [bind].
  destruct (quiet _ _) as [[s b]|] eqn:Eq; [|discriminate H]. cbn [stretch_layers].
  rewrite (quiet_layer fuel Skeinforge _ _ _ [] _ Eq). cbn [bind].
  destruct (ly_lines y) as [|l t]; [discriminate H|].
  destruct (read_markers s l) as [s1|] eqn:Es; [|discriminate H].
  destruct (st_lengths s1) as [lw|] eqn:Ew; [|discriminate H]. cbv zeta in H.
  apply andb_prop in H. destruct H as [H E8]. apply andb_prop in H. destruct H as [H E7].
  apply andb_prop in H. destruct H as [H E6]. apply andb_prop in H. destruct H as [H E5].
  apply andb_prop in H. destruct H as [E1 E4]. apply negb_true_iff in E8.
  apply existsb_exists in E5 as (it & Hit & E5). apply iter_eqb_eq in E5. subst it.
  cbn [stretch_lines app List.length]. unfold parse_line. rewrite Es. cbn [bind]. rewrite E1. unfold stretch_line. rewrite E4, Ew.
  unfold absolute_stretch, relative_stretch. change (Z.of_nat 0 + 1)%Z with 1%Z.
  rewrite (stays_forever fuel Skeinforge Forward lw _ _ _ _ _ _ _ E6 Hf E7 E8 fuel _ Hit). reflexivity.
Qed.

Definition still_loop : list string :=
  ["(<edgeWidth> 0.72 </edgeWidth>)"; "(<edge> outer)"; "G1 X-1 Y0 Z0.6 F960.0"; "M101"; "G1 X-1 Y0 Z0.6 F960.0";
   "G1 X-1 Y0 Z0.6 F960.0"; "M103"; "(</edge>)"]%string.

Lemma still_loop_forever : forall fuel, skein_stretch fuel still_loop = Err OutOfFuel.
Proof.
  intros fuel. destruct (Nat.lt_ge_cases fuel 3) as [Hf|Hf].
  { destruct fuel as [|[|[|n]]]; [vm_compute; reflexivity..|lia]. }
  unfold skein_stretch.
  assert (E : match load_gen (A:=B64) false home0 still_loop with
              | Ok g => stuck default_options [new_iter 1; Iter (Some 1%Z) 3; Iter (Some 1%Z) 4] g
              | Err _ => false end = true) by (vm_compute; reflexivity).
  destruct (load_gen (A:=B64) false home0 still_loop) as [g|e]; [|discriminate E]. cbn [bind].
  rewrite (stuck_forever _ _ _ fuel E Hf). reflexivity.
Qed.

(** * P_LoopSample: concrete programs for the examples of C96 and C98-C100 *)
From Coq Require Import SpecFloat List Ascii String ZArith NArith Bool Reals Lra Lia.
From Verif Require Import PyBase Arith ArithR ArithB64 Gcoder Filters Stretch SpecLoad SpecText SpecFilter SpecStretch SpecLoop SpecBend Samples.
From Verif Require Import P_Load P_Stretch P_StretchRead P_StretchGeo P_StretchErr P_StretchSafe P_StretchRefuted P_StretchBend P_StretchWhole P_Wf.
Import ListNotations.
Local Open Scope list_scope.

(** a square standing on a corner; there is an unretraction before its first side *)
Definition diamond : list string :=
  ["M83"; "G1 X-1 Y0 F960 ; move to first perimeter point"; "G1 E1 ; unretract"; "G1 X0 Y1 E1 ; perimeter external";
   "G1 X1 Y0 E1 ; perimeter external"; "G1 X0 Y-1 E1 ; perimeter external"; "G1 X-1 Y0 E1 ; perimeter external";
   "G1 X2 Y2 ; done"]%string.

Definition diamondR : gcode RA :=
  set_layers [Layer (map (fun s => get (new_line s) (reparse (new_line s))) diamond) None n0] empty_program.
Definition markedD : option (num RA) * list (layer RA) := get (None, []) (setup_filter no_profile Slic3r (g_layers diamondR)).
Lemma markedD_ok : setup_filter no_profile Slic3r (g_layers diamondR) = Ok (Some (lit 4 1), snd markedD).
Proof. reflexivity. Qed.

Lemma diamondR_stretched : exists r, stretch no_profile 100 Slic3r default_options diamondR = Ok r.
Proof.
  pose proof (stretch_safe exactR no_profile 100 Slic3r default_options diamondR (lit 4 1) (snd markedD) markedD_ok) as H.
  pose proof (slic3r_ends no_profile 100 default_options diamondR (Some (lit 4 1)) (snd markedD) markedD_ok) as H'.
  destruct (stretch no_profile 100 Slic3r default_options diamondR) as [r|e]; [eauto|].
  exfalso. apply H'; [vm_compute; reflexivity| |f_equal; apply H].
  - intros y [<-|[]]. cbn. lia.
  - rewrite (val_lit exactR). cbn. lra.
  - cbn. lra.
  - cbn. lra.
  - discriminate.
  - repeat (apply Forall_cons; [split; [split; [reflexivity|left; reflexivity]|eexists; reflexivity]|]). apply Forall_nil.
Qed.

(** the [k]-th marked line *)
Definition lineD (k : nat) : line RA := nth k (lines_of (snd markedD)) (new_line "").

Lemma lineD_move : forall k p, xy_move (lineD k) = true -> l_x (lineD k) = Some (fst p) -> l_y (lineD k) = Some (snd p) ->
  move_to (lineD k) p.
Proof. intros. now repeat split. Qed.

Local Open Scope R_scope.

Lemma diamond_limit : limit default_options (Some (lit (A:=RA) 4 1)) (Some Outer) = 4 / 100.
Proof. cbn. lra. Qed.

Lemma diamond_loop : is_loop Slic3r Outer [lineD 1; lineD 2; lineD 3; lineD 4; lineD 5; lineD 6] (lineD 7).
Proof.
  exists (lineD 1), [lineD 2; lineD 3; lineD 4; lineD 5; lineD 6]. split; [reflexivity|]. split; [discriminate|].
  split; [reflexivity|]. split; [reflexivity|]. split; [repeat (apply Forall_cons; [repeat split; reflexivity|]); apply Forall_nil|].
  split; [reflexivity|]. split; [reflexivity|]. split; [|reflexivity].
  apply Forall_cons.
  { intros _ l' Hl. assert (E : is_ok (reparse (lineD 2)) = true) by reflexivity.
    assert (Eg : get (lineD 2) (reparse (lineD 2)) = l') by (rewrite Hl; reflexivity). rewrite <- Eg. reflexivity. }
  repeat (apply Forall_cons; [intros C; discriminate C|]). apply Forall_nil.
Qed.

Lemma diamond_sample : exists ps',
  stretches_loop no_profile 100 Slic3r default_options (4 / 10) (4 / 100) [(-1, 0); (0, 1); (1, 0); (0, -1); (-1, 0)] ps'.
Proof.
  assert (E4 : lit (A:=RA) 4 1 = 4 / 10) by (cbn; lra).
  destruct (loop_intro no_profile 100 Slic3r default_options diamondR (lit (A:=RA) 4 1) (snd markedD) 0 (hd (Layer [] None n0) (snd markedD))
    [lineD 0] [lineD 1; lineD 2; lineD 3; lineD 4; lineD 5; lineD 6] (lineD 7) [] Outer
    [(-1, 0); (0, 1); (1, 0); (0, -1); (-1, 0)]) as [ps' H].
  - discriminate.
  - rewrite E4. lra.
  - cbn. lra.
  - cbn. lra.
  - exact diamondR_stretched.
  - exact markedD_ok.
  - reflexivity.
  - reflexivity.
  - exact diamond_loop.
  - change (0 < limit default_options (Some (lit (A:=RA) 4 1)) (Some Outer)). rewrite diamond_limit. lra.
  - change (filter xy_move [lineD 1; lineD 2; lineD 3; lineD 4; lineD 5; lineD 6]) with [lineD 1; lineD 3; lineD 4; lineD 5; lineD 6].
    repeat (apply Forall2_cons; [apply lineD_move; [reflexivity|cbn; f_equal; lra|cbn; f_equal; lra]|]). apply Forall2_nil.
  - exists ps'. change (stretches_loop no_profile 100 Slic3r default_options (lit (A:=RA) 4 1) (limit default_options (Some (lit (A:=RA) 4 1)) (Some Outer))
      [(-1, 0); (0, 1); (1, 0); (0, -1); (-1, 0)] ps') in H.
    rewrite diamond_limit, E4 in H. exact H.
Qed.

Lemma diamond_closed : closed [(-1, 0); (0, 1); (1, 0); (0, -1); (-1, 0)].
Proof. exists (-1, 0), [(0, 1); (1, 0); (0, -1)]. reflexivity. Qed.

(** ** In binary64 *)

(** two nested squares without a retraction in between *)
Definition nested : list string :=
  ["M83"; "G1 X10 Y10 F1800 ; move to first perimeter point"; "G1 X11 Y10 E1 ; perimeter";
   "G1 X11 Y11 E1 ; perimeter"; "G1 X10 Y11 E1 ; perimeter"; "G1 X10 Y10 E1 ; perimeter";
   "G1 X9.6 Y9.6 F1800 ; move to first perimeter point"; "G1 X11.4 Y9.6 E1 ; perimeter external";
   "G1 X11.4 Y11.4 E1 ; perimeter external"; "G1 X9.6 Y11.4 E1 ; perimeter external";
   "G1 X9.6 Y9.6 E1 ; perimeter external"; "G1 X0 Y0 ; done"]%string.

Lemma nested_opens : exists out, gcode_stretch 100 nested = Ok out /\
  nth 6 out ""%string = "G1 X9.581 Y9.589 F1800.000"%string /\
  nth 10 out ""%string = "G1 X9.595 Y9.595 E0.99321 F1800.000"%string.
Proof. eexists. split; [vm_compute; reflexivity|]. vm_compute. auto. Qed.

(** the outer square with the inner one, and alone *)
Lemma neighbour_matters :
  (exists out, gcode_stretch 100 nested = Ok out /\ nth 7 out ""%string = "G1 X11.428 Y9.572 E0.96000 F1800.000"%string) /\
  (exists out, gcode_stretch 100 (firstn 1 nested ++ skipn 6 nested) = Ok out /\
    nth 2 out ""%string = "G1 X11.405 Y9.595 E0.99321 F1800.000"%string).
Proof. split; (eexists; split; [vm_compute; reflexivity|]); vm_compute; reflexivity. Qed.

(** a wall of Cura *)
Lemma wall_opens : exists out, gcode_stretch 100
  ["M83"; "; CURA_PROFILE_STRING"; ";TYPE:WALL-OUTER"; "G0 X10 Y10 F1800"; "G1 X11 Y10 E1"; "G1 X11 Y11 E1";
   "G1 X10 Y11 E1"; "G1 X10 Y10 E1"; ";TYPE:FILL"; "G1 X0 Y0 ; done"]%string = Ok out /\
  nth 3 out ""%string = "G0 X9.968 Y9.976 F1800.000"%string /\
  nth 7 out ""%string = "G1 X9.976 Y9.968 E0.96000 F1800.000"%string.
Proof. eexists. split; [vm_compute; reflexivity|]. vm_compute. auto. Qed.

(** the mark of the start is on a line that is not a move *)
Lemma unretract_leaks :
  (exists out, gcode_stretch 100
    ["M83"; "; CURA_PROFILE_STRING"; "G1 X10 Y20 E1"; "G0 X10 Y10 F9000"; ";TYPE:WALL-OUTER"; "G1 E1 F2400";
     "G1 X10.2 Y10 E1"; "G1 X12 Y10 E1"; "G1 X12 Y12 E1"; "G1 X10 Y12 E1"; "G1 X10 Y10 E1"; ";TYPE:FILL"; "G1 X0 Y0 ; done"]%string = Ok out /\
    nth 6 out ""%string = "G1 X10.176 Y9.996 E0.97573 F959.000"%string) /\
  (exists out, gcode_stretch 100
    ["M83"; "; CURA_PROFILE_STRING"; "G1 X20 Y10 E1"; "G0 X10 Y10 F9000"; ";TYPE:WALL-OUTER"; "G1 E1 F2400";
     "G1 X10.2 Y10 E1"; "G1 X12 Y10 E1"; "G1 X12 Y12 E1"; "G1 X10 Y12 E1"; "G1 X10 Y10 E1"; ";TYPE:FILL"; "G1 X0 Y0 ; done"]%string = Ok out /\
    nth 6 out ""%string = "G1 X10.160 Y10.000 E0.96000 F959.000"%string).
Proof.
  split; (eexists; split; [vm_compute; reflexivity|reflexivity]).
Qed.

(** the small square without the words that change nothing *)
Lemma short_words : gcode_stretch 100
  ["M83"; "G1 X10 Y10 F1800 ; move to first perimeter point"; "G1 X11 E1 ; perimeter external";
   "G1 Y11 E1 ; perimeter external"; "G1 X10 E1 ; perimeter external"; "G1 Y10 E1 ; perimeter external"; "G1 X0 Y0 ; done"]%string =
  Ok ["M83"; "G1 X9.968 Y9.976 F1800.000"; "G1 X11.024 Y9.976 E0.96606 F1800.000"; "G1 X11.038 Y11.012 E0.96000 F1800.000";
      "G1 X9.976 Y11.032 E0.96000 F1800.000"; "G1 X9.968 Y9.976 E0.96000 F1800.000";
      "G1 X0 Y0 ; done ; stretch-extrusion-off ; stretch-loop-stop"]%string.
Proof. vm_compute. reflexivity. Qed.

(** ** A wall of Cura that is walked round forever *)

Section Quiet.
Context {A : arith}.

(** the lines before the first one that is stretched: the state after them, and
    what has become of them *)
Fixpoint quiet (s : sstate (A:=A)) (pre : list (line A)) : option (sstate (A:=A) * list (line A)) :=
  match pre with
  | [] => Some (s, [])
  | l :: t =>
      match read_markers s l, reparse l with
      | Ok s1, Ok l2 =>
          if is_linear l && st_loop s1 && has_xy l then None
          else match quiet s1 t with Some (s2, b) => Some (s2, l2 :: b) | None => None end
      | _, _ => None
      end
  end.

Lemma quiet_run : forall fuel d e pre s s2 before b rest, quiet s pre = Some (s2, b) ->
  stretch_lines fuel d s2 (before ++ b) rest = Err e -> stretch_lines fuel d s before (pre ++ rest) = Err e.
Proof.
  intros fuel d e pre. induction pre as [|l t IH]; intros s s2 before b rest Hq H.
  { injection Hq as <- <-. rewrite app_nil_r in H. exact H. }
  cbn [quiet] in Hq. destruct (read_markers s l) as [s1|] eqn:Es; [|discriminate Hq].
  destruct (reparse l) as [l2|] eqn:El; [|discriminate Hq].
  destruct (is_linear l && st_loop s1 && has_xy l) eqn:Ex; [discriminate Hq|].
  destruct (quiet s1 t) as [[s3 b3]|] eqn:Eq; [|discriminate Hq]. injection Hq as <- <-.
  cbn [app stretch_lines]. unfold parse_line. rewrite Es. cbn [bind]. rewrite Ex. cbn [bind]. rewrite El. cbn [bind].
  unfold is_stretched. rewrite Ex. cbn [andb].
  rewrite (IH s1 s3 (before ++ [l2]) b3 rest Eq); [reflexivity|]. rewrite <- app_assoc. exact H.
Qed.

(** the walk stays where it is *)
Lemma loop_stays : forall fuel d dir w (ls : list (line A)) old loc p t it l,
  get_next fuel d dir ls it = Ok (Next l it) -> drop_axis (get_location old l) = p ->
  n_add t (c_abs (c_sub p p)) = t -> n_leb (w_from w) t = false ->
  forall n, relative_loop n fuel d dir w ls old loc p p t t it = Err OutOfFuel.
Proof.
  intros fuel d dir w ls old loc p t it l Hn Hp Ht Hw n. induction n as [|n IH]; [reflexivity|].
  cbn [relative_loop]. rewrite Hn. cbn [bind]. rewrite Hp, Ht, Hw. exact IH.
Qed.
End Quiet.

Definition sf_eqb (x y : spec_float) : bool :=
  match x, y with
  | S754_zero a, S754_zero b => Bool.eqb a b
  | S754_infinity a, S754_infinity b => Bool.eqb a b
  | S754_nan, S754_nan => true
  | S754_finite a m e, S754_finite b n f => Bool.eqb a b && Pos.eqb m n && Z.eqb e f
  | _, _ => false
  end.
Lemma sf_eqb_eq : forall x y, sf_eqb x y = true -> x = y.
Proof.
  intros [a|a| |a m e] [b|b| |b n f] H; cbn in H; try discriminate H; try reflexivity;
    try (apply eqb_prop in H; now subst).
  apply andb_prop in H. destruct H as [H H3]. apply andb_prop in H. destruct H as [H1 H2].
  apply eqb_prop in H1. apply Pos.eqb_eq in H2. apply Z.eqb_eq in H3. now subst.
Qed.

Notation move l := (is_linear l && has_xy l).

(** the check that the walk ahead from the line [l], which follows [before], goes
    over two lines that do not move to a move at which it stays *)
Definition circles (s : sstate (A:=B64)) (before : list (line B64)) (l : line B64) (t : list (line B64)) : bool :=
  let ls := before ++ l :: t in
  let loc := get_location (st_old s) l in
  let i := Z.of_nat (List.length before) in
  match st_lengths s with
  | None => false
  | Some w =>
      match line_at ls (i + 1), line_at ls (i + 2), line_at ls (i + 3), reset_index Cura Forward ls (i + 4), wraps Cura Forward ls (i + 4) with
      | Some a, Some b, Some c, Some j, Ok r =>
          let p := drop_axis (get_location (Some loc) c) in
          let t := n_add n0 (c_abs (c_sub (drop_axis loc) p)) in
          is_linear l && st_loop s && has_xy l && n_ltb n0 (st_max s) &&
          negb (has stop_marker a) && negb (move a) && negb (move b) && move c &&
          Z.eqb j (i + 3) && r && negb (n_leb (w_from w) t) && sf_eqb (n_add t (c_abs (c_sub p p))) t
      | _, _, _, _, _ => false
      end
  end.

Lemma circles_stuck : forall fuel s s1 before l t, read_markers s l = Ok s1 -> circles s1 before l t = true ->
  stretch_lines fuel Cura s before (l :: t) = Err OutOfFuel.
Proof.
  intros fuel s s1 before l t Hs H. unfold circles in H.
  set (ls := before ++ l :: t) in *. set (loc := get_location (st_old s1) l) in *. set (i := Z.of_nat (List.length before)) in *.
  destruct (st_lengths s1) as [w|] eqn:Ew; [|discriminate H].
  destruct (line_at ls (i + 1)) as [a|] eqn:Ea; [|discriminate H].
  destruct (line_at ls (i + 2)) as [b|] eqn:Eb; [|discriminate H].
  destruct (line_at ls (i + 3)) as [c|] eqn:Ec; [|discriminate H].
  destruct (reset_index Cura Forward ls (i + 4)) as [j|] eqn:Ej; [|discriminate H].
  destruct (wraps Cura Forward ls (i + 4)) as [r|] eqn:Er; [|discriminate H].
  cbv zeta in H.
  set (p := drop_axis (get_location (Some loc) c)) in *. set (tot := n_add n0 (c_abs (c_sub (drop_axis loc) p))) in *.
  apply andb_prop in H. destruct H as [H E12]. apply andb_prop in H. destruct H as [H E11].
  apply andb_prop in H. destruct H as [H E10]. apply andb_prop in H. destruct H as [H E9].
  apply andb_prop in H. destruct H as [H E8]. apply andb_prop in H. destruct H as [H E7].
  apply andb_prop in H. destruct H as [H E6]. apply andb_prop in H. destruct H as [H E5].
  apply andb_prop in H. destruct H as [E1 E4].
  apply negb_true_iff in E5, E6, E7, E11. apply Z.eqb_eq in E9. apply sf_eqb_eq in E12. subst j r.
  assert (Hi : (0 <= i)%Z) by apply Zle_0_nat.
  assert (Hnf : forall k f, (f < k)%Z -> (k =? f)%Z = false) by (intros k f Hk; apply Z.eqb_neq; lia).
  (* the first step *)
  assert (Hfirst : forall n, get_next (S (S (S n))) Cura Forward ls (new_iter (i + 1)) = Ok (Next c (Iter (Some (i + 1)%Z) (i + 4)))).
  { intros n. unfold get_next, wraps. cbn [new_iter i_index i_first]. rewrite Ea, E5. cbn [bind].
    cbn [scan]. rewrite Ea. cbn [is_first stops_on_off increment]. rewrite andb_false_r, E6.
    replace (i + 1 + 1)%Z with (i + 2)%Z by lia. rewrite Eb.
    rewrite (Hnf (i + 2) (i + 1))%Z by lia. rewrite andb_false_r, E7. replace (i + 2 + 1)%Z with (i + 3)%Z by lia. rewrite Ec.
    cbn [is_first]. rewrite (Hnf (i + 3) (i + 1))%Z by lia. rewrite andb_false_r, E8.
    replace (i + 3 + 1)%Z with (i + 4)%Z by lia. reflexivity. }
  (* the others *)
  assert (Hnext : forall n, get_next (S n) Cura Forward ls (Iter (Some (i + 1)%Z) (i + 4)) = Ok (Next c (Iter (Some (i + 1)%Z) (i + 4)))).
  { intros n. unfold get_next. cbn [i_index i_first]. rewrite Er. cbn [bind]. rewrite Ej. cbn [scan]. rewrite Ec.
    cbn [is_first]. rewrite (Hnf (i + 3) (i + 1))%Z by lia. cbn [stops_on_off increment]. rewrite andb_false_r, E8.
    replace (i + 3 + 1)%Z with (i + 4)%Z by lia. reflexivity. }
  assert (Hr : relative_stretch fuel Cura Forward w ls (Some loc) (i + 1) (drop_axis loc) = Err OutOfFuel).
  { unfold relative_stretch.
    destruct fuel as [|[|[|n]]].
    - reflexivity.
    - cbn [relative_loop]. unfold get_next, wraps. cbn [new_iter i_index i_first]. rewrite Ea, E5. cbn [bind].
      cbn [scan]. rewrite Ea. cbn [is_first stops_on_off]. rewrite andb_false_r, E6. reflexivity.
    - cbn [relative_loop]. unfold get_next, wraps. cbn [new_iter i_index i_first]. rewrite Ea, E5. cbn [bind].
      cbn [scan]. rewrite Ea. cbn [is_first stops_on_off increment]. rewrite andb_false_r, E6.
      replace (i + 1 + 1)%Z with (i + 2)%Z by lia. rewrite Eb.
      rewrite (Hnf (i + 2) (i + 1))%Z by lia. rewrite andb_false_r, E7. reflexivity.
    - change (relative_loop (S (S (S n))) (S (S (S n))) Cura Forward w ls (Some loc) (drop_axis loc) (drop_axis loc) (drop_axis loc) n0 n0
        (new_iter (i + 1))) with
        (do nx <- get_next (S (S (S n))) Cura Forward ls (new_iter (i + 1));
         match nx with
         | Stop printed =>
             let diff := c_sub (drop_axis loc) (drop_axis loc) in
             let len := c_abs diff in
             if n_ltb n0 len then do r <- c_div diff len; Ok (r, printed)
             else Ok ((n0, n0), printed)
         | Next l it1 =>
             let point1 := drop_axis (get_location (Some loc) l) in
             let len := c_abs (c_sub (drop_axis loc) point1) in
             let total1 := n_add n0 len in
             if n_leb (w_from w) total1 then
               do ratio <- py_div (n_sub (w_from w) n0) len;
               let at_distance := c_add (c_scale point1 ratio) (c_scale (drop_axis loc) (n_sub n1 ratio)) in
               do r <- c_div (c_sub (drop_axis loc) at_distance) (w_from w);
               Ok (r, [])
             else relative_loop (S (S n)) (S (S (S n))) Cura Forward w ls (Some loc) (drop_axis loc) point1 point1 total1 total1 it1
         end).
      rewrite Hfirst. cbn [bind]. fold p. cbv zeta. fold tot. rewrite E11.
      apply loop_stays with (l := c); auto. }
  cbn [stretch_lines]. unfold parse_line. rewrite Hs. cbn [bind]. rewrite E1. unfold stretch_line. rewrite E4, Ew.
  fold loc i ls. unfold absolute_stretch. rewrite Hr. reflexivity.
Qed.

Definition circling (o : options (A:=B64)) (k : nat) (data : list string) : bool :=
  match load_gen false home0 data with
  | Ok g =>
      match to_relative_extrusion g with
      | Ok g1 =>
          is_cura_gcode g1 &&
          match setup_filter no_profile Cura (g_layers g1) with
          | Ok (w, y :: _) =>
              match quiet (SState (option_map (edge_lengths o) w) n0 false None (lit 9590 1)) (firstn k (ly_lines y)), skipn k (ly_lines y) with
              | Some (s, b), l :: t => match read_markers s l with Ok s1 => circles s1 b l t | Err _ => false end
              | _, _ => false
              end
          | _ => false
          end
      | Err _ => false
      end
  | Err _ => false
  end.

Lemma circling_forever : forall o k data, circling o k data = true ->
  forall fuel, stretch_main no_profile fuel o data = Err OutOfFuel.
Proof.
  intros o k data H fuel. unfold circling in H. unfold stretch_main.
  destruct (load_gen false home0 data) as [g|e]; [|discriminate H]. cbn [bind].
  destruct (to_relative_extrusion g) as [g1|e]; [|discriminate H]. cbn [bind].
  destruct (is_cura_gcode g1); [|discriminate H]. cbn [andb] in H. unfold stretch.
  destruct (setup_filter no_profile Cura (g_layers g1)) as [[w ys]|e]; [|discriminate H]. cbn [bind].
  destruct ys as [|y ys]; [discriminate H|]. cbn [stretch_layers].
  destruct (quiet _ _) as [[s b]|] eqn:Eq; [|discriminate H].
  destruct (skipn k (ly_lines y)) as [|l t] eqn:Ek; [discriminate H|].
  destruct (read_markers s l) as [s1|] eqn:Es; [|discriminate H].
  rewrite <- (firstn_skipn k (ly_lines y)), Ek.
  rewrite (quiet_run fuel Cura OutOfFuel _ _ _ [] _ _ Eq); [reflexivity|]. cbn [app].
  exact (circles_stuck fuel s s1 b l t Es H).
Qed.

Definition short_wall : list string :=
  ["M83"; "; CURA_PROFILE_STRING"; ";TYPE:WALL-OUTER"; "G1 X0 Y0 E1 F960"; "G1 F2400 E0"; ";TYPE:WALL-INNER";
   "G1 X0.3 Y0 E1"; ";TYPE:FILL"; "G1 X2"]%string.

Lemma short_wall_forever : forall fuel, gcode_stretch fuel short_wall = Err OutOfFuel.
Proof. apply (circling_forever default_options 3). vm_compute. reflexivity. Qed.

Lemma whole_round : forall profile fuel d (o : options (A:=RA)) (w most : R) ps ps' j p',
  stretches_loop profile fuel d o w most ps ps' -> d <> Skeinforge -> 0 < w -> 0 < o_cross o -> 0 < o_from o ->
  nth_error ps' j = Some p' ->
  exists p u v, nth_error ps j = Some p /\
    pull (o_from o * w) p (ahead d j ps) u /\ pull (o_from o * w) p (behind d j ps) v /\
    close_to p' (plus p (times most (displaced (w * o_cross o) p (ahead d j ps) (behind d j ps) u v))).
Proof.
  intros profile fuel d o w most ps ps' j p' H Hd Hw Hc Hf Hj.
  destruct (whole_loop _ _ _ _ _ _ _ _ _ _ H Hd Hw Hc Hf Hj) as (p & u & v & Hp & Hu & Hv & ->).
  exists p, u, v. split; [exact Hp|]. split; [exact Hu|]. split; [exact Hv|apply rounds_close].
Qed.

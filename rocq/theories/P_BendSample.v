(** * P_BendSample: concrete programs for the examples of C96 and C97 *)
From Coq Require Import List Ascii String ZArith NArith Bool Reals Lra Lia.
From Verif Require Import PyBase Arith ArithR ArithB64 Gcoder Filters Stretch SpecLoad SpecText SpecFilter SpecStretch SpecLoop SpecBend Samples.
From Verif Require Import P_Load P_Stretch P_StretchRead P_StretchGeo P_StretchErr P_StretchSafe P_StretchRefuted P_StretchBend P_Wf.
Import ListNotations.
Local Open Scope list_scope.

(** a blunt corner at (28,6), a sharp one at (28,16) and a fine curve around (20.3,9.1) *)
Definition corners : list string :=
  ["M83"; "G1 X0 Y0 F1800 ; move to first perimeter point"; "G1 X10 Y0 E1 ; perimeter external";
   "G1 X20 Y0 E1 ; perimeter external"; "G1 X28 Y6 E1 ; perimeter external"; "G1 X28 Y16 E1 ; perimeter external";
   "G1 X20 Y10 E1 ; perimeter external"; "G1 X20 Y9.5 E1 ; perimeter external"; "G1 X20.3 Y9.1 E1 ; perimeter external";
   "G1 X20.7 Y8.8 E1 ; perimeter external"; "G1 X21.2 Y8.8 E1 ; perimeter external"; "G1 X0 Y0 ; done"]%string.

(** In binary64: the blunt corner moves to (27.994,5.995), into the angle. *)
Lemma corners_stretched : exists out, gcode_stretch 100 corners = Ok out /\
  nth 4 out ""%string = "G1 X27.994 Y5.995 E0.99232 F1800.000"%string /\
  nth 5 out ""%string = "G1 X28.000 Y16.031 E0.96928 F1800.000"%string /\
  nth 8 out ""%string = "G1 X20.284 Y9.084 E0.97737 F1800.000"%string.
Proof. eexists. split; [vm_compute; reflexivity|]. vm_compute. auto. Qed.

Definition cornersR : gcode RA :=
  set_layers [Layer (map (fun s => get (new_line s) (reparse (new_line s))) corners) None n0] empty_program.
Definition markedC : option (num RA) * list (layer RA) := get (None, []) (setup_filter no_profile Slic3r (g_layers cornersR)).
Lemma markedC_ok : setup_filter no_profile Slic3r (g_layers cornersR) = Ok (Some (lit 4 1), snd markedC).
Proof. reflexivity. Qed.

Lemma cornersR_stretched : exists r, stretch no_profile 100 Slic3r default_options cornersR = Ok r.
Proof.
  pose proof (stretch_safe exactR no_profile 100 Slic3r default_options cornersR (lit 4 1) (snd markedC) markedC_ok) as H.
  pose proof (slic3r_ends no_profile 100 default_options cornersR (Some (lit 4 1)) (snd markedC) markedC_ok) as H'.
  destruct (stretch no_profile 100 Slic3r default_options cornersR) as [r|e]; [eauto|].
  exfalso. apply H'; [vm_compute; reflexivity| |f_equal; apply H].
  - intros y [<-|[]]. cbn. lia.
  - rewrite (val_lit exactR). cbn. lra.
  - cbn. lra.
  - cbn. lra.
  - discriminate.
  - repeat (apply Forall_cons; [split; [split; [reflexivity|left; reflexivity]|eexists; reflexivity]|]). apply Forall_nil.
Qed.

(** the [k]-th marked line *)
Definition lineC (k : nat) : line RA := nth k (lines_of (snd markedC)) (new_line "").

Lemma lineC_plain : forall k p, xy_move (lineC k) = true -> l_x (lineC k) = Some (fst p) -> l_y (lineC k) = Some (snd p) ->
  contains "stretch-" (raw (lineC k)) = false -> plain_move (lineC k) p.
Proof. intros. now repeat split. Qed.

Lemma corners_most : forall seen, loop_of seen = Some Outer ->
  limit default_options (Some (lit (A:=RA) 4 1)) (loop_of seen) = (4 / 100)%R.
Proof. intros seen ->. cbn. lra. Qed.

Lemma corners_to_stretch : forall k, 2 <= k <= 11 ->
  loop_of (map raw (rev (firstn k (lines_of (snd markedC))))) = Some Outer /\
  to_stretch default_options (Some (lit 4 1)) (rev (firstn k (lines_of (snd markedC)))) = true.
Proof.
  intros k Hk.
  assert (Ho : loop_of (map raw (rev (firstn k (lines_of (snd markedC))))) = Some Outer).
  { do 12 (destruct k as [|k]; [try lia; reflexivity|]). lia. }
  split; [exact Ho|]. unfold to_stretch. rewrite Ho. apply andb_true_intro. split.
  - do 12 (destruct k as [|k]; [try lia; reflexivity|]). lia.
  - apply (val_ltb RA exactR). rewrite val_n0. cbn. lra.
Qed.

Ltac plain_point := apply lineC_plain; [reflexivity|cbn; f_equal; lra|cbn; f_equal; lra|reflexivity].

Local Open Scope R_scope.

Lemma blunt_sample : exists p', stretches no_profile 100 Slic3r default_options (4 / 10) (4 / 100) [(20, 0)] (28, 6) [(28, 16)] p'.
Proof.
  destruct (corners_to_stretch 5 ltac:(lia)) as [Ho Ht].
  destruct (stretches_intro no_profile 100 Slic3r default_options cornersR (lit (A:=RA) 4 1) (snd markedC) 0 (hd (Layer [] None n0) (snd markedC))
    (lineC 0) [lineC 1; lineC 2] [lineC 3] (lineC 4) [lineC 5] [lineC 6; lineC 7; lineC 8; lineC 9; lineC 10; lineC 11]
    [(20, 0)] (28, 6) [(28, 16)] cornersR_stretched markedC_ok) as [p' H].
  - reflexivity.
  - reflexivity.
  - constructor; [plain_point|constructor].
  - plain_point.
  - constructor; [plain_point|constructor].
  - exact Ht.
  - exists p'. rewrite <- (corners_most _ Ho). replace (4 / 10) with (lit (A:=RA) 4 1); [exact H|cbn; lra].
Qed.

Lemma sharp_sample : exists p', stretches no_profile 100 Slic3r default_options (4 / 10) (4 / 100) [(28, 6)] (28, 16) [(20, 10)] p'.
Proof.
  destruct (corners_to_stretch 6 ltac:(lia)) as [Ho Ht].
  destruct (stretches_intro no_profile 100 Slic3r default_options cornersR (lit (A:=RA) 4 1) (snd markedC) 0 (hd (Layer [] None n0) (snd markedC))
    (lineC 0) [lineC 1; lineC 2; lineC 3] [lineC 4] (lineC 5) [lineC 6] [lineC 7; lineC 8; lineC 9; lineC 10; lineC 11]
    [(28, 6)] (28, 16) [(20, 10)] cornersR_stretched markedC_ok) as [p' H].
  - reflexivity.
  - reflexivity.
  - constructor; [plain_point|constructor].
  - plain_point.
  - constructor; [plain_point|constructor].
  - exact Ht.
  - exists p'. rewrite <- (corners_most _ Ho). replace (4 / 10) with (lit (A:=RA) 4 1); [exact H|cbn; lra].
Qed.

Lemma fine_sample : exists p', stretches no_profile 100 Slic3r default_options (4 / 10) (4 / 100)
  [(20, 95 / 10); (20, 10)] (203 / 10, 91 / 10) [(207 / 10, 88 / 10); (212 / 10, 88 / 10)] p'.
Proof.
  destruct (corners_to_stretch 9 ltac:(lia)) as [Ho Ht].
  destruct (stretches_intro no_profile 100 Slic3r default_options cornersR (lit (A:=RA) 4 1) (snd markedC) 0 (hd (Layer [] None n0) (snd markedC))
    (lineC 0) [lineC 1; lineC 2; lineC 3; lineC 4; lineC 5] [lineC 7; lineC 6] (lineC 8) [lineC 9; lineC 10] [lineC 11]
    [(20, 95 / 10); (20, 10)] (203 / 10, 91 / 10) [(207 / 10, 88 / 10); (212 / 10, 88 / 10)] cornersR_stretched markedC_ok) as [p' H].
  - reflexivity.
  - reflexivity.
  - constructor; [plain_point|constructor; [plain_point|constructor]].
  - plain_point.
  - constructor; [plain_point|constructor; [plain_point|constructor]].
  - exact Ht.
  - exists p'. rewrite <- (corners_most _ Ho). replace (4 / 10) with (lit (A:=RA) 4 1); [exact H|cbn; lra].
Qed.

(** distances and angles *)

Lemma distance_is : forall a b d, 0 <= d -> inner (minus a b) (minus a b) = d * d -> distance a b = d.
Proof. intros a b d Hd H. unfold distance, size. rewrite H. now apply sqrt_square. Qed.

Ltac dist := apply distance_is; [lra|unfold inner, minus; cbn [fst snd]; lra].

Lemma blunt_cosine : cosine (20, 0) (28, 6) (28, 16) = - (6 / 10).
Proof.
  assert (H1 : distance (28, 6) (20, 0) = 10) by dist. assert (H2 : distance (28, 6) (28, 16) = 10) by dist.
  unfold cosine, heading. rewrite H1, H2. unfold inner, minus, times. cbn [fst snd]. lra.
Qed.

Lemma sharp_cosine : cosine (28, 6) (28, 16) (20, 10) = 6 / 10.
Proof.
  assert (H1 : distance (28, 16) (28, 6) = 10) by dist. assert (H2 : distance (28, 16) (20, 10) = 10) by dist.
  unfold cosine, heading. rewrite H1, H2. unfold inner, minus, times. cbn [fst snd]. lra.
Qed.

Lemma reaches_within : forall s p q qs, s <= distance p q -> exists f, reaches s p (q :: qs) f.
Proof. intros. eexists. now constructor. Qed.

Lemma fine_ahead : exists f, reaches (8 / 10) (203 / 10, 91 / 10) [(207 / 10, 88 / 10); (212 / 10, 88 / 10)] f.
Proof.
  assert (H1 : distance (203 / 10, 91 / 10) (207 / 10, 88 / 10) = 5 / 10) by dist.
  assert (H2 : distance (207 / 10, 88 / 10) (212 / 10, 88 / 10) = 5 / 10) by dist.
  eexists. apply reaches_on; rewrite H1; [lra|]. apply reaches_here. rewrite H2. lra.
Qed.

Lemma fine_behind : exists f, reaches (8 / 10) (203 / 10, 91 / 10) [(20, 95 / 10); (20, 10)] f.
Proof.
  assert (H1 : distance (203 / 10, 91 / 10) (20, 95 / 10) = 5 / 10) by dist.
  assert (H2 : distance (20, 95 / 10) (20, 10) = 5 / 10) by dist.
  eexists. apply reaches_on; rewrite H1; [lra|]. apply reaches_here. rewrite H2. lra.
Qed.

Lemma formula_sample : exists p' f k,
  stretches no_profile 100 Slic3r default_options (4 / 10) (4 / 100)
    [(20, 95 / 10); (20, 10)] (203 / 10, 91 / 10) [(207 / 10, 88 / 10); (212 / 10, 88 / 10)] p' /\
  reaches (o_from (A:=RA) default_options * (4 / 10)) (203 / 10, 91 / 10) [(207 / 10, 88 / 10); (212 / 10, 88 / 10)] f /\
  reaches (o_from (A:=RA) default_options * (4 / 10)) (203 / 10, 91 / 10) [(20, 95 / 10); (20, 10)] k /\
  distance (203 / 10, 91 / 10) (207 / 10, 88 / 10) <= 4 / 10 * o_cross (A:=RA) default_options / 3 /\
  distance (203 / 10, 91 / 10) (20, 95 / 10) <= 4 / 10 * o_cross (A:=RA) default_options / 3.
Proof.
  destruct fine_sample as [p' H]. destruct fine_ahead as [f F]. destruct fine_behind as [k K]. exists p', f, k.
  assert (E : o_from (A:=RA) default_options * (4 / 10) = 8 / 10) by (cbn; lra). rewrite E.
  assert (H1 : distance (203 / 10, 91 / 10) (207 / 10, 88 / 10) = 5 / 10) by dist.
  assert (H2 : distance (203 / 10, 91 / 10) (20, 95 / 10) = 5 / 10) by dist. rewrite H1, H2.
  repeat split; try assumption; cbn; lra.
Qed.

Lemma blunt_long : (exists p', stretches no_profile 100 Slic3r default_options (4 / 10) (4 / 100) [(20, 0)] (28, 6) [(28, 16)] p') /\
  o_from (A:=RA) default_options * (4 / 10) <= distance (28, 6) (28, 16) /\
  o_from (A:=RA) default_options * (4 / 10) <= distance (28, 6) (20, 0) /\
  4 / 10 * o_cross (A:=RA) default_options <= distance (28, 6) (28, 16) /\
  4 / 10 * o_cross (A:=RA) default_options <= distance (28, 6) (20, 0) /\
  cosine (20, 0) (28, 6) (28, 16) = - (6 / 10).
Proof.
  assert (H1 : distance (28, 6) (20, 0) = 10) by dist. assert (H2 : distance (28, 6) (28, 16) = 10) by dist.
  rewrite H1, H2, blunt_cosine. split; [exact blunt_sample|]. cbn. lra.
Qed.

Lemma sharp_long : (exists p', stretches no_profile 100 Slic3r default_options (4 / 10) (4 / 100) [(28, 6)] (28, 16) [(20, 10)] p') /\
  o_from (A:=RA) default_options * (4 / 10) <= distance (28, 16) (20, 10) /\
  o_from (A:=RA) default_options * (4 / 10) <= distance (28, 16) (28, 6) /\
  4 / 10 * o_cross (A:=RA) default_options <= distance (28, 16) (20, 10) /\
  4 / 10 * o_cross (A:=RA) default_options <= distance (28, 16) (28, 6) /\
  cosine (28, 6) (28, 16) (20, 10) = 6 / 10.
Proof.
  assert (H1 : distance (28, 16) (28, 6) = 10) by dist. assert (H2 : distance (28, 16) (20, 10) = 10) by dist.
  rewrite H1, H2, sharp_cosine. split; [exact sharp_sample|]. cbn. lra.
Qed.

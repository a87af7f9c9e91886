(** * P_StretchWidth: the edge width is the one declared last (C84) *)
From Coq Require Import List Ascii String ZArith Bool Lia.
From Verif Require Import PyBase Arith Gcoder Filters Stretch SpecLoad SpecText SpecFilter SpecStretch SpecLoop.
From Verif Require Import ArithB64 Samples P_Load P_Text P_MachineRefuted P_Stretch P_StretchLoop P_StretchRefuted.
Import ListNotations.
Local Open Scope list_scope.

(** ** Reading a declaration *)

Lemma strip_prefix_iff : forall p s r, strip_prefix p s = Some r <-> s = (p ++ r)%string.
Proof.
  induction p as [|c p IH]; intros s r; cbn [strip_prefix String.append].
  - split; [now intros [= ->]|now intros ->].
  - destruct s as [|d s]; [split; discriminate|]. destruct (Ascii.eqb c d) eqn:E.
    + apply Ascii.eqb_eq in E. subst. rewrite IH. split; [now intros ->|now intros [= ->]].
    + split; [discriminate|]. intros [= -> ->]. rewrite Ascii.eqb_refl in E. discriminate.
Qed.

Lemma is_empty_iff : forall s, is_empty s = true <-> s = ""%string.
Proof. intros [|c s]; cbn; split; congruence. Qed.

Lemma span1_iff : forall p s a b, span1 p s = Some (a, b) <->
  s = (a ++ b)%string /\ a <> ""%string /\ str_all p a = true /\ (forall c t, b = String c t -> p c = false).
Proof.
  intros p s a b. unfold span1. destruct (span p s) as [a' b'] eqn:E. split.
  - destruct (is_empty a') eqn:Ea; [discriminate|]. intros [= -> ->]. split; [exact (span_app_eq p s a b E)|].
    split; [intros ->; discriminate Ea|]. split; [exact (span_all p s a b E)|].
    intros c t Hb. exact (span_stop p s a b c t E Hb).
  - intros (-> & Ha & Hall & Hb). rewrite (span_ext_all p a b Hall Hb) in E. injection E as <- <-.
    destruct (is_empty a) eqn:Ea; [apply is_empty_iff in Ea; contradiction|reflexivity].
Qed.

Lemma prefix_split : forall p s, startswith p s = true <-> exists r, s = (p ++ r)%string.
Proof.
  intros p s. destruct (strip_prefix p s) as [r|] eqn:E.
  - apply strip_prefix_iff in E. subst. split; [eauto|]. intros _.
    destruct (startswith p (p ++ r)) eqn:F; [reflexivity|]. apply strip_prefix_none in F.
    assert (strip_prefix p (p ++ r) = Some r) by now apply strip_prefix_iff. congruence.
  - pose proof E as E'. apply strip_prefix_none in E'. rewrite E'. split; [discriminate|]. intros (r & ->).
    assert (strip_prefix p (p ++ r) = Some r) by now apply strip_prefix_iff. congruence.
Qed.

Lemma slic3r_declares : forall t v, slic3r_width t = Some v <-> declares Slic3r t v.
Proof.
  intros t v. unfold slic3r_width, declares, number_text, blank. split.
  - destruct (strip_prefix _ t) as [s1|] eqn:E1; [|discriminate]. apply strip_prefix_iff in E1.
    destruct (span1 is_space s1) as [[a r1]|] eqn:E2; [|discriminate]. apply span1_iff in E2 as (-> & Ha & Hall & _).
    destruct r1 as [|c s2]; [discriminate|].
    destruct (Ascii.eqb c "=") eqn:Ec; [apply Ascii.eqb_eq in Ec; subst c|
      intros H; exfalso; destruct c as [[] [] [] [] [] [] [] []]; discriminate H || discriminate Ec].
    destruct (span1 is_space s2) as [[b s3]|] eqn:E3; [|discriminate]. apply span1_iff in E3 as (-> & Hb & Hball & _).
    destruct (span1 is_point_digit s3) as [[w s4]|] eqn:E4; [|discriminate]. apply span1_iff in E4 as (-> & Hw & Hwall & _).
    destruct (startswith "mm" s4) eqn:E5; [|discriminate]. intros [= ->]. apply prefix_split in E5 as (r & ->).
    split; [split; assumption|]. exists a, b, r. split; [split; assumption|]. split; [split; assumption|]. exact E1.
  - intros ((Hv & Hvall) & a & b & r & (Ha & Hall) & (Hb & Hball) & ->).
    assert (E1 : strip_prefix "; external perimeters extrusion width"
      ("; external perimeters extrusion width" ++ a ++ "=" ++ b ++ v ++ "mm" ++ r) = Some (a ++ "=" ++ b ++ v ++ "mm" ++ r)%string)
      by now apply strip_prefix_iff.
    rewrite E1.
    assert (E2 : span1 is_space (a ++ "=" ++ b ++ v ++ "mm" ++ r) = Some (a, ("=" ++ b ++ v ++ "mm" ++ r)%string)).
    { apply span1_iff. repeat split; auto. cbn. intros c t [= <- _]. reflexivity. }
    rewrite E2. cbn [String.append].
    assert (E3 : span1 is_space (b ++ v ++ String "m" (String "m" r)) = Some (b, (v ++ "mm" ++ r)%string)).
    { apply span1_iff. repeat split; auto. intros c t Hc. destruct v as [|c' v]; [contradiction|]. cbn in Hc.
      injection Hc as <- _. cbn in Hvall. apply andb_true_iff in Hvall as [H _].
      destruct c' as [[] [] [] [] [] [] [] []]; try discriminate H; reflexivity. }
    rewrite E3.
    assert (E4 : span1 is_point_digit (v ++ "mm" ++ r) = Some (v, ("mm" ++ r)%string)).
    { apply span1_iff. repeat split; auto. cbn. intros c t [= <- _]. reflexivity. }
    rewrite E4. assert (E5 : startswith "mm" ("mm" ++ r) = true) by (apply prefix_split; eauto). rewrite E5. reflexivity.
Qed.

Lemma skeinforge_declares : forall t v, skeinforge_width t = Some v <-> declares Skeinforge t v.
Proof.
  intros t v. unfold skeinforge_width, declares, number_text. split.
  - destruct (strip_prefix _ t) as [s1|] eqn:E1; [|discriminate]. apply strip_prefix_iff in E1.
    destruct (span1 is_point_digit s1) as [[w s4]|] eqn:E4; [|discriminate]. intros [= ->].
    apply span1_iff in E4 as (-> & Hw & Hwall & Hstop). split; [split; assumption|]. exists s4. split; [exact E1|exact Hstop].
  - intros ((Hv & Hvall) & r & -> & Hstop).
    assert (E1 : strip_prefix "(<edgeWidth> " ("(<edgeWidth> " ++ v ++ r) = Some (v ++ r)%string) by now apply strip_prefix_iff.
    rewrite E1. assert (E4 : span1 is_point_digit (v ++ r) = Some (v, r)) by (apply span1_iff; repeat split; auto).
    rewrite E4. reflexivity.
Qed.

(** ** Remarks declare nothing *)

(** no end of [p] begins [x] *)
Fixpoint clear (p x : string) : bool :=
  match p with
  | EmptyString => true
  | String _ p' => negb (is_some (strip_prefix p x)) && clear p' x
  end.

Lemma strip_app : forall p s x, clear p x = true ->
  strip_prefix p (s ++ x) = match strip_prefix p s with Some r => Some (r ++ x)%string | None => None end.
Proof.
  induction p as [|c p IH]; intros s x H; [reflexivity|]. cbn [clear] in H. apply andb_true_iff in H as [H1 H2].
  destruct s as [|d s].
  - change ("" ++ x)%string with x. destruct (strip_prefix (String c p) x) as [r|]; [discriminate H1|reflexivity].
  - cbn [String.append strip_prefix]. destruct (Ascii.eqb c d); [now apply IH|reflexivity].
Qed.

(** [x] is blanks and a semicolon *)
Definition comment_tail (x : string) : Prop := exists sp y, x = (sp ++ String ";" y)%string /\ (sp = "" \/ sp = " ")%string.

Lemma span_tail : forall p s x, span p (s ++ x) =
  if str_all p s then let '(a, b) := span p x in ((s ++ a)%string, b)
  else (fst (span p s), (snd (span p s) ++ x)%string).
Proof.
  intros p s x. induction s as [|c s IH]; [cbn; now destruct (span p x)|]. cbn [String.append span str_all].
  destruct (p c); [|reflexivity]. cbn [andb]. rewrite IH. destruct (str_all p s).
  - now destruct (span p x).
  - now destruct (span p s).
Qed.

Lemma empty_app_s : forall a b : string, is_empty (a ++ b) = is_empty a && is_empty b.
Proof. intros [|c a] b; reflexivity. Qed.

Lemma slic3r_tail : forall s x, comment_tail x -> clear "; external perimeters extrusion width" x = true ->
  slic3r_width (s ++ x) = slic3r_width s.
Proof.
  intros s x (sp & y & Hx & Hsp) Hc. unfold slic3r_width. rewrite (strip_app _ _ _ Hc).
  destruct (strip_prefix "; external perimeters extrusion width" s) as [s1|]; [|reflexivity].
  (* the blanks *)
  assert (Hspace : forall r, let q := span1 is_space (r ++ x) in
    match span1 is_space r with
    | Some (a, b) => (b = ""%string /\ exists a', q = Some (a', String ";" y)) \/ (b <> ""%string /\ q = Some (a, (b ++ x)%string))
    | None => q = None \/ (exists a', q = Some (a', String ";" y)) end).
  { intros r q. subst q. unfold span1. rewrite span_tail.
    assert (Ex : span is_space x = (sp, String ";" y)) by (rewrite Hx; destruct Hsp as [-> | ->]; reflexivity).
    rewrite Ex. destruct (str_all is_space r) eqn:Er.
    - rewrite (span_full _ _ Er). cbn [fst snd]. destruct (is_empty r) eqn:Ee.
      + apply is_empty_iff in Ee. subst r. cbn [String.append].
        destruct (is_empty sp); [left; reflexivity|right; eauto].
      + left. split; [reflexivity|]. rewrite empty_app_s, Ee. cbn [andb]. eauto.
    - destruct (span is_space r) as [a b] eqn:E. cbn [fst snd]. destruct (is_empty a); [left; reflexivity|right].
      split; [|reflexivity]. intros ->. pose proof (span_app_eq _ _ _ _ E) as H1. pose proof (span_all _ _ _ _ E) as H2.
      assert (r = a) by (rewrite H1; clear; induction a; cbn; congruence). congruence. }
  pose proof (Hspace s1) as H1. cbv zeta in H1. destruct (span1 is_space s1) as [[a b]|].
  2:{ destruct H1 as [-> | (a' & ->)]; reflexivity. }
  destruct H1 as [(-> & a' & ->) | (Hb & ->)]; [reflexivity|].
  destruct b as [|c s2]; [contradiction|]. cbn [String.append].
  destruct (Ascii.eqb c "=") eqn:Ec.
  2:{ destruct c as [[] [] [] [] [] [] [] []]; reflexivity || discriminate Ec. }
  apply Ascii.eqb_eq in Ec. subst c.
  pose proof (Hspace s2) as H2. cbv zeta in H2. destruct (span1 is_space s2) as [[a2 s3]|].
  2:{ destruct H2 as [-> | (a' & ->)]; reflexivity. }
  destruct H2 as [(-> & a' & ->) | (Hb2 & ->)]; [reflexivity|].
  unfold span1. rewrite span_ext.
  2:{ intros c t Hct. rewrite Hx in Hct. destruct Hsp as [-> | ->]; injection Hct as <- _; reflexivity. }
  destruct (span is_point_digit s3) as [v s4]. cbn [fst snd]. destruct (is_empty v); [reflexivity|].
  replace (startswith "mm" (s4 ++ x)) with (startswith "mm" s4); [reflexivity|].
  rewrite Hx. unfold startswith. destruct s4 as [|c1 [|c2 s4]].
  - destruct Hsp as [-> | ->]; reflexivity.
  - cbn [String.append]. rewrite !prefix_cons. destruct (Ascii.eqb "m" c1); [|reflexivity].
    destruct Hsp as [-> | ->]; reflexivity.
  - cbn [String.append]. rewrite !prefix_cons. now rewrite !prefix_nil.
Qed.

Lemma marked_width : forall s t, marked s t -> slic3r_width t = slic3r_width s.
Proof.
  intros s t H. induction H as [|s t sep r H IH Hs Hr]; [reflexivity|]. rewrite <- IH.
  unfold remarks in Hr. cbn [In] in Hs, Hr.
  decompose [or False] Hs; subst; decompose [or False] Hr; subst;
    (apply slic3r_tail; [|vm_compute; reflexivity];
     first [now exists " "%string; eexists; split; [reflexivity|right]
           |now exists ""%string; eexists; split; [reflexivity|left]]).
Qed.

(** ** The last declaration *)

Section Last.
Context {A : arith}.

(** from the width [w] to the width [w'] *)
Definition last_width (d : dialect) (ls : list (line A)) (w w' : option (num A)) : Prop :=
  (w' = w /\ forall l v, In l ls -> ~ declares d (raw l) v) \/
  (exists pre l post v x, ls = pre ++ l :: post /\ declares d (raw l) v /\ py_float v = Some x /\ w' = Some x /\
     forall l' v', In l' post -> ~ declares d (raw l') v').

Lemma last_nil : forall d w, last_width d [] w w.
Proof. intros d w. left. split; [reflexivity|]. intros l v []. Qed.

Lemma last_app : forall d a b w1 w2 w3, last_width d a w1 w2 -> last_width d b w2 w3 -> last_width d (a ++ b) w1 w3.
Proof.
  intros d a b w1 w2 w3 Ha [(-> & Hb) | (pre & l & post & v & x & -> & Hb)].
  - destruct Ha as [(-> & Ha) | (pre & l & post & v & x & -> & Hl & Hx & Hw & Hpost)].
    + left. split; [reflexivity|]. intros l v Hl. apply in_app_iff in Hl as [Hl|Hl]; eauto.
    + right. exists pre, l, (post ++ b), v, x. split; [now rewrite <- app_assoc|].
      split; [exact Hl|]. split; [exact Hx|]. split; [exact Hw|].
      intros l' v' Hl'. apply in_app_iff in Hl' as [Hl'|Hl']; eauto.
  - right. exists (a ++ pre), l, post, v, x. split; [now rewrite <- app_assoc|exact Hb].
Qed.

Lemma last_one : forall d (l : line A) (read : string -> option string) v w,
  (forall t v, read t = Some v <-> declares d t v) -> read_width (read (raw l)) = Ok v ->
  last_width d [l] w (or_width v w).
Proof.
  intros d l read v w Hread H. unfold read_width in H. destruct (read (raw l)) as [t|] eqn:E.
  - destruct (py_float t) as [x|] eqn:Ex; [|discriminate H]. injection H as <-. right.
    exists [], l, [], t, x. split; [reflexivity|]. split; [now apply Hread|]. split; [exact Ex|]. split; [reflexivity|].
    intros l' v' [].
  - injection H as <-. left. split; [reflexivity|]. intros l' t [<-|[]] Ht. apply Hread in Ht. congruence.
Qed.

Lemma slic3r_lines_last : forall (ls : list (line A)) s w s' w' ls',
  slic3r_lines s w ls = Ok (s', w', ls') -> last_width Slic3r ls w w'.
Proof.
  induction ls as [|l t IH]; intros s w s' w' ls' H; cbn [slic3r_lines] in H.
  - inversion H; subst. apply last_nil.
  - destruct (mark_extrusion s l) as [s1 l1] eqn:E1. destruct (slic3r_kind s1 l1 t) as [s2 l2] eqn:E2.
    pose proof (mark_extrusion_marked s l) as H1. rewrite E1 in H1.
    pose proof (slic3r_kind_marked s1 l1 t) as H2. rewrite E2 in H2.
    pose proof (marked_line_trans _ _ _ H1 H2) as [_ H3]. cbn [snd] in H3. apply marked_width in H3.
    rewrite H3 in H.
    destruct (read_width (slic3r_width (raw l))) as [v|e] eqn:Ev; cbn [bind] in H; [|discriminate H].
    destruct (slic3r_lines s2 (or_width v w) t) as [[[s3 w3] t3]|e] eqn:E3; cbn [bind] in H; [|discriminate H].
    inversion H; subst. change (l :: t) with ([l] ++ t). eapply last_app; [|eapply IH; exact E3].
    eapply last_one; [exact slic3r_declares|exact Ev].
Qed.

Lemma skeinforge_lines_last : forall (ls : list (line A)) w w' ls',
  skeinforge_lines w ls = Ok (w', ls') -> last_width Skeinforge ls w w'.
Proof.
  induction ls as [|l t IH]; intros w w' ls' H; cbn [skeinforge_lines] in H.
  - inversion H; subst. apply last_nil.
  - destruct (read_width (skeinforge_width (raw l))) as [v|e] eqn:Ev; cbn [bind] in H; [|discriminate H].
    destruct (skeinforge_lines (or_width v w) t) as [[w3 t3]|e] eqn:E3; cbn [bind] in H; [|discriminate H].
    inversion H; subst. change (l :: t) with ([l] ++ t). eapply last_app; [|eapply IH; exact E3].
    eapply last_one; [exact skeinforge_declares|exact Ev].
Qed.

Lemma slic3r_layers_last : forall (ys : list (layer A)) b w w' ys',
  slic3r_layers b w ys = Ok (w', ys') -> last_width Slic3r (lines_of ys) w w'.
Proof.
  induction ys as [|y t IH]; intros b w w' ys' E; cbn [slic3r_layers] in E.
  - inversion E; subst. apply last_nil.
  - destruct (slic3r_lines _ _ _) as [[[s w2] ls]|e] eqn:E1; cbn [bind] in E; [|discriminate E].
    destruct (slic3r_layers (k_extruding s) w2 t) as [[w3 t3]|e] eqn:E2; cbn [bind] in E; [|discriminate E].
    inversion E; subst. unfold lines_of. cbn [map List.concat].
    eapply last_app; [eapply slic3r_lines_last; exact E1|eapply IH; exact E2].
Qed.

Lemma skeinforge_layers_last : forall (ys : list (layer A)) w w' ys',
  skeinforge_layers w ys = Ok (w', ys') -> last_width Skeinforge (lines_of ys) w w'.
Proof.
  induction ys as [|y t IH]; intros w w' ys' E; cbn [skeinforge_layers] in E.
  - inversion E; subst. apply last_nil.
  - destruct (skeinforge_lines _ _) as [[w2 ls]|e] eqn:E1; cbn [bind] in E; [|discriminate E].
    destruct (skeinforge_layers w2 t) as [[w3 t3]|e] eqn:E2; cbn [bind] in E; [|discriminate E].
    inversion E; subst. unfold lines_of. cbn [map List.concat].
    eapply last_app; [eapply skeinforge_lines_last; exact E1|eapply IH; exact E2].
Qed.

Lemma declared_width : forall profile d (g : gcode A) w ms, d <> Cura -> marking profile d g w ms ->
  (exists pre l post v x, all_lines g = pre ++ l :: post /\ declares d (raw l) v /\ py_float v = Some x /\ w = Some x /\
     forall l' v', In l' post -> ~ declares d (raw l') v') \/
  ((forall l v, In l (all_lines g) -> ~ declares d (raw l) v) /\
   w = match d with Slic3r => Some (lit 4 1) | _ => None end).
Proof.
  intros profile d g w ms Hd (ys & H & _). rewrite <- lines_of_all. unfold setup_filter in H. destruct d; [|congruence|].
  - destruct (slic3r_layers false None (g_layers g)) as [[w1 ys1]|e] eqn:E; cbn [bind] in H; [|discriminate H].
    inversion H; subst. apply slic3r_layers_last in E. destruct E as [(-> & E) | (pre & l & post & v & x & E)].
    + right. split; [exact E|reflexivity].
    + left. exists pre, l, post, v, x. destruct E as (E1 & E2 & E3 & -> & E4). exact (conj E1 (conj E2 (conj E3 (conj eq_refl E4)))).
  - apply skeinforge_layers_last in H. destruct H as [(-> & E) | E]; [right; split; [exact E|reflexivity]|left; exact E].
Qed.
End Last.

Lemma cura_default_width : forall (A : arith) profile (g : gcode A) w ms, marking profile Cura g w ms ->
  Forall (fun l => startswith ";CURA_PROFILE_STRING:" (raw l) = false) (all_lines g) -> w = Some (lit 4 1).
Proof.
  intros A profile g w ms (ys & H & _) Hn. destruct (cura_setup profile g Hn) as (ys' & E). congruence.
Qed.

Lemma widths_declared :
  declares Slic3r "; external perimeters extrusion width = 0.50mm (4.91mm^3/s)" "0.50" /\
  declares Skeinforge "(<edgeWidth> 0.55 )" "0.55" /\
  exists r, setup_filter no_profile Slic3r
    (g_layers (loadF ["; external perimeters extrusion width = 0.50mm"; "G1 X1 Y1"]%string)) = Ok r /\
    match fst r with Some w => fmt 2 w = "0.50"%string | None => False end.
Proof.
  split; [apply slic3r_declares; vm_compute; reflexivity|].
  split; [apply skeinforge_declares; vm_compute; reflexivity|].
  exists (get (None, []) (setup_filter no_profile Slic3r
    (g_layers (loadF ["; external perimeters extrusion width = 0.50mm"; "G1 X1 Y1"]%string)))).
  split; [apply is_ok_get; vm_compute; reflexivity|vm_compute; reflexivity].
Qed.

(** * P_Edits: edits of layers compose (C125) *)
From Coq Require Import List Bool String Lia.
From Verif Require Import PyBase Arith ArithB64 Gcoder SpecLoad SpecEdits Samples P_Load P_Edit.
Import ListNotations.
Local Open Scope list_scope.

Lemma set_nth_twice : forall T (x y : T) k l, set_nth k x (set_nth k y l) = set_nth k x l.
Proof. intros T x y k l. revert k. induction l as [|z l IH]; intros [|k]; cbn; try reflexivity. now rewrite IH. Qed.

Lemma set_nth_swap : forall T (x y : T) l j k, j <> k -> set_nth j x (set_nth k y l) = set_nth k y (set_nth j x l).
Proof.
  intros T x y l. induction l as [|z l IH]; intros [|j] [|k] H; cbn; try reflexivity; [congruence|].
  rewrite IH by congruence. reflexivity.
Qed.

Section Any.
Context {A : arith}.

(** the program with these layers *)
Definition rebuilt (ys : list (layer A)) (g : gcode A) : gcode A :=
  set_lines_layers (List.concat (map ly_lines ys)) ys
    (map fst (positions 0 (map ly_lines ys))) (map snd (positions 0 (map ly_lines ys))) g.

Lemma rebuilt_twice : forall ys zs g, rebuilt ys (rebuilt zs g) = rebuilt ys g.
Proof. reflexivity. Qed.

Lemma rebuilt_eq : forall (g g' : gcode A) ls li ki, consistent g' -> g' = set_lines_layers ls (g_layers g') li ki g ->
  g' = rebuilt (g_layers g') g.
Proof.
  intros g g' ls li ki (H1 & H2 & H3) H. unfold rebuilt, blocks in *. rewrite <- H1, <- H2, <- H3.
  rewrite H. reflexivity.
Qed.

Lemma rebuilt_consistent : forall ys g, consistent (rebuilt ys g).
Proof. intros ys g. apply conj; [reflexivity|]. apply conj; reflexivity. Qed.

(** what an edit puts in a layer *)
Definition contents (e : edit) (ls : list (line A)) : list (line A) :=
  match e with
  | Prepend cmds _ => map inserted_line (program_text cmds) ++ ls
  | Rewrite cmds _ => map inserted_line (program_text cmds)
  end.
Definition told (e : edit) : list string := match e with Prepend cmds _ | Rewrite cmds _ => program_text cmds end.

Definition done (e : edit) (y : layer A) (g : gcode A) : gcode A :=
  rebuilt (set_nth (layer_of e) (set_ly_lines (contents e (ly_lines y)) y) (g_layers g)) g.

Lemma make_ok : forall e g y, consistent g -> nth_error (g_layers g) (layer_of e) = Some y -> ly_lines y <> [] ->
  make e g = Ok (done e y g, told e).
Proof.
  intros [cmds k|cmds k] g y Hc Hk Hy; cbn [make layer_of] in *.
  - destruct (prepend_eq cmds k g y Hc Hk Hy) as (g' & E & Hl & Hc' & ls & li & ki & Hg).
    rewrite E. cbn [told]. f_equal. f_equal. rewrite (rebuilt_eq _ _ _ _ _ Hc' Hg), Hl. reflexivity.
  - destruct (rewrite_eq cmds k g y Hc Hk Hy) as (g' & E & Hl & Hc' & ls & li & ki & Hg).
    rewrite E. cbn [told]. f_equal. f_equal. rewrite (rebuilt_eq _ _ _ _ _ Hc' Hg), Hl. reflexivity.
Qed.

Lemma make_inv : forall e g g' r, consistent g -> make e g = Ok (g', r) ->
  exists y, nth_error (g_layers g) (layer_of e) = Some y /\ ly_lines y <> [] /\ g' = done e y g /\ r = told e.
Proof.
  intros e g g' r Hc H. destruct (nth_error (g_layers g) (layer_of e)) as [y|] eqn:Hk.
  - destruct (ly_lines y) as [|l ls] eqn:Hy.
    + exfalso. destruct e as [cmds k|cmds k]; cbn [make layer_of] in *;
        destruct (prepend_empty cmds k g y Hc Hk Hy) as [E1 E2]; congruence.
    + exists y. split; [reflexivity|]. split; [congruence|].
      rewrite (make_ok e g y Hc Hk) in H by congruence. injection H as <- <-. split; reflexivity.
  - exfalso. destruct e as [cmds k|cmds k]; cbn [make layer_of] in *;
      destruct (prepend_missing cmds k g Hk) as [E1 E2]; congruence.
Qed.

Lemma done_layer : forall e y g, nth_error (g_layers g) (layer_of e) = Some y ->
  nth_error (g_layers (done e y g)) (layer_of e) = Some (set_ly_lines (contents e (ly_lines y)) y).
Proof. intros e y g H. cbn [done rebuilt set_lines_layers g_layers]. eapply nth_error_set_nth_eq, H. Qed.

Lemma done_other : forall e y g k, k <> layer_of e -> nth_error (g_layers (done e y g)) k = nth_error (g_layers g) k.
Proof. intros e y g k H. cbn [done rebuilt set_lines_layers g_layers]. apply nth_error_set_nth_neq, H. Qed.

Lemma edits_commute : forall (g : gcode A), edited g -> forall e1 e2 g1 g2 r1 r2, layer_of e1 <> layer_of e2 ->
  make e1 g = Ok (g1, r1) -> make e2 g1 = Ok (g2, r2) ->
  exists g1', make e2 g = Ok (g1', r2) /\ make e1 g1' = Ok (g2, r1).
Proof.
  intros g Hg e1 e2 g1 g2 r1 r2 Hne H1 H2. pose proof (edited_consistent g Hg) as Hc.
  destruct (make_inv _ _ _ _ Hc H1) as (y1 & Hy1 & Hl1 & -> & ->).
  destruct (make_inv _ _ _ _ (rebuilt_consistent _ _) H2) as (y2 & Hy2 & Hl2 & -> & ->).
  fold (done e1 y1 g) in *. rewrite done_other in Hy2 by congruence.
  exists (done e2 y2 g). split; [apply make_ok; assumption|].
  rewrite (make_ok e1 (done e2 y2 g) y1 (rebuilt_consistent _ _)) by (rewrite ?done_other; assumption).
  f_equal. f_equal. unfold done. rewrite !rebuilt_twice. cbn [rebuilt set_lines_layers g_layers].
  rewrite set_nth_swap by exact Hne. reflexivity.
Qed.

Lemma edits_join : forall (g : gcode A), edited g -> forall cmds1 cmds2 k g1 g2 r1 r2,
  (prepend_to_layer cmds1 k g = Ok (g1, r1) -> prepend_to_layer cmds2 k g1 = Ok (g2, r2) ->
   prepend_to_layer (cmds2 ++ cmds1) k g = Ok (g2, r2 ++ r1)) /\
  (rewrite_layer cmds1 k g = Ok (g1, r1) -> prepend_to_layer cmds2 k g1 = Ok (g2, r2) ->
   rewrite_layer (cmds2 ++ cmds1) k g = Ok (g2, r2 ++ r1)).
Proof.
  intros g Hg cmds1 cmds2 k g1 g2 r1 r2. pose proof (edited_consistent g Hg) as Hc. split; intros H1 H2.
  - destruct (make_inv (Prepend cmds1 k) _ _ _ Hc H1) as (y1 & Hy1 & Hl1 & -> & ->).
    destruct (make_inv (Prepend cmds2 k) _ _ _ (rebuilt_consistent _ _) H2) as (y2 & Hy2 & Hl2 & -> & ->).
    fold (done (Prepend cmds1 k) y1 g) in *. pose proof (done_layer _ _ _ Hy1) as Hd. cbn [layer_of] in *.
    rewrite Hd in Hy2. injection Hy2 as <-.
    change (prepend_to_layer (cmds2 ++ cmds1) k g) with (make (Prepend (cmds2 ++ cmds1) k) g).
    rewrite (make_ok (Prepend (cmds2 ++ cmds1) k) g y1 Hc Hy1 Hl1). unfold done. rewrite rebuilt_twice.
    cbn [rebuilt set_lines_layers g_layers contents told layer_of ly_lines set_ly_lines ly_z ly_dur].
    rewrite set_nth_twice, program_text_app, map_app, app_assoc. reflexivity.
  - destruct (make_inv (Rewrite cmds1 k) _ _ _ Hc H1) as (y1 & Hy1 & Hl1 & -> & ->).
    destruct (make_inv (Prepend cmds2 k) _ _ _ (rebuilt_consistent _ _) H2) as (y2 & Hy2 & Hl2 & -> & ->).
    fold (done (Rewrite cmds1 k) y1 g) in *. pose proof (done_layer _ _ _ Hy1) as Hd. cbn [layer_of] in *.
    rewrite Hd in Hy2. injection Hy2 as <-.
    change (rewrite_layer (cmds2 ++ cmds1) k g) with (make (Rewrite (cmds2 ++ cmds1) k) g).
    rewrite (make_ok (Rewrite (cmds2 ++ cmds1) k) g y1 Hc Hy1 Hl1). unfold done. rewrite rebuilt_twice.
    cbn [rebuilt set_lines_layers g_layers contents told layer_of ly_lines set_ly_lines ly_z ly_dur].
    rewrite set_nth_twice, program_text_app, map_app. reflexivity.
Qed.

Lemma rewriting_wins : forall (g : gcode A), edited g -> forall e g1 r1 cmds,
  make e g = Ok (g1, r1) ->
  match e with Prepend _ _ => True | Rewrite cmds1 _ => program_text cmds1 <> [] end ->
  exists g2, rewrite_layer cmds (layer_of e) g1 = Ok (g2, program_text cmds) /\
             rewrite_layer cmds (layer_of e) g = Ok (g2, program_text cmds).
Proof.
  intros g Hg e g1 r1 cmds H1 Hn. pose proof (edited_consistent g Hg) as Hc.
  destruct (make_inv _ _ _ _ Hc H1) as (y1 & Hy1 & Hl1 & -> & ->).
  pose proof (done_layer _ _ _ Hy1) as Hd.
  set (e2 := Rewrite cmds (layer_of e)). exists (done e2 y1 g).
  change (rewrite_layer cmds (layer_of e) (done e y1 g)) with (make e2 (done e y1 g)).
  change (rewrite_layer cmds (layer_of e) g) with (make e2 g). split.
  - rewrite (make_ok e2 (done e y1 g) _ (rebuilt_consistent _ _) Hd).
    + unfold done. rewrite rebuilt_twice. cbn [rebuilt set_lines_layers g_layers layer_of e2].
      rewrite set_nth_twice. reflexivity.
    + cbn [set_ly_lines ly_lines]. destruct e as [c k|c k]; cbn [contents].
      * intros C. apply app_eq_nil in C. apply Hl1, C.
      * intros C. apply map_eq_nil in C. exact (Hn C).
  - apply (make_ok e2 g y1 Hc Hy1 Hl1).
Qed.

Lemma emptied : forall (g : gcode A), edited g -> forall cmds1 k g1 r1, program_text cmds1 = [] ->
  rewrite_layer cmds1 k g = Ok (g1, r1) ->
  forall cmds, prepend_to_layer cmds k g1 = Err ValueError /\ rewrite_layer cmds k g1 = Err ValueError.
Proof.
  intros g Hg cmds1 k g1 r1 Hn H1 cmds. pose proof (edited_consistent g Hg) as Hc.
  destruct (make_inv (Rewrite cmds1 k) _ _ _ Hc H1) as (y1 & Hy1 & Hl1 & -> & ->).
  eapply prepend_empty; [apply rebuilt_consistent|apply (done_layer _ _ _ Hy1)|].
  cbn [set_ly_lines ly_lines contents]. rewrite Hn. reflexivity.
Qed.

End Any.

(** the second layer emptied; the first two layers edited *)
Definition edits_seen : bool :=
  match rewrite_layer [" "]%string 1 cubeF with
  | Ok (g1, _) => Nat.leb 2 (List.length (g_layers g1)) && match rewrite_layer ["M107"]%string 1 g1 with Err ValueError => true | _ => false end
  | Err _ => false
  end &&
  match make (Prepend ["M117 a"; ""; "M117 b"]%string 0) cubeF with
  | Ok (g1, _) =>
      match make (Rewrite ["M117 c"]%string 1) g1 with
      | Ok (g2, _) => is_ok (make (Prepend ["M107"]%string 1) g2)
      | Err _ => false
      end
  | Err _ => false
  end.

Lemma edits_sample : edits_seen = true.
Proof. vm_compute. reflexivity. Qed.

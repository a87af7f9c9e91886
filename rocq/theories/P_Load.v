(** * P_Load: lemmas for loading, writing and the index tables *)
From Coq Require Import List Ascii String ZArith NArith Bool Lia.
From Verif Require Import PyBase Arith Gcoder SpecLoad.
Import ListNotations.
Local Open Scope list_scope.

(** ** Strings *)

Lemma str_app_nil : forall s, (s ++ "")%string = s.
Proof. induction s as [|c s IH]; cbn; [reflexivity|now rewrite IH]. Qed.

Lemma str_app_assoc : forall a b c : string, ((a ++ b) ++ c)%string = (a ++ b ++ c)%string.
Proof. induction a as [|x a IH]; intros b c; cbn; [reflexivity|now rewrite IH]. Qed.

Lemma blank_lstrip : forall s, blank s = true -> lstrip s = ""%string.
Proof.
  induction s as [|c s IH]; cbn; [reflexivity|].
  intros H. apply andb_prop in H as [H1 H2]. rewrite H1. auto.
Qed.

Lemma lstrip_spec : forall s, exists a, s = (a ++ lstrip s)%string /\ blank a = true /\
  (forall c u, lstrip s = String c u -> is_space c = false).
Proof.
  induction s as [|c s IH]; cbn.
  - exists ""%string. repeat split. discriminate.
  - destruct (is_space c) eqn:E.
    + destruct IH as (a & H1 & H2 & H3). exists (String c a).
      split; [cbn; congruence|]. split; [cbn; rewrite E; exact H2|exact H3].
    + exists ""%string. repeat split. intros d u H. congruence.
Qed.

Lemma rstrip_spec : forall s, exists b, s = (rstrip s ++ b)%string /\ blank b = true /\
  (forall u c, rstrip s = (u ++ String c "")%string -> is_space c = false).
Proof.
  induction s as [|c s IH]; cbn.
  - exists ""%string. repeat split. intros u d H. destruct u; discriminate H.
  - destruct IH as (b & H1 & H2 & H3).
    destruct (rstrip s) as [|d t] eqn:E.
    + cbn in H1. destruct (is_space c) eqn:Ec.
      * exists (String c b). split; [cbn; congruence|]. split; [cbn; rewrite Ec; exact H2|].
        intros u e H. destruct u; discriminate H.
      * exists b. split; [cbn; congruence|]. split; [exact H2|].
        intros u e H. destruct u as [|x u]; cbn in H; [congruence|destruct u; discriminate H].
    + exists b. split; [cbn; cbn in H1; congruence|]. split; [exact H2|].
      intros u e H. destruct u as [|x u]; cbn in H; [discriminate H|].
      injection H as _ H. apply (H3 u e). exact H.
Qed.

Lemma rstrip_head : forall s c t, rstrip s = String c t -> exists u, s = String c u.
Proof.
  intros s c t H. destruct (rstrip_spec s) as (b & H1 & _). rewrite H in H1. cbn in H1. eauto.
Qed.

Lemma strip_spec : forall s, stripped_of s (strip s).
Proof.
  intros s. unfold strip, stripped_of.
  destruct (lstrip_spec s) as (a & Ha & Hba & Hh).
  destruct (rstrip_spec (lstrip s)) as (b & Hb & Hbb & Ht).
  exists a, b. split; [congruence|]. split; [exact Hba|]. split; [exact Hbb|].
  split; [|exact Ht].
  intros c u H. destruct (rstrip_head _ _ _ H) as [v Hv]. eapply Hh, Hv.
Qed.

Lemma blank_app : forall a b, blank (a ++ b) = blank a && blank b.
Proof.
  induction a as [|c a IH]; intros b; cbn; [reflexivity|].
  unfold blank in *. cbn. rewrite IH. now rewrite andb_assoc.
Qed.

Lemma is_empty_strip : forall s, is_empty (strip s) = blank s.
Proof.
  intros s. destruct (strip_spec s) as (a & b & H & Ha & Hb & Hh & _).
  destruct (strip s) as [|c t] eqn:E; cbn.
  - rewrite H, !blank_app, Ha, Hb. reflexivity.
  - rewrite H, !blank_app. unfold blank at 2. cbn. rewrite (Hh c t eq_refl).
    rewrite Ha. reflexivity.
Qed.

Lemma clean_lines_text : forall data, clean_lines data = program_text data.
Proof.
  intros data. unfold clean_lines, program_text.
  induction data as [|s data IH]; cbn; [reflexivity|].
  rewrite is_empty_strip. destruct (blank s); cbn; [exact IH|now rewrite IH].
Qed.

Lemma program_text_app : forall a b, program_text (a ++ b) = program_text a ++ program_text b.
Proof. intros a b. unfold program_text. now rewrite filter_app, map_app. Qed.

Lemma program_text_rev : forall a, program_text (rev a) = rev (program_text a).
Proof.
  intros a. unfold program_text. rewrite <- map_rev. f_equal.
  induction a as [|s a IH]; cbn; [reflexivity|].
  rewrite filter_app, IH. cbn. destruct (blank s); cbn; [now rewrite app_nil_r|reflexivity].
Qed.

(** ** foldM *)

Lemma foldM_app : forall S X (f : S -> X -> res S) a b s,
  foldM f (a ++ b) s = bind (foldM f a s) (foldM f b).
Proof.
  intros S X f a b. induction a as [|x a IH]; intros s; cbn; [reflexivity|].
  destruct (f s x) as [s'|e]; cbn; [apply IH|reflexivity].
Qed.

Lemma foldM_inv : forall S X (f : S -> X -> res S) (P : list X -> S -> Prop) l s s',
  foldM f l s = Ok s' -> P [] s ->
  (forall pre x s1 s2, P pre s1 -> f s1 x = Ok s2 -> P (pre ++ [x]) s2) -> P l s'.
Proof.
  intros S X f P l. intros s s' H H0 Hstep.
  assert (G : forall l2 pre s1, P pre s1 -> foldM f l2 s1 = Ok s' -> P (pre ++ l2) s').
  { clear H H0. induction l2 as [|x l2 IH]; intros pre s1 Hp Hf; cbn in Hf.
    - rewrite app_nil_r. congruence.
    - destruct (f s1 x) as [s2|e] eqn:E; cbn in Hf; [|discriminate Hf].
      replace (pre ++ x :: l2) with ((pre ++ [x]) ++ l2) by now rewrite <- app_assoc.
      eapply IH; [|exact Hf]. eapply Hstep; eassumption. }
  apply (G l [] s H0 H).
Qed.

(** ** Positions *)

Lemma positions_app : forall T n (a b : list (list T)),
  positions n (a ++ b) = positions n a ++ positions (n + List.length a) b.
Proof.
  intros T n a. revert n. induction a as [|x a IH]; intros n b; cbn.
  - now rewrite Nat.add_0_r.
  - rewrite IH, app_assoc. do 2 f_equal. lia.
Qed.

Lemma positions_length : forall T (bs : list (list T)) n,
  List.length (positions n bs) = List.length (List.concat bs).
Proof.
  intros T. induction bs as [|b bs IH]; intros n; cbn; [reflexivity|].
  rewrite !app_length, map_length, seq_length, IH. reflexivity.
Qed.

Lemma positions_nth : forall T (bs : list (list T)) n i x,
  nth_error (List.concat bs) i = Some x ->
  exists m k b, nth_error (positions n bs) i = Some (n + m, k) /\
    nth_error bs m = Some b /\ nth_error b k = Some x.
Proof.
  intros T. induction bs as [|b bs IH]; intros n i x H; cbn in H; [destruct i; discriminate H|].
  cbn [positions].
  destruct (Nat.ltb_spec i (List.length b)) as [Hi|Hi].
  - rewrite nth_error_app1 in H by exact Hi.
    exists 0, i, b. split; [|split; [reflexivity|exact H]].
    rewrite nth_error_app1 by (rewrite map_length, seq_length; exact Hi).
    rewrite Nat.add_0_r. apply map_nth_error.
    rewrite (nth_error_nth' _ 0) by (rewrite seq_length; exact Hi).
    rewrite seq_nth by exact Hi. reflexivity.
  - rewrite nth_error_app2 in H by exact Hi.
    destruct (IH (S n) _ _ H) as (m & k & b' & H1 & H2 & H3).
    exists (S m), k, b'. split; [|split; [exact H2|exact H3]].
    rewrite nth_error_app2 by (rewrite map_length, seq_length; exact Hi).
    rewrite map_length, seq_length, H1. do 2 f_equal. lia.
Qed.

Lemma nth_error_fst_snd : forall (l : list (nat * nat)) i a b,
  nth_error l i = Some (a, b) ->
  nth_error (map fst l) i = Some a /\ nth_error (map snd l) i = Some b.
Proof.
  intros l i a b H. split;
    [exact (map_nth_error fst i l H)|exact (map_nth_error snd i l H)].
Qed.

Section Load.
Context {A : arith}.

(** ** The consistency invariant of whole programs *)

Definition tables_ok (ls : list (line A)) (bs : list (list (line A))) (li ki : list nat) : Prop :=
  ls = List.concat bs /\
  li = map fst (positions 0 bs) /\ ki = map snd (positions 0 bs).

Definition consistent (g : gcode A) : Prop :=
  tables_ok (g_lines g) (blocks g) (g_lidx g) (g_kidx g).

Lemma consistent_idxs_right : forall g, consistent g -> idxs_right g.
Proof.
  intros g (H1 & H2 & H3). unfold idxs_right, idxs. rewrite H1, H2, H3.
  split; [|split].
  - intros i l Hl. destruct (positions_nth _ _ 0 i l Hl) as (m & k & b & Hp & Hb & Hk).
    destruct (nth_error_fst_snd _ _ _ _ Hp) as [Hf Hs].
    rewrite Hf, Hs. exists (0 + m), k, b. auto.
  - intros i Hi.
    assert (Hn : nth_error (map fst (positions 0 (blocks g))) i = None)
      by (apply nth_error_None; rewrite map_length, positions_length; exact Hi).
    rewrite Hn. reflexivity.
  - rewrite map_length, positions_length. reflexivity.
Qed.

(** ** The loading invariant *)

Definition cur_blocks (ls : lstate A) := map ly_lines (ls_layers ls) ++ [ls_cur ls].

Definition linv (ls : lstate A) (out : list (line A)) : Prop :=
  tables_ok out (cur_blocks ls) (ls_lidx ls) (ls_kidx ls) /\
  ls_layer_id ls = List.length (ls_layers ls) /\
  ls_layer_line ls = List.length (ls_cur ls).

Lemma linv_init : linv init_lstate [].
Proof. repeat split. Qed.

Lemma tables_ok_nil : forall ls bs li ki, tables_ok ls bs li ki -> tables_ok ls (bs ++ [[]]) li ki.
Proof.
  intros ls bs li ki (H1 & H2 & H3). unfold tables_ok.
  rewrite concat_app, positions_app. cbn. rewrite !app_nil_r. auto.
Qed.

Lemma update_layers_linv : forall s out, linv s out -> linv (update_layers s) out.
Proof.
  intros s out H. unfold update_layers.
  destruct (opt_eqb (ls_cur_z s) (ls_prev_z s)); [exact H|].
  destruct (compute_base_z s) as [base est].
  destruct (match ls_prev_base s with Some b => opt_eqb base b | None => false end);
    [exact H|].
  destruct H as (Ht & H2 & H3). unfold linv, cur_blocks in *. cbn.
  rewrite map_app. cbn. split; [apply tables_ok_nil; exact Ht|].
  rewrite app_length, H2. cbn. split; [lia|reflexivity].
Qed.

Lemma layer_body_linv : forall l mx s out s',
  layer_body l mx s = Ok s' -> linv s out -> linv s' out.
Proof.
  intros l mx s out s' H Hi. unfold layer_body in H.
  destruct (update_bbox l mx s) as [bb bbe].
  destruct (update_duration l (ls_d s)) as [d|e]; cbn in H; [|discriminate H].
  injection H as <-. apply update_layers_linv. exact Hi.
Qed.

Lemma push_line_linv : forall l s out, linv s out -> linv (push_line l s) (out ++ [l]).
Proof.
  intros l s out ((H1 & H2 & H3) & H4 & H5). unfold linv, tables_ok, cur_blocks in *. cbn.
  rewrite !concat_app, !positions_app in *. cbn in *. rewrite !app_nil_r in *.
  rewrite map_length in *.
  rewrite app_length. cbn. rewrite Nat.add_1_r, seq_S. rewrite !map_app. cbn [map].
  repeat split.
  - rewrite H1. now rewrite app_assoc.
  - rewrite H2, H4, !map_app, app_assoc. reflexivity.
  - rewrite H3, H5, !map_app, app_assoc. reflexivity.
  - exact H4.
  - rewrite H5. lia.
Qed.

Lemma build_step_linv : forall light m ls out t m' ls' out',
  build_step light (m, ls, out) t = Ok (m', ls', out') ->
  linv ls out -> linv ls' out'.
Proof.
  intros light m ls out t m' ls' out' H Hi. unfold build_step in H.
  destruct (motion_step m t) as [[s l]|e]; cbn in H; [|discriminate H].
  destruct (match command l with Some _ => layer_body l (m_max s) ls | None => Ok ls end)
    as [ls1|e] eqn:E; cbn in H; [|discriminate H].
  injection H as <- <- <-. apply push_line_linv.
  destruct (command l); [eapply layer_body_linv; eassumption|congruence].
Qed.

Lemma build_linv : forall light ts st m ls out,
  foldM (build_step light) ts st = Ok (m, ls, out) ->
  linv (snd (fst st)) (snd st) -> linv ls out.
Proof.
  intros light ts. induction ts as [|t ts IH]; intros [[m0 ls0] out0] m ls out H Hi; cbn [foldM] in H.
  - injection H as <- <- <-. exact Hi.
  - destruct (build_step light (m0, ls0, out0) t) as [[[m1 ls1] out1]|e] eqn:E;
      cbn [bind] in H; [|discriminate H].
    apply (IH _ _ _ _ H). cbn. eapply build_step_linv; eassumption.
Qed.

Lemma finalize_consistent : forall light m ls out,
  linv ls out -> consistent (finalize light m ls out).
Proof.
  intros light m ls out (Ht & _ & _). unfold consistent, finalize, cur_blocks in *.
  destruct (ls_cur ls) as [|c cs] eqn:E.
  - cbn. unfold blocks. cbn. rewrite map_app. exact Ht.
  - cbn. unfold blocks. cbn [g_layers]. rewrite !map_app. cbn [map ly_lines].
    apply tables_ok_nil. exact Ht.
Qed.

Lemma load_consistent : forall light home data (g : gcode A),
  load_gen light home data = Ok g -> consistent g.
Proof.
  intros light home data g H. unfold load_gen in H.
  destruct data as [|s data].
  - injection H as <-. repeat split.
  - destruct (foldM _ _ _) as [[[m ls] out]|e] eqn:E; cbn in H; [|discriminate H].
    injection H as <-. apply finalize_consistent. eapply build_linv; [exact E|apply linv_init].
Qed.

(** ** Text is preserved *)

Lemma split_raw : forall l : line A, raw (fst (split l)) = raw l.
Proof.
  intros l. unfold split.
  destruct (match findall (lower (raw l)) with
            | [] => []
            | (c, _) :: t => if String.eqb c "n" then t else findall (lower (raw l))
            end) as [|[c v] t]; reflexivity.
Qed.

Lemma parse_word_raw : forall imp (l l' : line A) w, parse_word imp l w = Ok l' -> raw l' = raw l.
Proof.
  intros imp l l' [c v] H. unfold parse_word in H.
  destruct (letter_of_code c); [|congruence].
  destruct (is_empty v); [congruence|].
  destruct (py_float v); [|discriminate H]. injection H as <-. reflexivity.
Qed.

Lemma foldM_parse_raw : forall imp ws (l l' : line A),
  foldM (parse_word imp) ws l = Ok l' -> raw l' = raw l.
Proof.
  intros imp. induction ws as [|w ws IH]; intros l l' H; cbn in H; [congruence|].
  destruct (parse_word imp l w) as [l1|e] eqn:E; cbn in H; [|discriminate H].
  rewrite (IH _ _ H). eapply parse_word_raw, E.
Qed.

Lemma parse_coordinates_raw : forall imp ws (l l' : line A),
  parse_coordinates imp ws l = Ok l' -> raw l' = raw l.
Proof.
  intros imp ws l l' H. unfold parse_coordinates in H.
  destruct (command l) as [c|]; [|congruence].
  destruct (first_is "G" c); [eapply foldM_parse_raw, H|congruence].
Qed.

Lemma motion_step_raw : forall s t s' (l : line A), motion_step s t = Ok (s', l) -> raw l = raw t.
Proof.
  intros s t s' l H. unfold motion_step in H.
  pose proof (split_raw t) as Hs. destruct (split t) as [l0 toks]. cbn in Hs.
  destruct (command l0) as [c|]; [|congruence].
  destruct (update_modes c (is_move l0) s) as [s1|e]; cbn in H; [|discriminate H].
  destruct (parse_coordinates (m_imperial s1) toks l0) as [l1|e] eqn:E; cbn in H; [|discriminate H].
  destruct (update_extrusion l1 (update_position l1 s1)) as [ext s3].
  injection H as _ <-. cbn. rewrite (parse_coordinates_raw _ _ _ _ E). exact Hs.
Qed.

Lemma build_raw : forall light ts (st : mstate A * lstate A * list (line A)) m ls out,
  foldM (build_step light) ts st = Ok (m, ls, out) ->
  map raw out = map raw (snd st) ++ map raw ts.
Proof.
  intros light ts. induction ts as [|t ts IH]; intros [[m0 ls0] out0] m ls out H; cbn in H.
  - injection H as <- <- <-. cbn. now rewrite app_nil_r.
  - destruct (motion_step m0 t) as [[s l]|e] eqn:E; cbn in H; [|discriminate H].
    destruct (match command l with Some _ => layer_body l (m_max s) ls0 | None => Ok ls0 end)
      as [ls1|e]; cbn in H; [|discriminate H].
    rewrite (IH _ _ _ _ H). cbn. rewrite map_app, <- app_assoc. cbn. do 2 f_equal.
    destruct light; [reflexivity|]. eapply motion_step_raw, E.
Qed.

Lemma map_raw_new : forall l, map raw (map (new_line (A:=A)) l) = l.
Proof. intros l. rewrite map_map. cbn. apply map_id. Qed.

Lemma load_lines_text : forall light home data (g : gcode A),
  load_gen light home data = Ok g -> map raw (g_lines g) = program_text data.
Proof.
  intros light home data g H. unfold load_gen in H.
  destruct data as [|s data].
  - injection H as <-. reflexivity.
  - destruct (foldM _ _ _) as [[[m ls] out]|e] eqn:E; cbn in H; [|discriminate H].
    injection H as <-. apply build_raw in E. cbn [snd map app] in E.
    rewrite map_raw_new, clean_lines_text in E.
    unfold finalize. destruct (ls_cur ls); exact E.
Qed.

Lemma consistent_write : forall g : gcode A, consistent g -> write g = map raw (g_lines g).
Proof. intros g (H & _). unfold write. rewrite H. reflexivity. Qed.

Lemma load_write : forall light home data (g : gcode A),
  load_gen light home data = Ok g -> write g = program_text data.
Proof.
  intros light home data g H. rewrite (consistent_write _ (load_consistent _ _ _ _ H)).
  eapply load_lines_text, H.
Qed.

End Load.

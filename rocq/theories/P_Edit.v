(** * P_Edit: lemmas for prepend_to_layer, rewrite_layer and append *)
From Coq Require Import List Ascii String ZArith NArith Bool Lia.
From Verif Require Import PyBase Arith Gcoder SpecLoad P_Load.
Import ListNotations.
Local Open Scope list_scope.

(** ** List facts *)

Lemma insert_at_app : forall T (x : T) a b, insert_at (List.length a) x (a ++ b) = a ++ x :: b.
Proof.
  intros T x a b. unfold insert_at.
  rewrite firstn_app, firstn_all, Nat.sub_diag, skipn_app, skipn_all, Nat.sub_diag.
  cbn. now rewrite app_nil_r.
Qed.

Lemma insert_at_app' : forall T (x : T) a b n, n = List.length a ->
  insert_at n x (a ++ b) = a ++ x :: b.
Proof. intros T x a b n ->. apply insert_at_app. Qed.

Lemma set_nth_app : forall T (x y : T) a b n, n = List.length a ->
  set_nth n x (a ++ y :: b) = a ++ x :: b.
Proof.
  intros T x y a b n ->. induction a as [|z a IH]; cbn; [reflexivity|now rewrite IH].
Qed.

Lemma find_index_app : forall T (p : T -> bool) a x b,
  (forall y, In y a -> p y = false) -> p x = true ->
  find_index p (a ++ x :: b) = Some (List.length a).
Proof.
  intros T p a x b Ha Hx. induction a as [|y a IH]; cbn.
  - now rewrite Hx.
  - rewrite (Ha y (or_introl eq_refl)). rewrite IH; [reflexivity|].
    intros z Hz. apply Ha. now right.
Qed.

Lemma find_index_none : forall T (p : T -> bool) a,
  (forall y, In y a -> p y = false) -> find_index p a = None.
Proof.
  intros T p a Ha. induction a as [|y a IH]; cbn; [reflexivity|].
  rewrite (Ha y (or_introl eq_refl)). rewrite IH; [reflexivity|].
  intros z Hz. apply Ha. now right.
Qed.

Lemma run_end_repeat : forall k n rest i,
  (forall y, hd_error rest = Some y -> y <> k) ->
  run_end k (repeat k n ++ rest) i = i + n.
Proof.
  intros k n rest. induction n as [|n IH]; intros i Hr; cbn.
  - destruct rest as [|y rest]; cbn; [lia|].
    destruct (Nat.eqb_spec y k) as [E|E]; [|lia]. exfalso. apply (Hr y); [reflexivity|exact E].
  - rewrite Nat.eqb_refl, IH by exact Hr. lia.
Qed.

Lemma map_fst_pair : forall T (n : nat) (l : list T), map fst (map (pair n) l) = repeat n (List.length l).
Proof. intros T n l. induction l as [|x l IH]; cbn; [reflexivity|now rewrite IH]. Qed.

Lemma map_snd_pair : forall T U (n : T) (l : list U), map snd (map (pair n) l) = l.
Proof. intros T U n l. induction l as [|x l IH]; cbn; [reflexivity|now rewrite IH]. Qed.

Lemma positions_fst_range : forall T (bs : list (list T)) n p,
  In p (map fst (positions n bs)) -> n <= p < n + List.length bs.
Proof.
  intros T. induction bs as [|b bs IH]; intros n p H; cbn in H; [destruct H|].
  rewrite map_app, in_app_iff in H. destruct H as [H|H].
  - rewrite map_fst_pair in H. apply repeat_spec in H. cbn. lia.
  - apply IH in H. cbn. lia.
Qed.

Lemma hd_error_in : forall T (l : list T) x, hd_error l = Some x -> In x l.
Proof. intros T [|y l] x H; cbn in *; [discriminate H|left; congruence]. Qed.

Lemma positions_split : forall T n (B1 : list (list T)) b B2,
  positions n (B1 ++ b :: B2) =
  positions n B1 ++ map (pair (n + List.length B1)) (seq 0 (List.length b))
  ++ positions (S (n + List.length B1)) B2.
Proof. intros T n B1 b B2. rewrite positions_app. cbn [positions]. reflexivity. Qed.

Lemma map_fst_positions_split : forall T (B1 : list (list T)) b B2,
  map fst (positions 0 (B1 ++ b :: B2)) =
  map fst (positions 0 B1) ++ repeat (List.length B1) (List.length b)
  ++ map fst (positions (S (List.length B1)) B2).
Proof.
  intros. rewrite positions_split, !map_app, map_fst_pair, seq_length. reflexivity.
Qed.

Lemma map_snd_positions_split : forall T (B1 : list (list T)) b B2,
  map snd (positions 0 (B1 ++ b :: B2)) =
  map snd (positions 0 B1) ++ seq 0 (List.length b)
  ++ map snd (positions (S (List.length B1)) B2).
Proof.
  intros. rewrite positions_split, !map_app, map_snd_pair. reflexivity.
Qed.

Section Edit.
Context {A : arith}.

Notation ins := (map (inserted_line (A:=A))).

Lemma prepend_loop_spec : forall rcmds i k start endi endl (lay P Q : list (line A)) L1 L2 K1 K2,
  List.length P = start -> List.length L1 = endi + i -> List.length K1 = endi + i ->
  prepend_loop rcmds i k start endi endl lay (P ++ Q) (L1 ++ L2) (K1 ++ K2) =
  (ins (rev rcmds) ++ lay, P ++ ins (rev rcmds) ++ Q,
   L1 ++ repeat k (List.length rcmds) ++ L2,
   K1 ++ seq (endl + i + 1) (List.length rcmds) ++ K2).
Proof.
  induction rcmds as [|c rcmds IH]; intros i k start endi endl lay P Q L1 L2 K1 K2 HP HL HK;
    cbn [prepend_loop].
  - reflexivity.
  - rewrite (insert_at_app' _ _ P Q start) by (symmetry; exact HP).
    rewrite (insert_at_app' _ _ L1 L2) by (symmetry; exact HL).
    rewrite (insert_at_app' _ _ K1 K2) by (symmetry; exact HK).
    specialize (IH (S i) k start endi endl (inserted_line c :: lay) P (inserted_line c :: Q)
                   (L1 ++ [k]) L2 (K1 ++ [endl + i + 1]) K2 HP).
    rewrite <- !app_assoc in IH. cbn [app] in IH.
    rewrite IH by (rewrite app_length; cbn; lia).
    cbn [rev List.length repeat seq]. rewrite map_app. cbn [map].
    rewrite <- !app_assoc. cbn [app].
    replace (endl + S i + 1) with (S (endl + i + 1)) by lia. reflexivity.
Qed.

(** Shape of a consistent program around a layer. *)
Lemma nth_layer_split : forall (g : gcode A) k y,
  nth_error (g_layers g) k = Some y ->
  exists Y1 Y2, g_layers g = Y1 ++ y :: Y2 /\ List.length Y1 = k.
Proof. intros g k y H. apply nth_error_split in H. exact H. Qed.

Lemma find_layer_start : forall (B1 : list (list (line A))) b B2 k,
  List.length B1 = k -> b <> [] ->
  find_index (Nat.eqb k) (map fst (positions 0 (B1 ++ b :: B2))) =
  Some (List.length (List.concat B1)).
Proof.
  intros B1 b B2 k Hk Hb. rewrite map_fst_positions_split, Hk.
  destruct b as [|l b]; [congruence|]. cbn [List.length repeat app].
  rewrite find_index_app.
  - now rewrite map_length, positions_length.
  - intros p Hp. apply positions_fst_range in Hp. apply Nat.eqb_neq. lia.
  - apply Nat.eqb_refl.
Qed.

Lemma find_layer_none : forall (B1 : list (list (line A))) B2 k,
  List.length B1 = k ->
  find_index (Nat.eqb k) (map fst (positions 0 (B1 ++ [] :: B2))) = None.
Proof.
  intros B1 B2 k Hk. rewrite map_fst_positions_split, Hk. cbn [List.length repeat app].
  apply find_index_none. intros p Hp. apply in_app_iff in Hp. apply Nat.eqb_neq.
  destruct Hp as [Hp|Hp]; apply positions_fst_range in Hp; lia.
Qed.

Lemma skipn_positions : forall (B1 : list (list (line A))) b B2 k,
  List.length B1 = k ->
  skipn (List.length (List.concat B1)) (map fst (positions 0 (B1 ++ b :: B2))) =
  repeat k (List.length b) ++ map fst (positions (S k) B2).
Proof.
  intros B1 b B2 k Hk. rewrite map_fst_positions_split, Hk, skipn_app.
  rewrite skipn_all2 by (rewrite map_length, positions_length; lia).
  rewrite map_length, positions_length, Nat.sub_diag. reflexivity.
Qed.

Lemma layer_end : forall (B1 : list (list (line A))) b B2 k,
  List.length B1 = k ->
  run_end k (skipn (List.length (List.concat B1)) (map fst (positions 0 (B1 ++ b :: B2))))
          (List.length (List.concat B1)) =
  List.length (List.concat B1) + List.length b.
Proof.
  intros B1 b B2 k Hk. rewrite (skipn_positions _ _ _ k Hk). apply run_end_repeat.
  intros p Hp. apply hd_error_in, positions_fst_range in Hp. lia.
Qed.

Lemma nth_snd_positions : forall (B1 : list (list (line A))) b B2,
  b <> [] ->
  nth_error (map snd (positions 0 (B1 ++ b :: B2)))
            (List.length (List.concat B1) + List.length b - 1) =
  Some (List.length b - 1).
Proof.
  intros B1 b B2 Hb. rewrite map_snd_positions_split.
  assert (Hl : 0 < List.length b) by (destruct b; [congruence|cbn; lia]).
  rewrite nth_error_app2 by (rewrite map_length, positions_length; lia).
  rewrite map_length, positions_length.
  rewrite nth_error_app1 by (rewrite seq_length; lia).
  rewrite (nth_error_nth' _ 0) by (rewrite seq_length; lia).
  rewrite seq_nth by lia. f_equal. lia.
Qed.

Lemma firstn_app_len : forall T (a b : list T) n, n = List.length a -> firstn n (a ++ b) = a.
Proof. intros T a b n ->. rewrite firstn_app, firstn_all, Nat.sub_diag. cbn. apply app_nil_r. Qed.

Lemma skipn_app_len : forall T (a b : list T) n, n = List.length a -> skipn n (a ++ b) = b.
Proof. intros T a b n ->. rewrite skipn_app, skipn_all, Nat.sub_diag. reflexivity. Qed.

(** ** prepend_to_layer *)

Definition with_layer (k : nat) (ls : list (line A)) (y : layer A) (g : gcode A) : list (layer A) :=
  set_nth k (set_ly_lines ls y) (g_layers g).

Lemma blocks_with_layer : forall (g : gcode A) Y1 y Y2 ls,
  g_layers g = Y1 ++ y :: Y2 ->
  map ly_lines (with_layer (List.length Y1) ls y g) = map ly_lines Y1 ++ ls :: map ly_lines Y2.
Proof.
  intros g Y1 y Y2 ls H. unfold with_layer. rewrite H, (set_nth_app _ _ _ _ _ _ eq_refl), map_app.
  reflexivity.
Qed.

Lemma prepend_eq : forall cmds k (g : gcode A) y,
  consistent g -> nth_error (g_layers g) k = Some y -> ly_lines y <> [] ->
  exists g', prepend_to_layer cmds k g = Ok (g', program_text cmds) /\
    g_layers g' = with_layer k (ins (program_text cmds) ++ ly_lines y) y g /\
    consistent g' /\
    exists ls li ki, g' = set_lines_layers ls (g_layers g') li ki g.
Proof.
  intros cmds k g y (H1 & H2 & H3) Hk Hne.
  destruct (nth_layer_split _ _ _ Hk) as (Y1 & Y2 & HY & HYk).
  assert (HB : blocks g = map ly_lines Y1 ++ ly_lines y :: map ly_lines Y2)
    by (unfold blocks; rewrite HY, map_app; reflexivity).
  set (B1 := map ly_lines Y1) in *. set (B2 := map ly_lines Y2) in *.
  assert (HB1 : List.length B1 = k) by (unfold B1; rewrite map_length; exact HYk).
  assert (Hrc : rev (reversed_commands cmds) = program_text cmds).
  { unfold reversed_commands. rewrite clean_lines_text, program_text_rev, rev_involutive. reflexivity. }
  unfold prepend_to_layer. rewrite Hk.
  rewrite H2, HB, (find_layer_start _ _ _ k HB1 Hne), (layer_end _ _ _ k HB1).
  rewrite H3, HB, (nth_snd_positions _ _ _ Hne).
  rewrite H1, HB. rewrite map_fst_positions_split, map_snd_positions_split.
  rewrite concat_app. cbn [List.concat].
  rewrite (app_assoc (map fst _)), (app_assoc (map snd _)).
  rewrite prepend_loop_spec.
  2: reflexivity.
  2: rewrite app_length, map_length, positions_length, repeat_length; lia.
  2: rewrite app_length, map_length, positions_length, seq_length; lia.
  rewrite Hrc. eexists. split; [reflexivity|]. cbn [g_layers set_lines_layers].
  split; [reflexivity|]. split.
  - unfold consistent, tables_ok, blocks. cbn [g_layers g_lines g_lidx g_kidx set_lines_layers].
    fold (with_layer k (ins (program_text cmds) ++ ly_lines y) y g). rewrite <- HYk.
    rewrite (blocks_with_layer g Y1 y Y2 _ HY). fold B1 B2.
    rewrite map_fst_positions_split, map_snd_positions_split, HYk, HB1.
    assert (Hlen : List.length (reversed_commands cmds) = List.length (program_text cmds))
      by (rewrite <- Hrc, rev_length; reflexivity).
    rewrite Hlen, app_length, map_length.
    repeat split.
    + rewrite concat_app. cbn. now rewrite <- app_assoc.
    + rewrite Nat.add_comm, repeat_app, <- !app_assoc. reflexivity.
    + rewrite (Nat.add_comm (List.length (program_text cmds))), seq_app, <- !app_assoc.
      do 3 f_equal.
      destruct (ly_lines y) as [|l b]; [congruence|]. cbn [List.length]. f_equal. lia.
  - do 3 eexists. reflexivity.
Qed.

Lemma prepend_empty : forall cmds k (g : gcode A) y,
  consistent g -> nth_error (g_layers g) k = Some y -> ly_lines y = [] ->
  prepend_to_layer cmds k g = Err ValueError /\ rewrite_layer cmds k g = Err ValueError.
Proof.
  intros cmds k g y (H1 & H2 & H3) Hk Hne.
  destruct (nth_layer_split _ _ _ Hk) as (Y1 & Y2 & HY & HYk).
  assert (HB : blocks g = map ly_lines Y1 ++ [] :: map ly_lines Y2)
    by (unfold blocks; rewrite HY, map_app; cbn; rewrite Hne; reflexivity).
  unfold prepend_to_layer, rewrite_layer. rewrite Hk.
  rewrite H2, HB, (find_layer_none _ _ k) by (rewrite map_length; exact HYk).
  split; reflexivity.
Qed.

Lemma prepend_missing : forall cmds k (g : gcode A),
  nth_error (g_layers g) k = None ->
  prepend_to_layer cmds k g = Err IndexError /\ rewrite_layer cmds k g = Err IndexError.
Proof. intros cmds k g Hk. unfold prepend_to_layer, rewrite_layer. rewrite Hk. split; reflexivity. Qed.

(** ** rewrite_layer *)

Lemma fold_insert_lines : forall rcmds (P Q : list (line A)) n, n = List.length P ->
  fold_left (fun acc c => insert_at n (inserted_line c) acc) rcmds (P ++ Q) =
  P ++ ins (rev rcmds) ++ Q.
Proof.
  induction rcmds as [|c rcmds IH]; intros P Q n Hn; cbn [fold_left rev map]; [reflexivity|].
  rewrite insert_at_app' by exact Hn. rewrite IH by exact Hn.
  rewrite map_app, <- app_assoc. reflexivity.
Qed.

Lemma fold_insert_lay : forall rcmds (Q : list (line A)),
  fold_left (fun acc c => inserted_line c :: acc) rcmds Q = ins (rev rcmds) ++ Q.
Proof.
  induction rcmds as [|c rcmds IH]; intros Q; cbn [fold_left rev map]; [reflexivity|].
  rewrite IH, map_app, <- app_assoc. reflexivity.
Qed.

Lemma rewrite_eq : forall cmds k (g : gcode A) y,
  consistent g -> nth_error (g_layers g) k = Some y -> ly_lines y <> [] ->
  exists g', rewrite_layer cmds k g = Ok (g', program_text cmds) /\
    g_layers g' = with_layer k (ins (program_text cmds)) y g /\
    consistent g' /\
    exists ls li ki, g' = set_lines_layers ls (g_layers g') li ki g.
Proof.
  intros cmds k g y (H1 & H2 & H3) Hk Hne.
  destruct (nth_layer_split _ _ _ Hk) as (Y1 & Y2 & HY & HYk).
  assert (HB : blocks g = map ly_lines Y1 ++ ly_lines y :: map ly_lines Y2)
    by (unfold blocks; rewrite HY, map_app; reflexivity).
  set (B1 := map ly_lines Y1) in *. set (B2 := map ly_lines Y2) in *.
  assert (HB1 : List.length B1 = k) by (unfold B1; rewrite map_length; exact HYk).
  assert (Hrc : rev (reversed_commands cmds) = program_text cmds).
  { unfold reversed_commands. rewrite clean_lines_text, program_text_rev, rev_involutive. reflexivity. }
  assert (Hlen : List.length (reversed_commands cmds) = List.length (program_text cmds))
    by (rewrite <- Hrc, rev_length; reflexivity).
  unfold rewrite_layer. rewrite Hk.
  rewrite H2, HB, (find_layer_start _ _ _ k HB1 Hne), (layer_end _ _ _ k HB1).
  rewrite H3, HB. rewrite H1, HB. rewrite map_fst_positions_split, map_snd_positions_split.
  rewrite concat_app. cbn [List.concat].
  rewrite !firstn_app_len by (rewrite ?map_length, ?positions_length; reflexivity).
  rewrite !(app_assoc (map fst _) (repeat _ (List.length (ly_lines y)))),
          !(app_assoc (map snd _) (seq _ _)), (app_assoc (List.concat B1) (ly_lines y)).
  rewrite !skipn_app_len
    by (rewrite ?app_length, ?map_length, ?positions_length, ?repeat_length, ?seq_length; reflexivity).
  rewrite fold_insert_lines by reflexivity. rewrite fold_insert_lay, app_nil_r.
  rewrite Hrc, Hlen. eexists. split; [reflexivity|]. cbn [g_layers set_lines_layers].
  split; [reflexivity|]. split.
  - unfold consistent, tables_ok, blocks. cbn [g_layers g_lines g_lidx g_kidx set_lines_layers].
    fold (with_layer k (ins (program_text cmds)) y g). rewrite <- HYk.
    rewrite (blocks_with_layer g Y1 y Y2 _ HY). fold B1 B2.
    rewrite map_fst_positions_split, map_snd_positions_split, HYk, HB1, map_length.
    split; [|split].
    + rewrite concat_app. reflexivity.
    + rewrite <- ?app_assoc. reflexivity.
    + rewrite <- ?app_assoc. reflexivity.
  - do 3 eexists. reflexivity.
Qed.

Lemma edited_consistent : forall g : gcode A, edited g -> consistent g.
Proof.
  intros g H. induction H as [light home data g H|cmds k g g' r Hg IH H|cmds k g g' r Hg IH H].
  - eapply load_consistent, H.
  - destruct (nth_error (g_layers g) k) as [y|] eqn:Hk.
    + destruct (ly_lines y) as [|l b] eqn:Hy.
      * destruct (prepend_empty cmds k g y IH Hk Hy) as [E _]. congruence.
      * destruct (prepend_eq cmds k g y IH Hk) as (g2 & E & _ & Hc & _); [congruence|].
        congruence.
    + destruct (prepend_missing cmds k g Hk) as [E _]. congruence.
  - destruct (nth_error (g_layers g) k) as [y|] eqn:Hk.
    + destruct (ly_lines y) as [|l b] eqn:Hy.
      * destruct (prepend_empty cmds k g y IH Hk Hy) as [_ E]. congruence.
      * destruct (rewrite_eq cmds k g y IH Hk) as (g2 & E & _ & Hc & _); [congruence|].
        congruence.
    + destruct (prepend_missing cmds k g Hk) as [_ E]. congruence.
Qed.

(** ** Frame *)

Lemma nth_error_set_nth_eq : forall T (x : T) l k y,
  nth_error l k = Some y -> nth_error (set_nth k x l) k = Some x.
Proof.
  induction l as [|z l IH]; intros [|k] y H; cbn in *; try discriminate H; [reflexivity|].
  eapply IH, H.
Qed.

Lemma nth_error_set_nth_neq : forall T (x : T) l k j,
  j <> k -> nth_error (set_nth k x l) j = nth_error l j.
Proof.
  induction l as [|z l IH]; intros [|k] [|j] H; cbn; try reflexivity; [congruence|].
  apply IH. congruence.
Qed.

Lemma set_nth_length : forall T (x : T) l k, List.length (set_nth k x l) = List.length l.
Proof. induction l as [|z l IH]; intros [|k]; cbn; try reflexivity. now rewrite IH. Qed.

Lemma with_layer_frame : forall k ls y (g g' : gcode A) l li ki,
  nth_error (g_layers g) k = Some y ->
  g_layers g' = with_layer k ls y g -> g' = set_lines_layers l (g_layers g') li ki g ->
  same_but_layer k g g'.
Proof.
  intros k ls y g g' l li ki Hk Hl Hg. unfold same_but_layer. rewrite Hl. unfold with_layer.
  split; [apply set_nth_length|]. split; [intros j Hj; apply nth_error_set_nth_neq; exact Hj|].
  split.
  - intros y0 Hy0. assert (y0 = y) by congruence. subst y0.
    exists (set_ly_lines ls y). split; [eapply nth_error_set_nth_eq, Hk|split; reflexivity].
  - rewrite Hg. cbn. repeat split.
Qed.

Lemma inserted_line_plain : forall s, plain_command (A:=A) s (inserted_line s).
Proof.
  intros s. unfold plain_command, inserted_line, raw_to_line. cbn. repeat split.
  - rewrite split_raw. reflexivity.
  - unfold split. cbv zeta.
    match goal with |- context [match ?m with [] => _ | _ => _ end] =>
      match m with context [findall] => destruct m as [|[c v] t] end end; reflexivity.
  - unfold split. cbv zeta.
    match goal with |- context [match ?m with [] => _ | _ => _ end] =>
      match m with context [findall] => destruct m as [|[c v] t] end end; reflexivity.
Qed.

Lemma ins_plain : forall cmds, Forall2 plain_command cmds (ins cmds).
Proof. induction cmds as [|c cmds IH]; cbn; constructor; [apply inserted_line_plain|exact IH]. Qed.

Lemma prepend_property : forall (g : gcode A) cmds k y,
  edited g -> nth_error (g_layers g) k = Some y -> ly_lines y <> [] ->
  exists g' y' news, prepend_to_layer cmds k g = Ok (g', program_text cmds) /\
    nth_error (g_layers g') k = Some y' /\ ly_lines y' = news ++ ly_lines y /\
    Forall2 plain_command (program_text cmds) news /\
    same_but_layer k g g' /\ g_lines g' = List.concat (blocks g') /\ idxs_right g'.
Proof.
  intros g cmds k y Hg Hk Hne. apply edited_consistent in Hg.
  destruct (prepend_eq cmds k g y Hg Hk Hne) as (g' & E & Hl & Hc & ls & li & ki & Hf).
  exists g', (set_ly_lines (ins (program_text cmds) ++ ly_lines y) y), (ins (program_text cmds)).
  split; [exact E|]. split; [rewrite Hl; eapply nth_error_set_nth_eq, Hk|].
  split; [reflexivity|]. split; [apply ins_plain|].
  split; [eapply with_layer_frame; eassumption|].
  split; [apply Hc|apply consistent_idxs_right; exact Hc].
Qed.

Lemma rewrite_property : forall (g : gcode A) cmds k y,
  edited g -> nth_error (g_layers g) k = Some y -> ly_lines y <> [] ->
  exists g' y' news, rewrite_layer cmds k g = Ok (g', program_text cmds) /\
    nth_error (g_layers g') k = Some y' /\ ly_lines y' = news /\
    Forall2 plain_command (program_text cmds) news /\
    same_but_layer k g g' /\ g_lines g' = List.concat (blocks g') /\ idxs_right g'.
Proof.
  intros g cmds k y Hg Hk Hne. apply edited_consistent in Hg.
  destruct (rewrite_eq cmds k g y Hg Hk Hne) as (g' & E & Hl & Hc & ls & li & ki & Hf).
  exists g', (set_ly_lines (ins (program_text cmds)) y), (ins (program_text cmds)).
  split; [exact E|]. split; [rewrite Hl; eapply nth_error_set_nth_eq, Hk|].
  split; [reflexivity|]. split; [apply ins_plain|].
  split; [eapply with_layer_frame; eassumption|].
  split; [apply Hc|apply consistent_idxs_right; exact Hc].
Qed.

End Edit.

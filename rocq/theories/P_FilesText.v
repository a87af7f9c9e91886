(** * P_FilesText: reading back what was written *)
From Coq Require Import List Ascii String ZArith Bool Lia.
From Verif Require Import PyBase Arith Gcoder Filters Visit Tempcal Arc Stretch Files SpecFiles SpecLoad
  P_Load P_Visit P_Files.
Import ListNotations.
Local Open Scope list_scope.

Definition LFs : string := String LF EmptyString.

Lemma rstrip_blank : forall b, blank b = true -> rstrip b = EmptyString.
Proof.
  induction b as [|c t IH]; intros H; [reflexivity|]. cbn in H. apply andb_prop in H as [H1 H2].
  cbn [rstrip]. unfold blank in *. rewrite IH by exact H2. now rewrite H1.
Qed.

Lemma rstrip_end : forall u b, blank b = true -> rstrip (u ++ b) = rstrip u.
Proof.
  induction u as [|c t IH]; intros b H; [now apply rstrip_blank|]. cbn. now rewrite IH.
Qed.

Lemma rstrip_twice : forall s, rstrip (rstrip s) = rstrip s.
Proof.
  intros s. destruct (rstrip_spec s) as (b & H1 & H2 & _).
  rewrite H1 at 2. symmetry. now apply rstrip_end.
Qed.

Lemma lstrip_app : forall u x, lstrip (u ++ x) = if blank u then lstrip x else (lstrip u ++ x)%string.
Proof.
  induction u as [|c t IH]; intros x; [reflexivity|]. cbn. unfold blank in *. destruct (is_space c); cbn; [apply IH|reflexivity].
Qed.

Lemma strip_end : forall s, strip (s ++ LFs) = strip s.
Proof.
  intros s. unfold strip. rewrite lstrip_app. destruct (blank s) eqn:B.
  - rewrite (blank_lstrip s B). reflexivity.
  - apply rstrip_end. reflexivity.
Qed.

Lemma strip_twice : forall s, strip (strip s) = strip s.
Proof.
  intros s. destruct (strip_spec s) as (a & b & _ & _ & _ & H & _).
  assert (lstrip (strip s) = strip s) as E.
  { destruct (strip s) as [|c t]; [reflexivity|]. cbn. now rewrite (H c t eq_refl). }
  unfold strip at 1. rewrite E. unfold strip. apply rstrip_twice.
Qed.

(** ** Characters *)
Lemma has_char_cons : forall c d t, has_char c (String d t) <-> c = d \/ has_char c t.
Proof.
  intros c d t. split.
  - intros [[|x a] [b E]]; cbn in E; injection E as E1 E2; [left; congruence|].
    right. exists a, b. congruence.
  - intros [->|[a [b E]]]; [exists EmptyString, t; reflexivity|].
    exists (String d a), b. cbn. now rewrite E.
Qed.

Lemma has_char_app : forall c a b, has_char c (a ++ b) <-> has_char c a \/ has_char c b.
Proof.
  intros c a b. induction a as [|x a IH]; cbn.
  - split; [auto|]. intros [[[|] [v E]]|H]; [discriminate E|discriminate E|assumption].
  - rewrite !has_char_cons, IH. tauto.
Qed.

Lemma has_char_nil : forall c, ~ has_char c EmptyString.
Proof. intros c [[|x a] [b E]]; discriminate E. Qed.

Definition one_line (s : string) : Prop := ~ has_char LF s /\ ~ has_char CR s.

Lemma strip_one_line : forall s, one_line s -> one_line (strip s).
Proof.
  intros s [H1 H2]. destruct (strip_spec s) as (a & b & E & _).
  split; intros C; [apply H1|apply H2]; rewrite E, !has_char_app; auto.
Qed.

Lemma newlines_no_cr : forall s, ~ has_char CR (newlines s).
Proof.
  intros s. remember (String.length s) as n eqn:E. assert (L : String.length s <= n) by lia. clear E.
  revert s L. induction n as [|n IH]; intros s L.
  - destruct s; cbn in L; [apply has_char_nil|lia].
  - destruct s as [|c t]; [apply has_char_nil|]. cbn [newlines]. cbn in L.
    destruct (Ascii.eqb c CR) eqn:Ec.
    + destruct t as [|d u].
      * rewrite has_char_cons. intros [H|H]; [discriminate H|now apply has_char_nil in H].
      * cbn in L. destruct (Ascii.eqb d LF); rewrite has_char_cons; intros [H|H]; try discriminate H; revert H; apply IH; cbn; lia.
    + rewrite has_char_cons. intros [H|H]; [|revert H; apply IH; lia].
      subst c. rewrite Ascii.eqb_refl in Ec. discriminate.
Qed.

(** every line read is one line, with or without its end *)
Lemma split_lines_shape : forall s l, ~ has_char CR s -> In l (split_lines s) ->
  exists b, one_line b /\ (l = b \/ l = (b ++ LFs)%string).
Proof.
  induction s as [|c t IH]; intros l H Hl; [destruct Hl|].
  assert (Ht : ~ has_char CR t) by (intros C; apply H; rewrite has_char_cons; auto).
  assert (Hc : c <> CR) by (intros ->; apply H; rewrite has_char_cons; auto).
  cbn [split_lines] in Hl. destruct (Ascii.eqb c LF) eqn:E.
  - destruct Hl as [<-|Hl]; [|now apply IH].
    exists EmptyString. split; [split; apply has_char_nil|]. right. reflexivity.
  - apply Ascii.eqb_neq in E. destruct (split_lines t) as [|l1 ls] eqn:S.
    + destruct Hl as [<-|[]]. exists (String c EmptyString). split; [|now left].
      split; rewrite has_char_cons; intros [C|C]; try congruence; now apply has_char_nil in C.
    + destruct Hl as [<-|Hl]; [|apply IH; [exact Ht|now right]].
      destruct (IH l1 Ht (or_introl eq_refl)) as [b [[B1 B2] D]].
      exists (String c b). split.
      * split; rewrite has_char_cons; intros [C|C]; congruence || auto.
      * destruct D as [->| ->]; auto.
Qed.

Lemma program_text_one_line : forall text l, In l (program_text (read_lines text)) -> one_line l.
Proof.
  intros text l H. unfold program_text in H. apply in_map_iff in H as [x [<- H]].
  apply filter_In in H as [H _].
  destruct (split_lines_shape _ x (newlines_no_cr text) H) as [b [B [->| ->]]].
  - now apply strip_one_line.
  - rewrite strip_end. now apply strip_one_line.
Qed.

Lemma split_line : forall l t, ~ has_char LF l -> split_lines (l ++ String LF t) = (l ++ LFs)%string :: split_lines t.
Proof.
  induction l as [|c l IH]; intros t H; cbn [String.append split_lines].
  - reflexivity.
  - assert (E : Ascii.eqb c LF = false).
    { apply Ascii.eqb_neq. intros ->. apply H. rewrite has_char_cons. auto. }
    rewrite E. rewrite IH; [reflexivity|]. intros C. apply H. rewrite has_char_cons. auto.
Qed.

Lemma lines_text_no_cr : forall ls, Forall one_line ls -> ~ has_char CR (lines_text ls).
Proof.
  induction 1 as [|l t [H1 H2] _ IH]; [apply has_char_nil|]. cbn [lines_text].
  rewrite has_char_app, has_char_cons. intros [C|[C|C]]; [auto|discriminate C|auto].
Qed.

Lemma read_written : forall ls, Forall one_line ls ->
  read_lines (lines_text ls) = map (fun l => l ++ LFs)%string ls.
Proof.
  intros ls H. unfold read_lines. rewrite newlines_none by now apply lines_text_no_cr.
  induction H as [|l t [H1 H2] _ IH]; [reflexivity|]. cbn [lines_text map]. rewrite split_line by assumption. now rewrite IH.
Qed.

Lemma blank_end : forall l, blank (l ++ LFs) = blank l.
Proof. intros. rewrite blank_app. now rewrite andb_true_r. Qed.

Lemma program_text_again : forall data,
  program_text (map (fun l => l ++ LFs)%string (program_text data)) = program_text data.
Proof.
  intros data. unfold program_text. induction data as [|s data IH]; [reflexivity|].
  cbn [filter]. destruct (blank s) eqn:B; cbn [negb]; [exact IH|].
  cbn [map filter]. rewrite blank_end. rewrite <- is_empty_strip, strip_twice, is_empty_strip, B. cbn [negb map].
  rewrite strip_end, strip_twice. f_equal. exact IH.
Qed.

Section Runs.
Context {A : arith}.
Variable profile : string -> res (option string).
Variable fuel : nat.
Notation run := (run (A:=A) profile fuel).
Notation process := (process (A:=A) profile fuel).

Lemma load_program_text : forall d d', program_text d = program_text d' -> d <> [] -> d' <> [] ->
  load_gen (A:=A) false home0 d = load_gen false home0 d'.
Proof.
  intros d d' H N N'. rewrite <- !clean_lines_text in H.
  destruct d as [|x d]; [now contradiction N|]. destruct d' as [|x' d']; [now contradiction N'|].
  unfold load_gen. now rewrite H.
Qed.

Lemma process_program_text : forall c d d', program_text d = program_text d' -> program_text d <> [] ->
  process c d = process c d'.
Proof.
  intros c d d' H N.
  assert (E : load_gen (A:=A) false home0 d = load_gen false home0 d').
  { apply load_program_text; [exact H| |].
    - intros ->. now apply N.
    - intros ->. rewrite H in N. now apply N. }
  destruct c; cbn [Files.process]; unfold gcode_mod, tempcal_main, stretch_result, optimize_arcs_main; now rewrite E.
Qed.

(** ** gcode_mod without options *)
Definition no_change : command (A:=A) := Mod (ModOptions None None false None).

Lemma copy_text : forall p q stdin f text, f p = Some text -> p <> q ->
  e_end (run no_change (Some p) (Some q) stdin f) = Finished ->
  after (run no_change (Some p) (Some q) stdin f) f q = Some (lines_text (program_text (read_lines text))).
Proof.
  intros p q stdin f text H Hpq. destruct (process no_change (read_lines text)) as [[out printed] e] eqn:P.
  rewrite (run_files profile fuel no_change p q stdin f text out printed e) by auto.
  cbn [e_end]. destruct e; [discriminate|]. intros _.
  unfold after. cbn [e_ops]. rewrite rewrite_end.
  cbn [Files.process no_change] in P. unfold of_res in P.
  destruct (gcode_mod (ModOptions None None false None) (read_lines text)) as [out'|] eqn:M; [|discriminate P].
  apply mod_identity in M. congruence.
Qed.

Lemma copy_again : forall p q stdin f text s, f p = Some text -> p <> q ->
  e_end (run no_change (Some p) (Some q) stdin f) = Finished ->
  forall f2 q2 p2, f2 = after (run no_change (Some p) (Some q) stdin f) f -> p2 = q -> p2 <> q2 ->
    e_end (run no_change (Some p2) (Some q2) s f2) = Finished /\
    after (run no_change (Some p2) (Some q2) s f2) f2 q2 = f2 q.
Proof.
  intros p q stdin f text s H Hpq He f2 q2 p2 Ef -> Hq.
  pose proof (copy_text p q stdin f text H Hpq He) as C. rewrite <- Ef in C.
  set (ls := program_text (read_lines text)) in *.
  assert (F : Forall one_line ls) by (apply Forall_forall; intros l; apply program_text_one_line).
  destruct (process no_change (read_lines text)) as [[out printed] e] eqn:P.
  rewrite (run_files profile fuel no_change p q stdin f text out printed e) in He by auto.
  cbn [e_end] in He. destruct e; [discriminate|].
  assert (Q : exists pr, process no_change (read_lines (lines_text ls)) = (ls, pr, None)).
  { rewrite read_written by exact F. destruct (list_eq_dec string_dec ls []) as [N|N].
    - rewrite N. cbn [map]. exists []. cbn [Files.process no_change]. now rewrite mod_nothing.
    - rewrite <- (process_program_text no_change (read_lines text)).
      + rewrite P. exists printed. f_equal. f_equal. cbn [Files.process no_change] in P. unfold of_res in P.
        destruct (gcode_mod (ModOptions None None false None) (read_lines text)) as [out'|] eqn:M; [|discriminate P].
        apply mod_identity in M. fold ls in M. congruence.
      + fold ls. symmetry. unfold ls. apply program_text_again.
      + exact N. }
  destruct Q as [pr Q].
  rewrite (run_files profile fuel no_change q q2 s f2 (lines_text ls) ls pr None) by auto.
  split; [reflexivity|]. unfold after. cbn [e_ops]. now rewrite rewrite_end, C.
Qed.

(** any command gives the same on the copy *)
Lemma copy_then : forall c p q r stdin s f text, f p = Some text -> p <> q -> p <> r -> q <> r ->
  program_text (read_lines text) <> [] -> c <> Arcs true ->
  e_end (run no_change (Some p) (Some q) stdin f) = Finished ->
  forall f2, f2 = after (run no_change (Some p) (Some q) stdin f) f ->
    run c (Some q) (Some r) s f2 = run c (Some p) (Some r) s f.
Proof.
  intros c p q r stdin s f text H Hpq Hpr Hqr N Hc He f2 Ef.
  pose proof (copy_text p q stdin f text H Hpq He) as C. rewrite <- Ef in C.
  set (ls := program_text (read_lines text)) in *.
  assert (F : Forall one_line ls) by (apply Forall_forall; intros l; apply program_text_one_line).
  destruct (process c (read_lines text)) as [[out printed] e] eqn:P.
  rewrite (run_files profile fuel c p r s f text out printed e) by auto using not_inplace.
  rewrite (run_files profile fuel c q r s f2 (lines_text ls) out printed e); auto using not_inplace.
  rewrite read_written by exact F. rewrite <- P. symmetry. apply process_program_text.
  - fold ls. symmetry. unfold ls. apply program_text_again.
  - exact N.
Qed.

End Runs.

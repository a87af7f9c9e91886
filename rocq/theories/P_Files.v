(** * P_Files: lemmas about files *)
From Coq Require Import List Ascii String ZArith Bool Lia.
From Verif Require Import PyBase Arith Gcoder Filters Visit Tempcal Arc Stretch Files SpecFiles SpecLoad P_Visit.
Import ListNotations.
Local Open Scope list_scope.

Lemma set_same : forall p s f, set_file p s f p = Some s.
Proof. intros. unfold set_file. now rewrite String.eqb_refl. Qed.
Lemma set_other : forall p q s f, p <> q -> set_file p s f q = f q.
Proof. intros p q s f H. unfold set_file. apply String.eqb_neq in H. now rewrite H. Qed.

Definition touches (o : op) : path := match o with Truncate p => p | Put p _ => p end.

Lemma perform_other : forall o f q, touches o <> q -> perform f o q = f q.
Proof. intros [p|p c] f q H; cbn in *; now apply set_other. Qed.

Lemma perform_all_other : forall ops f q, Forall (fun o => touches o <> q) ops -> perform_all ops f q = f q.
Proof.
  induction ops as [|o t IH]; intros f q H; [reflexivity|]. inversion H; subst.
  unfold perform_all in *. cbn [fold_left]. rewrite IH by assumption. now apply perform_other.
Qed.

Lemma perform_app : forall a b f, perform_all (a ++ b) f = perform_all b (perform_all a f).
Proof. intros. unfold perform_all. apply fold_left_app. Qed.

Lemma append_assoc : forall a b c : string, ((a ++ b) ++ c = a ++ (b ++ c))%string.
Proof. induction a as [|x a IH]; intros; cbn; [reflexivity|]. now rewrite IH. Qed.
Lemma append_nil : forall a : string, (a ++ "" = a)%string.
Proof. induction a as [|x a IH]; cbn; [reflexivity|]. now rewrite IH. Qed.

Lemma put_text_end : forall s p f, f p <> None ->
  perform_all (put_text p s) f p = Some (text_in p f ++ s)%string.
Proof.
  induction s as [|c t IH]; intros p f H.
  - cbn. unfold text_in. destruct (f p) as [x|]; [now rewrite append_nil|contradiction].
  - cbn [put_text]. unfold perform_all. cbn [fold_left]. fold (perform_all (put_text p t) (perform f (Put p c))).
    rewrite IH.
    + unfold text_in at 1. cbn. rewrite set_same. rewrite append_assoc. reflexivity.
    + cbn. rewrite set_same. discriminate.
Qed.

Lemma rewrite_end : forall p s f, perform_all (Truncate p :: put_text p s) f p = Some s.
Proof.
  intros. unfold perform_all. cbn [fold_left]. fold (perform_all (put_text p s) (perform f (Truncate p))).
  rewrite put_text_end; cbn; unfold text_in; now rewrite set_same.
Qed.

Lemma put_text_touches : forall p s q, p <> q -> Forall (fun o => touches o <> q) (put_text p s).
Proof. induction s as [|c t IH]; intros q H; cbn; constructor; auto. Qed.

Lemma rewrite_touches : forall p s q, p <> q -> Forall (fun o => touches o <> q) (Truncate p :: put_text p s).
Proof. intros. constructor; [assumption|now apply put_text_touches]. Qed.

Lemma Forall_firstn : forall T (P : T -> Prop) k l, Forall P l -> Forall P (firstn k l).
Proof. intros T P k. induction k as [|k IH]; intros l H; cbn; [constructor|]. destruct H; constructor; auto. Qed.

(** ** Reading lines *)
Lemma newlines_dos : forall s, ~ has_char CR s -> newlines (dos s) = newlines s.
Proof.
  induction s as [|c t IH]; intros H; [reflexivity|].
  assert (Ht : ~ has_char CR t). { intros [a [b E]]. apply H. exists (String c a), b. now rewrite E. }
  assert (Hc : Ascii.eqb c CR = false).
  { apply Ascii.eqb_neq. intros E. apply H. exists EmptyString, t. now rewrite E. }
  cbn [dos]. destruct (Ascii.eqb c LF) eqn:E.
  - apply Ascii.eqb_eq in E. subst c. change (Ascii.eqb CR CR) with true. cbn. now rewrite IH.
  - cbn [newlines]. rewrite Hc. now rewrite IH.
Qed.

Lemma newlines_none : forall s, ~ has_char CR s -> newlines s = s.
Proof.
  induction s as [|c t IH]; intros H; [reflexivity|].
  cbn [newlines]. assert (Ascii.eqb c CR = false) as ->.
  { apply Ascii.eqb_neq. intros E. apply H. exists EmptyString, t. now rewrite E. }
  f_equal. apply IH. intros [a [b E]]. apply H. exists (String c a), b. now rewrite E.
Qed.

Section Runs.
Context {A : arith}.
Variable profile : string -> res (option string).
Variable fuel : nat.
Notation run := (run (A:=A) profile fuel).
Notation process := (process (A:=A) profile fuel).

Lemma run_touches : forall c infile outfile stdin f q,
  outfile <> Some q -> (c = Arcs true -> infile <> Some q) ->
  Forall (fun o => touches o <> q) (e_ops (run c infile outfile stdin f)).
Proof.
  intros c infile outfile stdin f q Ho Hi. unfold Files.run.
  destruct (missing f infile); [constructor|].
  set (text := match infile with Some _ => _ | None => _ end).
  destruct (process c (read_lines text)) as [[out printed] e].
  destruct (replaces c infile) as [p|] eqn:R.
  - cbn [e_ops]. apply Forall_app. split.
    + destruct outfile; constructor; [cbn; congruence|constructor].
    + destruct e; [constructor|]. apply rewrite_touches.
      destruct c as [| | |[|]]; cbn in R; try discriminate. intros ->. now apply Hi.
  - destruct outfile as [o|]; cbn [e_ops]; [|constructor]. apply rewrite_touches. congruence.
Qed.

Lemma others_kept : forall c infile outfile stdin f f' q,
  moment (run c infile outfile stdin f) f f' ->
  outfile <> Some q -> (c = Arcs true -> infile <> Some q) -> f' q = f q.
Proof.
  intros c infile outfile stdin f f' q [k ->] Ho Hi.
  apply perform_all_other, Forall_firstn, run_touches; assumption.
Qed.

Lemma usage_iff : forall c infile outfile stdin f,
  e_end (run c infile outfile stdin f) = Usage <-> exists p, infile = Some p /\ f p = None.
Proof.
  intros. unfold Files.run. destruct (missing f infile) eqn:M.
  - split; [intros _|reflexivity]. destruct infile as [p|]; [|discriminate].
    exists p. cbn in M. destruct (f p); [discriminate|auto].
  - split.
    + set (text := match infile with Some _ => _ | None => _ end).
      destruct (process c (read_lines text)) as [[out printed] e].
      destruct (replaces c infile); [|destruct outfile]; destruct e; discriminate.
    + intros [p [-> H]]. cbn in M. now rewrite H in M.
Qed.

Lemma usage_harmless : forall c infile outfile stdin f f',
  e_end (run c infile outfile stdin f) = Usage -> moment (run c infile outfile stdin f) f f' -> f' = f.
Proof.
  intros c infile outfile stdin f f' H [k ->]. apply usage_iff in H. destruct H as [p [-> H]].
  unfold Files.run. cbn. rewrite H. cbn. now rewrite firstn_nil.
Qed.

(** the run with two different files *)
Lemma run_files : forall c p q stdin f text out printed e,
  f p = Some text -> p <> q -> replaces c (Some p) = None ->
  process c (read_lines text) = (out, printed, e) ->
  run c (Some p) (Some q) stdin f =
  Effect (Truncate q :: put_text q (lines_text out)) printed (ending_of e).
Proof.
  intros c p q stdin f text out printed e H Hpq R P. unfold Files.run. cbn [missing]. rewrite H, R.
  cbn [perform_all fold_left perform]. unfold text_in. rewrite set_other by congruence. rewrite H, P. reflexivity.
Qed.

Lemma not_inplace : forall (c : command (A:=A)) p, c <> Arcs true -> replaces c (Some p) = None.
Proof. intros [| | |[|]] p H; try reflexivity. now contradiction H. Qed.

(** pipes *)
Lemma pipe : forall c p q stdin f text, f p = Some text -> p <> q -> c <> Arcs true ->
  exists out,
    e_printed (run c None None text f) = e_printed (run c (Some p) (Some q) stdin f) ++ out /\
    after (run c (Some p) (Some q) stdin f) f q = Some (lines_text out) /\
    e_end (run c None None text f) = e_end (run c (Some p) (Some q) stdin f) /\
    e_ops (run c None None text f) = [].
Proof.
  intros c p q stdin f text H Hpq R. destruct (process c (read_lines text)) as [[out printed] e] eqn:P.
  exists out. rewrite (run_files c p q stdin f text out printed e) by auto using not_inplace.
  assert (Q : run c None None text f = Effect [] (printed ++ out) (ending_of e)).
  { unfold Files.run. cbn [missing]. rewrite P. destruct c as [| | |[|]]; try reflexivity. }
  rewrite Q. unfold after. cbn [e_ops e_printed e_end]. now rewrite rewrite_end.
Qed.

(** what was in the output file is lost *)
Lemma old_lost : forall c p q stdin f text s, f p = Some text -> p <> q ->
  after (run c (Some p) (Some q) stdin f) f q =
  after (run c (Some p) (Some q) stdin (set_file q s f)) (set_file q s f) q.
Proof.
  intros c p q stdin f text s H Hpq.
  destruct (process c (read_lines text)) as [[out printed] e] eqn:P.
  assert (H2 : set_file q s f p = Some text) by now rewrite set_other by congruence.
  assert (D : c = Arcs true \/ c <> Arcs true).
  { destruct c as [| | |[|]]; try (right; discriminate). now left. }
  destruct D as [->|D].
  - unfold Files.run. cbn [missing replaces]. rewrite H, H2. cbn [perform_all fold_left perform].
    unfold text_in. rewrite !set_other by congruence. rewrite H, P. unfold after. cbn [e_ops].
    rewrite !perform_app. destruct e.
    + cbn. now rewrite !set_same.
    + rewrite (perform_all_other (Truncate p :: _)) by (apply rewrite_touches; congruence).
      rewrite (perform_all_other (Truncate p :: _)) by (apply rewrite_touches; congruence).
      cbn [perform_all fold_left perform]. now rewrite !set_same.
  - rewrite (run_files c p q stdin f text out printed e) by auto using not_inplace.
    rewrite (run_files c p q stdin _ text out printed e) by auto using not_inplace.
    unfold after. cbn [e_ops]. now rewrite !rewrite_end.
Qed.

(** a failing run empties the output file *)
Lemma failed_empty : forall c p q stdin f e,
  f p <> None -> p <> q -> (forall a b d g h, c <> Tempcal a b d g h) ->
  e_end (run c (Some p) (Some q) stdin f) = Raised e ->
  after (run c (Some p) (Some q) stdin f) f q = Some EmptyString.
Proof.
  intros c p q stdin f e Hp Hpq Ht He. destruct (f p) as [text|] eqn:H; [|contradiction].
  destruct (process c (read_lines text)) as [[out printed] x] eqn:P.
  assert (D : c = Arcs true \/ c <> Arcs true).
  { destruct c as [| | |[|]]; try (right; discriminate). now left. }
  destruct D as [->|D].
  - revert He. unfold Files.run. cbn [missing replaces]. rewrite H. cbn [perform_all fold_left perform].
    unfold text_in. rewrite !set_other by congruence. rewrite H, P. unfold after. cbn [e_ops e_end].
    intros He. destruct x as [x|]; [|discriminate]. cbn. now rewrite set_same.
  - rewrite (run_files c p q stdin f text out printed x) in He by auto using not_inplace.
    rewrite (run_files c p q stdin f text out printed x) by auto using not_inplace.
    cbn [e_end] in He. destruct x as [x|]; [|discriminate].
    assert (out = []) as ->.
    { destruct c as [o|a b d g h|o|b]; cbn in P.
      - unfold of_res in P. destruct (gcode_mod o (read_lines text)); inversion P; reflexivity.
      - now contradiction (Ht a b d g h).
      - unfold stretch_result in P. destruct (bind _ _) as [[g2 pr]|]; inversion P; reflexivity.
      - unfold of_res in P. destruct (optimize_arcs_main (read_lines text)); inversion P; reflexivity. }
    unfold after. cbn [e_ops]. now rewrite rewrite_end.
Qed.

(** ** No program *)
Lemma mod_nothing : forall o : mod_options (A:=A), gcode_mod o [] = Ok [].
Proof. intros [[x|] [y|] [|] [p|]]; reflexivity. Qed.
Lemma arcs_nothing : optimize_arcs_main (A:=A) [] = Ok [].
Proof. reflexivity. Qed.
Lemma stretch_nothing : forall o : options (A:=A), stretch_result profile fuel o [] = ([], [], None).
Proof. reflexivity. Qed.
Lemma tempcal_nothing : forall (b : bool) s x y (z : num A), fst (tempcal_main (A:=A) b s x y z []) = [].
Proof.
  intros b s x y z. unfold tempcal_main, tempcal. cbn [load_gen]. destruct b.
  - reflexivity.
  - destruct (step_init _ _ _) as [[[u v] w]|]; reflexivity.
Qed.

Lemma process_nothing : forall c, fst (fst (process c [])) = [].
Proof.
  intros [o|b s x y z|o|b]; cbn [Files.process].
  - now rewrite mod_nothing.
  - pose proof (tempcal_nothing b s x y z) as H. destruct (tempcal_main b s x y z []) as [l e].
    cbn in *. now rewrite H.
  - now rewrite stretch_nothing.
  - now rewrite arcs_nothing.
Qed.

Lemma same_file_lost : forall c p stdin f text, f p = Some text ->
  after (run c (Some p) (Some p) stdin f) f p = Some EmptyString.
Proof.
  intros c p stdin f text H. unfold Files.run. cbn [missing]. rewrite H.
  cbn [perform_all fold_left perform]. unfold text_in. rewrite set_same.
  change (read_lines EmptyString) with (@nil string).
  pose proof (process_nothing c) as N. destruct (process c []) as [[out printed] e]. cbn in N. subst out.
  unfold after. destruct c as [| | |[|]]; cbn [replaces]; cbn [e_ops lines_text put_text app]; try (cbn; now rewrite set_same).
  destruct e; cbn; rewrite set_same; reflexivity.
Qed.

(** ** In place *)
Lemma inplace_run : forall p stdin f text, f p = Some text ->
  run (Arcs true) (Some p) None stdin f =
  match optimize_arcs_main (A:=A) (read_lines text) with
  | Ok out => Effect (Truncate p :: put_text p (lines_text out)) [] Finished
  | Err e => Effect [] [] (Raised e)
  end.
Proof.
  intros p stdin f text H. unfold Files.run. cbn [missing replaces]. rewrite H.
  cbn [perform_all fold_left]. unfold text_in. rewrite H. cbn [Files.process].
  destruct (optimize_arcs_main (read_lines text)); reflexivity.
Qed.

Lemma inplace_fails : forall p stdin f f' e,
  e_end (run (Arcs true) (Some p) None stdin f) = Raised e ->
  moment (run (Arcs true) (Some p) None stdin f) f f' -> f' = f.
Proof.
  intros p stdin f f' e He [k ->]. destruct (f p) as [text|] eqn:H.
  - rewrite (inplace_run _ _ _ _ H) in *. destruct (optimize_arcs_main (read_lines text)); [discriminate|].
    cbn. now rewrite firstn_nil.
  - unfold Files.run. cbn [missing]. rewrite H. cbn. now rewrite firstn_nil.
Qed.

Lemma inplace_done : forall p stdin f text, f p = Some text ->
  e_end (run (Arcs true) (Some p) None stdin f) = Finished ->
  exists out, optimize_arcs_main (A:=A) (read_lines text) = Ok out /\
    after (run (Arcs true) (Some p) None stdin f) f p = Some (lines_text out).
Proof.
  intros p stdin f text H He. rewrite (inplace_run _ _ _ _ H) in *.
  destruct (optimize_arcs_main (read_lines text)) as [out|]; [|discriminate].
  exists out. split; [reflexivity|]. unfold after. cbn [e_ops]. apply rewrite_end.
Qed.

Lemma inplace_gap : forall p stdin f, e_end (run (Arcs true) (Some p) None stdin f) = Finished ->
  exists f', moment (run (Arcs true) (Some p) None stdin f) f f' /\ f' p = Some EmptyString.
Proof.
  intros p stdin f He. destruct (f p) as [text|] eqn:H.
  - rewrite (inplace_run _ _ _ _ H) in *. destruct (optimize_arcs_main (read_lines text)); [|discriminate].
    eexists. split; [exists 1; reflexivity|]. cbn. now rewrite set_same.
  - unfold Files.run in He. cbn [missing] in He. rewrite H in He. discriminate.
Qed.

Lemma inplace_outfile : forall p q stdin f, f p <> None -> p <> q ->
  after (run (Arcs true) (Some p) (Some q) stdin f) f q = Some EmptyString.
Proof.
  intros p q stdin f Hp Hpq. destruct (f p) as [text|] eqn:H; [|contradiction].
  unfold Files.run. cbn [missing replaces]. rewrite H.
  set (text' := text_in _ _). destruct (process (Arcs true) (read_lines text')) as [[out printed] e].
  unfold after. cbn [e_ops]. rewrite perform_app. destruct e.
  - cbn. now rewrite set_same.
  - rewrite perform_all_other by (now apply rewrite_touches). cbn. now rewrite set_same.
Qed.

(** ** Line ends *)
Lemma run_dos : forall c p outfile stdin f s, f p = Some s -> ~ has_char CR s -> outfile <> Some p ->
  run c (Some p) outfile stdin (set_file p (dos s) f) = run c (Some p) outfile stdin f.
Proof.
  intros c p outfile stdin f s H Hs Ho. unfold Files.run. cbn [missing]. rewrite H, set_same.
  assert (E : forall g : files, g p = f p \/ g p = Some (dos s) ->
    read_lines (text_in p (perform_all match outfile with Some q => [Truncate q] | None => [] end g)) =
    read_lines s).
  { intros g Hg. unfold text_in. rewrite perform_all_other.
    - destruct Hg as [->| ->]; [now rewrite H|]. unfold read_lines. now rewrite newlines_dos.
    - destruct outfile; constructor; [cbn; congruence|constructor]. }
  rewrite (E (set_file p (dos s) f)) by (right; apply set_same).
  rewrite (E f) by (now left). reflexivity.
Qed.

(** ** The plug-ins *)
Lemma stretch_plugin_fails : forall s p f f' e,
  e_end (stretch_plugin (A:=A) profile fuel s p f) = Raised e ->
  moment (stretch_plugin (A:=A) profile fuel s p f) f f' -> f' = f.
Proof.
  intros s p f f' e He [k ->]. unfold stretch_plugin in *. destruct (bind _ _) as [[g pr]|x].
  - discriminate.
  - cbn. now rewrite firstn_nil.
Qed.

Lemma plugin_others : forall s p f f' q, p <> q ->
  moment (stretch_plugin (A:=A) profile fuel s p f) f f' -> f' q = f q.
Proof.
  intros s p f f' q H [k ->]. apply perform_all_other, Forall_firstn. unfold stretch_plugin.
  destruct (bind _ _) as [[g pr]|x]; [|constructor]. now apply rewrite_touches.
Qed.

Lemma tempcal_plugin_others : forall a b z n p f f' q, p <> q ->
  moment (tempcal_plugin (A:=A) a b z n p f) f f' -> f' q = f q.
Proof.
  intros a b z n p f f' q H [k ->]. apply perform_all_other, Forall_firstn. unfold tempcal_plugin.
  destruct (load_file _) as [g|x]; [|constructor].
  destruct (tempcal _ _ _ _ g) as [out e]. now apply rewrite_touches.
Qed.

(** the program is replaced by the lines written before the exception *)
Lemma tempcal_plugin_after : forall a b z n p f (g : gcode A) out e,
  load_file (text_in p f) = Ok g -> tempcal (Steps (StepsInt n)) a b z g = (out, e) ->
  after (tempcal_plugin (A:=A) a b z n p f) f p = Some (lines_text (map text_of out)) /\
  e_end (tempcal_plugin (A:=A) a b z n p f) = ending_of e.
Proof.
  intros a b z n p f g out e H T. unfold tempcal_plugin. rewrite H, T. unfold after. cbn [e_ops e_end].
  split; [apply rewrite_end|reflexivity].
Qed.

End Runs.

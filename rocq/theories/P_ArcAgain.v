(** * P_ArcAgain: making arcs twice (C122) *)
From Coq Require Import List Ascii String ZArith NArith Bool Reals.
From Verif Require Import PyBase Arith ArithR ArithB64 Gcoder Filters Arc SpecText SpecLoad SpecMachine SpecFilter SpecArc SpecArcKept Samples.
From Verif Require Import P_Load P_Text P_Wf P_Machine P_Measure P_Filter P_FilterMotion P_Compose P_LayersKept P_ArcErr P_Arc P_ArcFit P_ArcPath P_ArcReload.
Import ListNotations.
Local Open Scope list_scope.

(** ** Without arcs *)

Lemma load_same_text : forall (A : arith) home d d', program_text d = program_text d' -> d <> [] -> d' <> [] ->
  load_gen (A:=A) false home d = load_gen false home d'.
Proof.
  intros A home d d' H N N'. rewrite <- !clean_lines_text in H.
  destruct d as [|x d]; [now contradiction N|]. destruct d' as [|x' d']; [now contradiction N'|].
  unfold load_gen. now rewrite H.
Qed.

Lemma again_none : forall (A : arith) home data (g g' : gcode A), load_gen false home data = Ok g ->
  optimize_arcs g = Ok g' -> write g' = write g ->
  exists h h', load_gen (A:=A) false home (write g') = Ok h /\ optimize_arcs h = Ok h' /\ write h' = write g'.
Proof.
  intros A home data g g' Hl H Hw.
  rewrite Hw, (load_write _ _ _ _ Hl).
  destruct (program_text data) as [|s ss] eqn:E.
  - assert (Hh : exists h, load_gen (A:=A) false home [] = Ok h) by (eexists; reflexivity). destruct Hh as [h Hh].
    pose proof (load_write _ _ _ _ Hh) as Hwh. cbn in Hwh.
    assert (Hr : rows_within 8 8 (all_lines h) = true).
    { rewrite write_all in Hwh. destruct (all_lines h); [reflexivity|discriminate Hwh]. }
    destruct (short_rows_same _ Hr) as (h' & H1 & H2). exists h, h'. split; [exact Hh|]. split; [exact H1|]. congruence.
  - exists g, g'. split; [|split; [exact H|rewrite Hw, (load_write _ _ _ _ Hl); exact E]].
    rewrite <- Hl. rewrite <- E. apply load_same_text.
    + apply tight_text, program_tight.
    + rewrite E. discriminate.
    + intros ->. discriminate E.
Qed.

(** ** With short rows *)

(** a move or a comment, from its text *)
Definition taken (s : string) : bool :=
  match command_name s with
  | Some c => str_mem c ["G0"; "G1"; "G2"; "G3"]%string
  | None => match words s with [] => false | _ => true end
  end.

Lemma read_taken : forall (m m' : mstate RA) s l, motion_step m (new_line s) = Ok (m', l) ->
  absorbable l = taken (raw l).
Proof.
  intros m m' s l H. rewrite (motion_step_raw _ _ _ _ H). cbn [raw new_line]. unfold absorbable, taken, is_motion.
  destruct (command_name s) as [c|] eqn:Ec.
  - destruct (step_modes _ _ _ _ _ Ec H) as (_ & _ & C & _). rewrite C. reflexivity.
  - rewrite (unnamed _ _ _ _ Ec H). destruct (words s) eqn:Ew; [|reflexivity].
    destruct (str_mem s ["G0"; "G1"; "G2"; "G3"]%string) eqn:Em; [|reflexivity]. exfalso.
    apply str_mem_in in Em. cbn [In] in Em. repeat (destruct Em as [<-|Em]; [discriminate Ew|]). destruct Em.
Qed.

Lemma load_taken : forall home data (g : gcode RA), load_gen false home data = Ok g ->
  Forall (fun l => absorbable l = taken (raw l)) (all_lines g).
Proof.
  intros home data g H. rewrite (load_all_lines _ _ _ _ H).
  apply load_trace in H as (ls & Ht & Hl). rewrite (Hl eq_refl). clear Hl.
  induction Ht as [m|m s l m1 ts ls m' Hs Ht IH]; constructor; [apply (read_taken _ _ _ _ Hs)|exact IH].
Qed.

Lemma op_taken : forall s, match op_of s with Move _ _ _ => taken s = true | SetPosition _ _ => taken s = false | _ => True end.
Proof.
  intros s. unfold op_of, taken. destruct (command_name s) as [c|]; [|exact I].
  destruct (str_mem c ["G0"; "G1"; "G2"; "G3"]%string); [reflexivity|].
  destruct (String.eqb c "G28"); [exact I|]. destruct (String.eqb c "G92"); [reflexivity|].
  repeat match goal with |- context [if ?b then _ else _] => destruct b; [exact I|] end.
  destruct c as [|d t]; [exact I|]. all_chars d; exact I.
Qed.

Lemma gen_taken : forall first run' gen, produced first run' gen -> t_e (lnotes (last run' first)) <> None ->
  Forall (fun l => absorbable l = taken (raw l)) gen.
Proof.
  intros first run' gen (_ & c & e & rel & f & n & fix_ & -> & Hfix) He. constructor.
  - destruct (arc_text_op c e rel f n) as (w & e' & f' & Ho & _). pose proof (op_taken (raw (arc_line (A:=RA) c e rel f n))) as T.
    rewrite Ho in T. rewrite T. unfold absorbable, is_motion, arc_line. cbn [command]. destruct (n_ltb n0 (c_direction c)); reflexivity.
  - destruct Hfix as [-> |(r & ->)]; [constructor|]. constructor; [|constructor].
    destruct (t_e (lnotes (last run' first))) as [x|]; [|congruence].
    destruct (fix_text_op x r) as (w2 & e2 & Ho2 & _). pose proof (op_taken (raw (correction_line (A:=RA) (Some x) r))) as T.
    rewrite Ho2 in T. rewrite T. reflexivity.
Qed.

Lemma out_taken : forall n ins outs, replaced produced n ins outs ->
  Forall (fun l => absorbable l = taken (raw l)) ins -> Forall (fun l => command l <> None -> t_e (lnotes l) <> None) ins ->
  Forall (fun l => absorbable l = taken (raw l)) outs.
Proof.
  assert (Hsame : forall l l' : line RA, same_line l l' -> absorbable l = taken (raw l) -> absorbable l' = taken (raw l')).
  { intros l l' (H1 & H2 & _) H. unfold absorbable, is_motion in *. rewrite H1, H2. exact H. }
  intros n ins outs H.
  induction H as [|n l l' ins outs Hs H IH|n l l' mv mv' gen next outs Hs Hrun HR Hn H IH]; intros Ht He; [constructor| |].
  - inversion Ht; subst. inversion He; subst. constructor; [apply (Hsame _ _ Hs); assumption|apply IH; assumption].
  - inversion Ht as [|? ? T1 T2]; subst. inversion He as [|? ? E1 E2]; subst. apply Forall_app in T2 as [_ T3]. apply Forall_app in E2 as [E2 E3].
    constructor; [apply (Hsame _ _ Hs); assumption|]. apply Forall_app. split; [|apply IH; assumption].
    assert (Hmv : Forall (fun l : line RA => is_motion l = true /\ l_e l <> None) mv') by (destruct HR as [HR _]; apply HR).
    assert (Hlen : (8 <= List.length mv')%nat) by (destruct HR as [HR _]; apply HR).
    pose proof (same_run _ _ Hrun Hmv) as Hsm. subst mv'. apply (gen_taken _ _ _ HR).
    assert (Hlast : In (last mv l') mv).
    { destruct mv as [|x mv]; [inversion Hlen|]. clear. revert x. induction mv as [|y mv IHm]; intros x; [now left|].
      right. exact (IHm y). }
    rewrite Forall_forall in E2, Hmv. apply (E2 _ Hlast). destruct (Hmv _ Hlast) as [M1 _]. unfold is_motion in M1.
    destruct (command (last mv l')); [discriminate|discriminate M1].
Qed.

Lemma rows_taken : forall k ls ls' n, Forall (fun l : line RA => absorbable l = taken (raw l)) ls ->
  Forall (fun l : line RA => absorbable l = taken (raw l)) ls' -> map raw ls = map raw ls' ->
  rows_within k n ls' = rows_within k n ls.
Proof.
  intros k. induction ls as [|l ls IH]; intros [|l' ls'] n H H' Hm; try discriminate Hm; [reflexivity|].
  cbn [map] in Hm. injection Hm as Hr Hm. inversion H as [|? ? A1 A2]; subst. inversion H' as [|? ? B1 B2]; subst.
  cbn [rows_within]. rewrite B1, A1, Hr. destruct (taken (raw l')); [destruct n; [reflexivity|]|]; apply IH; assumption.
Qed.

Lemma again_short : forall home home' data (g g' : gcode RA), load_gen false home data = Ok g ->
  Forall (fun s => feed_ok s = true) (program_text data) -> optimize_arcs g = Ok g' ->
  rows_within 8 8 (all_lines g') = true ->
  exists h h', load_gen (A:=RA) false home' (write g') = Ok h /\ optimize_arcs h = Ok h' /\ write h' = write g'.
Proof.
  intros home home' data g g' Hl Hf H Hr.
  destruct (arcs_reload false home home' data g g' Hl Hf H) as (Ht & h & Hh).
  destruct (arcs_produced _ _ _ _ Hl H) as [n Hn]. destruct (load_noted _ _ _ Hl) as [e He].
  pose proof (out_taken _ _ _ Hn (load_taken _ _ _ Hl) (noted_e _ _ He)) as Ho.
  assert (Hw : write h = write g') by (rewrite (load_write _ _ _ _ Hh); exact Ht).
  assert (Hrh : rows_within 8 8 (all_lines h) = true).
  { rewrite <- Hr. apply rows_taken; [exact Ho|apply (load_taken _ _ _ Hh)|]. rewrite <- !write_all. symmetry. exact Hw. }
  destruct (short_rows_same _ Hrh) as (h' & H1 & H2). exists h, h'. split; [exact Hh|]. split; [exact H1|]. congruence.
Qed.

From Verif Require Import P_MachineRefuted P_FilterRefuted P_ArcRefuted P_ArcSample.

(** ** An example *)

Fixpoint text_rows (k n : nat) (ss : list string) : bool :=
  match ss with
  | [] => true
  | s :: t => if taken s then match n with O => false | S n' => text_rows k n' t end else text_rows k k t
  end.

Lemma rows_text : forall k ls n, Forall (fun l : line RA => absorbable l = taken (raw l)) ls ->
  rows_within k n ls = text_rows k n (map raw ls).
Proof.
  intros k. induction ls as [|l ls IH]; intros n H; [reflexivity|]. inversion H as [|? ? H1 H2]; subst.
  cbn [map rows_within text_rows]. rewrite H1. destruct (taken (raw l)); [destruct n; [reflexivity|]|]; apply IH; assumption.
Qed.

Lemma cube_again : exists g g' : gcode RA, load_gen (A:=RA) false home0 cube = Ok g /\ optimize_arcs g = Ok g' /\
  write g' = write g /\ rows_within 8 8 (all_lines g') = true.
Proof.
  destruct cube_real as (g & g' & Hl & H). exists g, g'. split; [exact Hl|]. split; [exact H|].
  assert (Hr : rows_within 8 8 (all_lines g) = true).
  { rewrite (rows_text _ _ _ (load_taken _ _ _ Hl)), <- write_all, (load_write _ _ _ _ Hl). vm_compute. reflexivity. }
  destruct (short_rows_same _ Hr) as (x & H1 & H2). rewrite H in H1. apply ok_inj in H1. subst x. split; [exact H2|].
  destruct (arcs_produced _ _ _ _ Hl H) as [n Hn]. destruct (load_noted _ _ _ Hl) as [e He].
  rewrite (rows_text _ _ _ (out_taken _ _ _ Hn (load_taken _ _ _ Hl) (noted_e _ _ He))), <- write_all, H2, (load_write _ _ _ _ Hl).
  vm_compute. reflexivity.
Qed.

(** ** Arcs of arcs *)

(** eight steps of 3 degrees and one of 20, four times *)
Definition arc_dashed : list string :=
  ["G90"; "M82"; "G1 X10.000 Y0.000 F1200"; "G1 X9.986 Y0.523 E0.02616"; "G1 X9.945 Y1.045 E0.05234"; "G1 X9.877 Y1.564 E0.07851";
   "G1 X9.781 Y2.079 E0.10471"; "G1 X9.659 Y2.588 E0.13088"; "G1 X9.511 Y3.090 E0.15704"; "G1 X9.336 Y3.584 E0.18325";
   "G1 X9.135 Y4.067 E0.20941"; "G1 X7.193 Y6.947 E0.38308"; "G1 X6.820 Y7.314 E0.40925"; "G1 X6.428 Y7.660 E0.43539";
   "G1 X6.018 Y7.986 E0.46158"; "G1 X5.592 Y8.290 E0.48775"; "G1 X5.150 Y8.572 E0.51396"; "G1 X4.695 Y8.829 E0.54009";
   "G1 X4.226 Y9.063 E0.56630"; "G1 X3.746 Y9.272 E0.59248"; "G1 X0.349 Y9.994 E0.76612"; "G1 X-0.175 Y9.998 E0.79232";
   "G1 X-0.698 Y9.976 E0.81849"; "G1 X-1.219 Y9.925 E0.84467"; "G1 X-1.736 Y9.848 E0.87080"; "G1 X-2.250 Y9.744 E0.89702";
   "G1 X-2.756 Y9.613 E0.92316"; "G1 X-3.256 Y9.455 E0.94938"; "G1 X-3.746 Y9.272 E0.97553"; "G1 X-6.691 Y7.431 E1.14918";
   "G1 X-7.071 Y7.071 E1.17536"; "G1 X-7.431 Y6.691 E1.20153"; "G1 X-7.771 Y6.293 E1.22770"; "G1 X-8.090 Y5.878 E1.25387";
   "G1 X-8.387 Y5.446 E1.28009"; "G1 X-8.660 Y5.000 E1.30623"; "G1 X-8.910 Y4.540 E1.33241"; "G1 X-9.135 Y4.067 E1.35860";
   "G1 X-9.976 Y0.698 E1.53222"; "M107"]%string.

Lemma again_refuted :
  exists g g' h h' : gcode B64, load_gen false home0 arc_dashed = Ok g /\ optimize_arcs g = Ok g' /\
    load_gen (A:=B64) false home0 (write g') = Ok h /\ optimize_arcs h = Ok h' /\
    write g' = ["G90"; "M82"; "G1 X10.000 Y0.000 F1200";
      "G3 X9.135 Y4.067 E0.20943 F1200.000 I-9.998 J0.001; generated from 8 segments"; "G1 X7.193 Y6.947 E0.38308";
      "G3 X3.746 Y9.272 E0.59250 F1200.000 I-7.202 J-6.960; generated from 8 segments"; "G1 X0.349 Y9.994 E0.76612";
      "G3 X-3.746 Y9.272 E0.97555 F1200.000 I-0.350 J-9.994; generated from 8 segments"; "G1 X-6.691 Y7.431 E1.14918";
      "G3 X-9.135 Y4.067 E1.35862 F1200.000 I6.680 J-7.423; generated from 8 segments"; "G1 X-9.976 Y0.698 E1.53222"; "M107"]%string /\
    write h' = ["G90"; "M82"; "G1 X10.000 Y0.000 F1200";
      "G3 X-9.976 Y0.698 E1.54191 F1200.000 I-10.000 J0.000; generated from 8 segments"; "M107"]%string.
Proof.
  eexists _, _, _, _. split; [apply loadF_ok; vm_compute; reflexivity|]. split; [apply arcF_ok; vm_compute; reflexivity|].
  split; [apply loadF_ok; vm_compute; reflexivity|]. split; [apply arcF_ok; vm_compute; reflexivity|].
  split; vm_compute; reflexivity.
Qed.

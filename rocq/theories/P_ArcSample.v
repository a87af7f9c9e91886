(** * P_ArcSample: concrete programs for the examples of C49-C55 *)
From Coq Require Import List Ascii String ZArith NArith Bool Reals Lra Lia.
From Verif Require Import PyBase Arith ArithR ArithB64 Gcoder Filters Arc SpecLoad SpecText SpecMachine SpecFilter SpecArc Samples.
From Verif Require Import P_Load P_Text P_Wf P_Machine P_FilterMotion P_ArcErr P_ArcRefuted.
Import ListNotations.
Local Open Scope list_scope.

(** rows of moves and comments, by the text *)
Definition absorbable_text (s : string) : bool :=
  match command_name s with None => true | Some c => str_mem c ["G0"; "G1"; "G2"; "G3"]%string end.

Fixpoint rows_text (k n : nat) (ss : list string) : bool :=
  match ss with
  | [] => true
  | s :: t =>
      if absorbable_text s then match n with O => false | S n' => rows_text k n' t end
      else rows_text k k t
  end.

Lemma rows_read : forall (A : arith) (E : exact A) k ss (ls : list (line A)), Forall2 (reads E) ss ls ->
  forall n n', n <= n' -> n' <= k -> rows_text k n ss = true -> rows_within k n' ls = true.
Proof.
  intros A E k ss ls H. induction H as [|s l ss ls Hr H IH]; intros n n' Hn Hk Ht; [reflexivity|].
  cbn [rows_text rows_within] in *. pose proof (reads_motion _ _ _ Hr) as Hm.
  unfold absorbable_text in Ht. unfold absorbable.
  assert (Hnone : command l = None -> command_name s = None).
  { destruct Hr as (_ & [Hc|(Hc & _)] & _); congruence. }
  destruct (command_name s) as [d|] eqn:Ed.
  - assert (Hl : exists c, command l = Some c).
    { destruct (command l); [eauto|]. specialize (Hnone eq_refl). discriminate Hnone. }
    destruct Hl as [c ->]. rewrite Hm. destruct (str_mem d _).
    + destruct n as [|n0]; [discriminate Ht|]. destruct n' as [|n'0]; [lia|]. apply (IH n0); [lia|lia|exact Ht].
    + apply (IH k); [lia|lia|exact Ht].
  - destruct n as [|n0]; [discriminate Ht|]. destruct n' as [|n'0]; [lia|].
    destruct (command l) as [c|]; [rewrite Hm|].
    + apply (IH n0); [lia|lia|exact Ht].
    + apply (IH n0); [lia|lia|exact Ht].
Qed.

(** the sample program over the reals: it loads and is left alone *)
Lemma cube_real : exists g g' : gcode RA, load_gen (A:=RA) false home0 cube = Ok g /\ optimize_arcs g = Ok g'.
Proof.
  destruct (load_well_formed exactR false home0 cube) as [g Hg].
  { repeat constructor; vm_compute; reflexivity. }
  exists g. destruct (short_rows_same g) as (g' & Hg' & _).
  { eapply (rows_read RA exactR 8 (program_text cube) (all_lines g)); [| | |].
    - apply (load_reads exactR home0 cube g Hg). repeat constructor; vm_compute; discriminate.
    - apply (le_n 8).
    - apply le_n.
    - vm_compute. reflexivity. }
  exists g'. auto.
Qed.

(** the programs are in absolute coordinates, and move level while extruding *)
Lemma plain_line : forall s,
  match op_of s with Home _ | SetPosition _ _ | Inches | Relative => False | _ => True end \/
  words s = [("g", "28")]%string \/ words s = [("g", "92"); ("e", "0")]%string -> arc_plain s.
Proof.
  intros s [H|[H|H]]; unfold arc_plain, clear_words.
  - destruct (op_of s); try contradiction; split; exact I.
  - unfold op_of, command_name. rewrite H. split; [left; intros a; destruct a; reflexivity|exact I].
  - unfold op_of, command_name. rewrite H. split; [reflexivity|split; reflexivity].
Qed.

Lemma plain_samples :
  Forall arc_plain (program_text cube) /\ Forall level_extrusion (program_text cube) /\
  Forall arc_plain (program_text arc_ccw) /\ Forall level_extrusion (program_text arc_ccw).
Proof.
  assert (Hl : forall s, number_of "z" (words s) = None \/ number_of "e" (words s) = None \/
    (exists c, command_name s = Some c /\ str_mem c ["G0"; "G1"; "G2"; "G3"]%string = false) -> level_extrusion s).
  { intros s H. unfold level_extrusion, op_of. destruct (command_name s) as [c|]; [|exact I].
    destruct (str_mem c ["G0"; "G1"; "G2"; "G3"]%string) eqn:Em.
    - destruct H as [H|[H|(c' & Hc & Hm)]]; [left; exact H|right; exact H|congruence].
    - destruct (String.eqb c "G28"); [exact I|]. destruct (String.eqb c "G92"); [exact I|].
      repeat match goal with |- context [if ?b then _ else _] => destruct b; [exact I|] end.
      destruct c as [|d t]; [exact I|]. all_chars d; exact I. }
  repeat apply conj; cbn;
  repeat (constructor; [first
    [ apply plain_line; first [left; exact I|right; left; reflexivity|right; right; reflexivity]
    | apply Hl; first [left; reflexivity|right; left; reflexivity]]|]);
  constructor.
Qed.

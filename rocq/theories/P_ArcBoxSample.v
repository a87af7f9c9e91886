(** * P_ArcBoxSample: programs for Props_ArcBox *)
From Coq Require Import List Ascii String ZArith NArith Bool Reals Lra Lia.
From Verif Require Import PyBase Arith ArithR ArithB64 Gcoder Filters Arc SpecText SpecLoad SpecMachine SpecFilter SpecMeasure SpecBox SpecArc SpecArcBox Samples.
From Verif Require Import P_Load P_MachineRefuted P_FilterRefuted P_Wf P_Machine P_Filter P_FilterMotion P_Compose P_Arc P_ArcFit P_ArcPath P_ArcReload P_ArcErr P_ArcSample P_ArcRefuted P_ArcBox.
Import ListNotations.
Local Open Scope list_scope.
Local Open Scope R_scope.

Lemma rel_texts :
  (Forall arc_plain (program_text cube_rel) /\ Forall no_rebase_e (program_text cube_rel) /\
   Forall (fun s => feed_ok s = true) (program_text cube_rel)) /\
  Forall arc_plain (program_text arc_rel_e) /\ Forall no_rebase_e (program_text arc_rel_e) /\
  Forall (fun s => feed_ok s = true) (program_text arc_rel_e).
Proof.
  repeat apply conj.
  1, 4: cbn; repeat (constructor; [apply plain_line; first [left; exact I|right; left; reflexivity]|]); constructor.
  1, 3: cbn; repeat (constructor; [exact I|]); constructor.
  1, 2: repeat constructor; vm_compute; reflexivity.
Qed.

Lemma box_sample : exists g g' h : gcode RA, load_gen (A:=RA) false home0 cube_rel = Ok g /\ optimize_arcs g = Ok g' /\
  load_gen false home0 (write g') = Ok h /\ 0 < g_filament g /\ 0 < g_filament h.
Proof.
  destruct (load_well_formed exactR false home0 cube_rel) as [g Hg].
  { repeat constructor; vm_compute; reflexivity. }
  exists g. destruct (short_rows_same g) as (g' & Hg' & Hw).
  { eapply (rows_read RA exactR 8 (program_text cube_rel) (all_lines g)); [| | |].
    - apply (load_reads exactR home0 cube_rel g Hg). repeat constructor; vm_compute; discriminate.
    - apply (le_n 8).
    - apply le_n.
    - vm_compute. reflexivity. }
  exists g'. destruct rel_texts as [(T1 & T2 & T3) _].
  destruct (arcs_reload false home0 home0 cube_rel g g' Hg T3 Hg') as (Ht & h & Hh). exists h.
  rewrite (load_write _ _ _ _ Hg) in Hw.
  assert (Hx : 0 < extruder (run (program_text cube_rel) (start (home_of exactR home0)))).
  { replace (extruder (run (program_text cube_rel) (start (home_of exactR home0)))) with 4 by (symmetry; run_machine). lra. }
  split; [exact Hg|]. split; [exact Hg'|]. split; [exact Hh|].
  split; [exact (feed_last _ _ _ Hg T2 Hx)|]. rewrite <- Hw, <- Ht in T2, Hx. exact (feed_last _ _ _ Hh T2 Hx).
Qed.

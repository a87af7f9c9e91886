(** * P_ArcKept: lines other than extruding moves are kept (C120) *)
From Coq Require Import List Ascii String ZArith NArith Bool Reals Lra.
From Verif Require Import PyBase Arith ArithR ArithB64 Gcoder Filters Arc SpecLoad SpecText SpecMachine SpecFilter SpecArc SpecArcKept Samples.
From Verif Require Import P_Load P_Machine P_MachineRefuted P_FilterRefuted P_ArcErr P_Arc P_ArcFit P_ArcPath P_ArcRefuted.
Import ListNotations.
Local Open Scope list_scope.

Definition generated (s : string) : Prop := contains "; generated" s = true.

Lemma same_extruding : forall l l' : line RA, same_line l l' -> extruding_move l' = extruding_move l.
Proof.
  intros l l' (_ & Hc & _ & Ha & _). unfold extruding_move, is_motion, l_e. rewrite Hc, Ha. reflexivity.
Qed.

Lemma more_all : forall (P : string -> Prop) new xs ys, Forall P new -> more P xs ys -> more P xs (new ++ ys).
Proof. intros P new xs ys H Hm. induction H; [exact Hm|]. cbn. constructor; assumption. Qed.

Lemma others_app : forall a b : list (line RA), other_texts (a ++ b) = other_texts a ++ other_texts b.
Proof. intros a b. unfold other_texts. rewrite filter_app. apply map_app. Qed.

Lemma others_kept : forall n ins outs, replaced produced n ins outs ->
  more generated (other_texts ins) (other_texts outs).
Proof.
  intros n ins outs H.
  induction H as [|n l l' ins outs Hs H IH|n l l' mv mv' gen next outs Hs Hrun HR Hn H IH].
  - constructor.
  - unfold other_texts in *. cbn [filter]. rewrite (same_extruding _ _ Hs).
    destruct (extruding_move l); cbn [negb]; [exact IH|]. cbn [map]. rewrite (proj1 Hs). constructor. exact IH.
  - destruct (gen_text _ _ _ HR) as [_ Hg]. destruct HR as [(_ & Hmv & _) Hsh].
    pose proof (same_run _ _ Hrun Hmv) as Hsame. subst mv'.
    assert (Hr : other_texts mv = []).
    { clear - Hmv. induction Hmv as [|x mv [M1 M2] _ IH]; [reflexivity|]. unfold other_texts in *. cbn [filter].
      unfold extruding_move. rewrite M1. destruct (l_e x); [exact IH|congruence]. }
    assert (Hnew : Forall generated (other_texts gen)).
    { unfold other_texts. clear - Hg. induction gen as [|x gen IH]; [constructor|].
      cbn [map] in Hg. inversion Hg; subst. cbn [filter].
      destruct (extruding_move x); cbn [negb]; [now apply IH|]. cbn [map]. constructor; [assumption|now apply IH]. }
    assert (Hall : more generated (other_texts (mv ++ next)) (other_texts (gen ++ outs))).
    { rewrite !others_app, Hr. cbn [app]. apply more_all; assumption. }
    change (l :: mv ++ next) with ([l] ++ (mv ++ next)). change (l' :: gen ++ outs) with ([l'] ++ (gen ++ outs)).
    rewrite (others_app [l]), (others_app [l']). unfold other_texts at 1 3. cbn [filter].
    rewrite (same_extruding _ _ Hs). destruct (extruding_move l); cbn [negb map app]; [exact Hall|].
    rewrite (proj1 Hs). constructor. exact Hall.
Qed.

Lemma arcs_kept : forall home data (g g' : gcode RA), load_gen false home data = Ok g -> optimize_arcs g = Ok g' ->
  more (fun s => contains "; generated" s = true) (other_texts (all_lines g)) (other_texts (all_lines g')).
Proof.
  intros home data g g' Hl H. destruct (arcs_produced _ _ _ _ Hl H) as [n Hn]. exact (others_kept _ _ _ Hn).
Qed.

(** ** Arcs in the program *)

(** nine arcs that bulge inwards, from point to point of a quarter circle *)
Definition arc_given : list string :=
  ["G90"; "M82"; "G1 X10.000 Y0.000 F1200"; "G2 X9.848 Y1.736 I0.924 J1.019 E0.05";
   "G2 X9.397 Y3.420 I0.733 J1.164 E0.10"; "G2 X8.660 Y5.000 I0.520 J1.275 E0.15";
   "G2 X7.660 Y6.428 I0.291 J1.346 E0.20"; "G2 X6.428 Y7.660 I0.052 J1.376 E0.25";
   "G2 X5.000 Y8.660 I-0.188 J1.364 E0.30"; "G2 X3.420 Y9.397 I-0.423 J1.311 E0.35";
   "G2 X1.736 Y9.848 I-0.645 J1.218 E0.40"; "G2 X0.000 Y10.000 I-0.848 J1.087 E0.45";
   "M107"]%string.

Lemma arc_given_refuted :
  exists g g' : gcode B64, load_gen false home0 arc_given = Ok g /\ optimize_arcs g = Ok g' /\
    write g' = ["G90"; "M82"; "G1 X10.000 Y0.000 F1200";
      "G3 X0.000 Y10.000 E0.45057 F1200.000 I-10.001 J-0.001; generated from 9 segments"; "M107"]%string.
Proof. eexists _, _. split; [apply loadF_ok; vm_compute; reflexivity|].
  split; [apply arcF_ok; vm_compute; reflexivity|vm_compute; reflexivity]. Qed.

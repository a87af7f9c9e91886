(** * P_AnySample: the loop of P_LoopSample, in binary64 *)
From Coq Require Import List Ascii String ZArith NArith Bool.
From Verif Require Import PyBase Arith ArithB64 Gcoder Filters Stretch SpecLoad SpecText SpecFilter SpecStretch SpecLoop SpecBend SpecLoops Samples.
From Verif Require Import P_Load P_Stretch P_StretchRefuted P_LoopSample P_StretchAny.
Import ListNotations.
Local Open Scope list_scope.

Definition diamondF : gcode B64 :=
  set_layers [Layer (map (fun s => get (new_line s) (reparse (new_line s))) diamond) None n0] empty_program.
Definition markedF : option (num B64) * list (layer B64) := get (None, []) (setup_filter no_profile Slic3r (g_layers diamondF)).
Definition lineF (k : nat) : line B64 := nth k (lines_of (snd markedF)) (new_line "").
Definition pointF (sx : bool) (x : N) (sy : bool) (y : N) : num B64 * num B64 := (n_of_dec sx x 0, n_of_dec sy y 0).
Definition diamond_points : list (num B64 * num B64) :=
  [pointF true 1 false 0; pointF false 0 false 1; pointF false 1 false 0; pointF false 0 true 1; pointF true 1 false 0].

Lemma markedF_ok : setup_filter no_profile Slic3r (g_layers diamondF) = Ok (Some (lit 4 1), snd markedF).
Proof. reflexivity. Qed.

Lemma diamondF_loop : loop_lines Slic3r Outer [lineF 1; lineF 2; lineF 3; lineF 4; lineF 5; lineF 6] (lineF 7).
Proof.
  exists (lineF 1), [lineF 2; lineF 3; lineF 4; lineF 5; lineF 6]. split; [reflexivity|]. split; [discriminate|].
  split; [reflexivity|]. split; [reflexivity|]. split; [repeat (apply Forall_cons; [repeat split; reflexivity|]); apply Forall_nil|].
  split; [reflexivity|]. split; [reflexivity|]. split; [|reflexivity].
  apply Forall_cons.
  { intros _ l' Hl. assert (Eg : get (lineF 2) (reparse (lineF 2)) = l') by (rewrite Hl; reflexivity). rewrite <- Eg. reflexivity. }
  repeat (apply Forall_cons; [intros C; discriminate C|]). apply Forall_nil.
Qed.

Lemma diamondF_sample : exists ts,
  redraws_loop no_profile 100 Slic3r default_options (lit (A:=B64) 4 1) (limit default_options (Some (lit (A:=B64) 4 1)) (Some Outer)) diamond_points ts.
Proof.
  apply (redraw_intro no_profile 100 Slic3r default_options diamondF (lit (A:=B64) 4 1) (snd markedF) 0 (hd (Layer [] None n0) (snd markedF))
    [lineF 0] [lineF 1; lineF 2; lineF 3; lineF 4; lineF 5; lineF 6] (lineF 7) [] Outer).
  - discriminate.
  - assert (E : is_ok (stretch no_profile 100 Slic3r default_options diamondF) = true) by (vm_compute; reflexivity).
    destruct (stretch _ _ _ _ _) as [r|e]; [eauto|discriminate E].
  - exact markedF_ok.
  - reflexivity.
  - reflexivity.
  - exact diamondF_loop.
  - vm_compute. reflexivity.
  - change (filter xy_move [lineF 1; lineF 2; lineF 3; lineF 4; lineF 5; lineF 6]) with [lineF 1; lineF 3; lineF 4; lineF 5; lineF 6].
    repeat (apply Forall2_cons; [repeat split; reflexivity|]). apply Forall2_nil.
Qed.

Lemma diamondF_back : comes_back diamond_points.
Proof. exists (pointF true 1 false 0), [pointF false 0 false 1; pointF false 1 false 0; pointF false 0 true 1]. reflexivity. Qed.

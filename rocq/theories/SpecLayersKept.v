(** * SpecLayersKept: two programs with the same layers *)
From Coq Require Import List String ZArith Reals.
From Verif Require Import PyBase Arith Gcoder SpecText SpecLoad SpecMachine.
Import ListNotations.

(** each line is in the same place of the same layer, and the layers have the
    same heights and sizes *)
Definition same_layers {A : arith} (g h : gcode A) : Prop :=
  g_lidx h = g_lidx g /\ g_kidx h = g_kidx g /\ map ly_z (g_layers h) = map ly_z (g_layers g) /\
  map (fun y => List.length (ly_lines y)) (g_layers h) = map (fun y => List.length (ly_lines y)) (g_layers g).

(** the same heights are printed at *)
Definition same_heights {A : arith} (g h : gcode A) : Prop :=
  g_zs h = g_zs g /\ g_zmin h = g_zmin g /\ g_zmax h = g_zmax g.

(** does the line print? *)
Definition is_printing {A : arith} (l : line A) : bool :=
  match t_extruding (lnotes l) with Some b => b | None => false end.

(** the same lines print *)
Definition same_printing {A : arith} (g h : gcode A) : Prop :=
  Forall2 (fun l l' => is_printing l' = is_printing l) (g_lines g) (g_lines h).

(** the word [c] of the line [s], if it has one, needs at most [d] decimals *)
Definition short_word (d : nat) (c s : string) : Prop :=
  forall v, number_of c (words s) = Some v -> exists n : BinNums.Z, v = (IZR n / 10 ^ d)%R.

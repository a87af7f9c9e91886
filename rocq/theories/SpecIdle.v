(** * SpecIdle: vocabulary for lines that neither move nor feed *)
From Coq Require Import List Ascii String Bool.
From Verif Require Import PyBase Arith Gcoder SpecText SpecFree SpecArc.
Import ListNotations.

(** an M command other than M82 and M83, a comment, or text without G, T and M *)
Definition idle (s : string) : bool :=
  plain s ||
  match words s with
  | (c, v) :: _ => String.eqb c "m" && negb (String.eqb v "82") && negb (String.eqb v "83")
                   || String.eqb c "" && String.eqb v ""
  | [] => false
  end.

(** [h] has the layers of [g], with the same heights and times, and in them the
    lines of [g] and further idle lines; everything measured about heights is
    the same *)
Definition same_levels {A : arith} (g h : gcode A) : Prop :=
  Forall2 (fun y y' => ly_z y' = ly_z y /\ ly_dur y' = ly_dur y /\
                       more (fun l => idle (raw l) = true) (ly_lines y) (ly_lines y'))
          (g_layers g) (g_layers h) /\
  g_zs h = g_zs g /\ g_zmin h = g_zmin g /\ g_zmax h = g_zmax g /\ g_est h = g_est g.

(** * SpecMeasure: vocabulary for statements about what a program measures *)
From Coq Require Import List Ascii String ZArith NArith Bool Reals.
From Verif Require Import PyBase Arith Gcoder SpecText.
Import ListNotations.

Section Measure.
Context {A : arith}.

(** a G0-G3 move during which the extruder advances *)
Definition extrudes (l : line A) : Prop := is_move l = true /\ t_extruding (lnotes l) = Some true.

(** The Z coordinate after some lines, as far as Z words tell: a G92 sets it,
    a move sets it or, in relative mode, adds to it. *)
Definition z_after (ls : list (line A)) : option (num A) :=
  fold_left (fun z l =>
    match l_z l with
    | None => z
    | Some v =>
        if cmd_is (command l) "G92" then Some v
        else if is_move l then
          match t_relative (lnotes l), z with
          | Some true, Some c => Some (n_add c v)
          | _, _ => Some v
          end
        else z
    end) ls None.

(** [l] sets Z: a move or G92 with a Z word *)
Definition sets_z (l : line A) : Prop :=
  l_z l <> None /\ (is_move l = true \/ command l = Some "G92"%string).

Definition sum_durations (E : exact A) (ys : list (layer A)) : R :=
  fold_right (fun y r => (val E (ly_dur y) + r)%R) 0%R ys.

(** what two programs report, apart from the line objects *)
Definition same_measures (g h : gcode A) : Prop :=
  map raw (g_lines g) = map raw (g_lines h) /\
  map (fun y => map raw (ly_lines y)) (g_layers g) =
    map (fun y => map raw (ly_lines y)) (g_layers h) /\
  map ly_z (g_layers g) = map ly_z (g_layers h) /\
  map ly_dur (g_layers g) = map ly_dur (g_layers h) /\
  g_zs g = g_zs h /\ g_lidx g = g_lidx h /\ g_kidx g = g_kidx h /\
  g_append_id g = g_append_id h /\ g_m g = g_m h /\
  g_xmin g = g_xmin h /\ g_xmax g = g_xmax h /\ g_ymin g = g_ymin h /\ g_ymax g = g_ymax h /\
  g_zmin g = g_zmin h /\ g_zmax g = g_zmax h /\ g_filament g = g_filament h /\
  g_total g = g_total h.

End Measure.

(** the line has no negative dwell time *)
Definition dwell_nonneg (s : string) : Prop :=
  match find_code "P" s with Some p => startswith "-" p = false | None => True end.

(** * Append: commands that are tracked but not stored *)
From Coq Require Import List Bool String.
From Verif Require Import PyBase Arith Gcoder.
Import ListNotations.

(** gcoder.py 389-400 [append], with its flag and the line it returns *)
Definition append_with {A : arith} (store : bool) (cmd : string) (g : gcode A) : res (gcode A * option (line A)) :=
  let c := strip cmd in
  if is_empty c then Ok (g, None)
  else
    do '(m, l) <- motion_step (g_m g) (new_line c);
    let l := if g_light g then new_line c else l in
    if store then
      match nth_error (g_layers g) (g_append_id g) with
      | None => Err IndexError
      | Some y =>
          let lay := (ly_lines y ++ [l])%list in
          Ok (set_mstate m
                (set_lines_layers (g_lines g ++ [l])
                   (set_nth (g_append_id g) (set_ly_lines lay y) (g_layers g))
                   (g_lidx g ++ [g_append_id g]) (g_kidx g ++ [List.length lay]) g), Some l)
      end
    else Ok (set_mstate m g, Some l).

(** * Index: line and layer numbers that count from the end

    The functions of Gcoder.v that take a number, for the numbers Python takes:
    -1 is the last element of a list. *)
From Coq Require Import List ZArith Bool String.
From Verif Require Import PyBase Arith Gcoder.
Import ListNotations.
Local Open Scope Z_scope.

(** where [l[i]] looks in a list or array of length [n]; None is IndexError *)
Definition position (n : nat) (i : Z) : option nat :=
  let j := if i <? 0 then Z.of_nat n + i else i in
  if (0 <=? j) && (j <? Z.of_nat n) then Some (Z.to_nat j) else None.

Section Index.
Context {A : arith}.

(** gcoder.py 780-781 [idxs] *)
Definition idxs_at (g : gcode A) (i : Z) : res (nat * nat) :=
  match position (List.length (g_lidx g)) i with
  | None => Err IndexError
  | Some p =>
      match position (List.length (g_kidx g)) i with
      | None => Err IndexError
      | Some q =>
          match nth_error (g_lidx g) p, nth_error (g_kidx g) q with
          | Some a, Some b => Ok (a, b)
          | _, _ => Err IndexError
          end
      end
  end.

(** gcoder.py 333-336, 362-365: the layer is taken from the list, then its
    number is looked for in the table, whose numbers are not negative.  Once it
    is found the number is not negative, and the rest is [edit]. *)
Definition edit_at {T} (edit : nat -> gcode A -> res T) (k : Z) (g : gcode A) : res T :=
  match position (List.length (g_layers g)) k with
  | None => Err IndexError
  | Some _ =>
      match find_index (fun j => Z.of_nat j =? k) (g_lidx g) with
      | None => Err ValueError
      | Some _ => edit (Z.to_nat k) g
      end
  end.

(** gcoder.py 330-357 [prepend_to_layer], 359-387 [rewrite_layer] *)
Definition prepend_at (cmds : list string) := edit_at (prepend_to_layer cmds).
Definition rewrite_at (cmds : list string) := edit_at (rewrite_layer cmds).

End Index.

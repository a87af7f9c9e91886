(** * SpecAppend: a session of commands, some stored and some not, for C126 *)
From Coq Require Import List Bool String.
From Verif Require Import PyBase Arith Gcoder SpecText SpecLoad Append.
Import ListNotations.

(** the calls one after the other; each is a flag and a command *)
Definition session {A : arith} (calls : list (bool * string)) (g : gcode A) : res (gcode A) :=
  foldM (fun g c => do '(g', _) <- append_with (fst c) (snd c) g; Ok g') calls g.

(** the commands of a session, and those of them to be stored *)
Definition sent (calls : list (bool * string)) : list string := map snd calls.
Definition to_store (calls : list (bool * string)) : list string := map snd (filter fst calls).

(** those of [xs] whose command is to be stored; a blank command is no line *)
Fixpoint chosen {T} (calls : list (bool * string)) (xs : list T) : list T :=
  match calls with
  | [] => []
  | (store, cmd) :: calls =>
      if blank cmd then chosen calls xs
      else match xs with
           | [] => []
           | x :: xs => if store then x :: chosen calls xs else chosen calls xs
           end
  end.

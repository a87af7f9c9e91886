(** * SpecEvents: what callbacks should see *)
From Coq Require Import List.
From Verif Require Import Events.
Import ListNotations.

(** The lines of the first block, the announcement of that block, the lines of
    the next one, and so on; the last block is not announced. *)
Fixpoint announced {T : Type} (i : nat) (bs : list (list T)) : list (event T) :=
  match bs with
  | [] => []
  | [b] => map LineDone b
  | b :: t => map LineDone b ++ LayerDone i :: announced (S i) t
  end.

Definition event_map {T U : Type} (f : T -> U) (e : event T) : event U :=
  match e with LayerDone i => LayerDone i | LineDone l => LineDone (f l) end.

(** the arguments of the line callback, of the layer callback *)
Fixpoint lines_seen {T : Type} (es : list (event T)) : list T :=
  match es with
  | [] => []
  | LineDone l :: t => l :: lines_seen t
  | _ :: t => lines_seen t
  end.
Fixpoint layers_seen {T : Type} (es : list (event T)) : list nat :=
  match es with
  | [] => []
  | LayerDone i :: t => i :: layers_seen t
  | _ :: t => layers_seen t
  end.

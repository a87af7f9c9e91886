(** * SpecArcTime: a program without its arcs, for C128 *)
From Coq Require Import List Bool String.
From Verif Require Import PyBase SpecText SpecLoad SpecMachine.

(** the line is a G2 or G3 move *)
Definition is_arc (s : string) : bool :=
  match command_name s with Some c => String.eqb c "G2" || String.eqb c "G3" | None => false end.

Definition without_arcs (data : list string) : list string := filter (fun s => negb (is_arc s)) (program_text data).

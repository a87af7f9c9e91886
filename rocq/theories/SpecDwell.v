(** * SpecDwell: the time a program waits, for C129 *)
From Coq Require Import List Bool ZArith Ascii String.
From Verif Require Import PyBase SpecText SpecLoad SpecMachine SpecTool.
Local Open Scope string_scope.

(** the line is a G4 command *)
Definition is_dwell (s : string) : bool :=
  match command_name s with Some c => String.eqb c "G4" | None => false end.

Definition without_dwells (data : list string) : list string := filter (fun s => negb (is_dwell s)) (program_text data).

(** nothing follows, or a blank does *)
Definition ends_word (rest : string) : Prop := rest = "" \/ exists r, rest = String " " r.

(** some lines that wait so many milliseconds in all, each time with "G4 P" and
    some digits *)
Inductive waits : list string -> BinNums.Z -> Prop :=
| waits_end : waits nil 0%Z
| waits_other : forall s ss ms, is_dwell s = false -> waits ss ms -> waits (s :: ss)%list ms
| waits_dwell : forall digits rest ss ms, is_dwell ("G4 P" ++ digits ++ rest) = true ->
    digits <> "" -> str_all is_digit digits = true -> ends_word rest ->
    waits ss ms -> waits (cons ("G4 P" ++ digits ++ rest) ss) (decimal 0 digits + ms)%Z.

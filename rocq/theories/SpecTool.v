(** * SpecTool: the selected tool, for C127 *)
From Coq Require Import List ZArith Ascii String.
From Verif Require Import PyBase SpecText SpecMachine.
Local Open Scope Z_scope.

(** the number written by some digits, and by digits behind a sign *)
Fixpoint decimal (acc : BinNums.Z) (s : string) : BinNums.Z :=
  match s with
  | EmptyString => acc
  | String c t => decimal (10 * acc + (Z.of_nat (nat_of_ascii c) - 48)) t
  end.
Definition integer (s : string) : BinNums.Z :=
  match s with
  | String "-" t => - decimal 0 t
  | String "+" t => decimal 0 t
  | _ => decimal 0 s
  end.

(** the tool selected after some lines: the one of the last T command among them *)
Definition tool_after (ss : list string) : BinNums.Z :=
  fold_left (fun t s => match op_of s with Tool n => integer n | _ => t end) ss 0.

(** * SpecFiles: vocabulary of the properties about files *)
From Coq Require Import List Ascii String ZArith.
From Verif Require Import Files.
Import ListNotations.

(** the file system when the run [r], started in [f], is over *)
Definition after (r : effect) (f : files) : files := perform_all (e_ops r) f.

(** [f'] is a state of the file system during the run [r] started in [f]: one
    that is left behind if the machine stops there *)
Definition moment (r : effect) (f f' : files) : Prop :=
  exists k, f' = perform_all (firstn k (e_ops r)) f.

(** a text with the line ends of DOS *)
Fixpoint dos (s : string) : string :=
  match s with
  | EmptyString => EmptyString
  | String c t => if Ascii.eqb c LF then String CR (String LF (dos t)) else String c (dos t)
  end.

Definition has_char (c : ascii) (s : string) : Prop := exists a b, s = (a ++ String c b)%string.

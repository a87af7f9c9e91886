(** * SpecVector: vocabulary for statements about vectors *)
From Coq Require Import Reals.
From Verif Require Import Arith ArithR Vector.
Local Open Scope R_scope.

(** componentwise order *)
Definition below (a b : vec RA) : Prop := vx a <= vx b /\ vy a <= vy b /\ vz a <= vz b.

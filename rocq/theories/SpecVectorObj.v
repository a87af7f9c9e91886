(** * SpecVectorObj: words for statements about vector objects *)
From Coq Require Import List String ZArith Bool Reals.
From Verif Require Import PyBase Arith ArithR Vector VectorObj.
Import ListNotations.
Local Open Scope list_scope.

Section VectorObj.
Context {A : arith}.

(** the memory with another vector at one place *)
Definition replaced (r : nat) (v : vec A) (h : memory A) : memory A :=
  firstn r h ++ [v] ++ skipn (S r) h.

(** the objects a statement mentions *)
Definition mentions (st : statement A) : list nat :=
  match st with
  | New _ _ _ => []
  | Copy r | Neg r | Mul r _ | Div r _ | RDiv _ r | FloorDiv r _ | RFloorDiv _ r | Normalized r
  | IMul r _ | IDiv r _ | IFloorDiv r _ | Normalize r | SetXYZ r _ _ _ | SetAttribute r _ _ => [r]
  | Add r s | Sub r s | Cross r s | Reflect r s | IAdd r s | ISub r s
  | Maximize r s | Minimize r s | SetTo r s => [r; s]
  end.

(** they exist *)
Definition exists_in (h : memory A) (st : statement A) : Prop :=
  Forall (fun r => r < List.length h) (mentions st).

(** the object a statement changes, None for those that make a new one *)
Definition changes (st : statement A) : option nat :=
  match st with
  | IAdd r _ | ISub r _ | IMul r _ | IDiv r _ | IFloorDiv r _ | Maximize r _ | Minimize r _
  | Normalize r | SetTo r _ | SetXYZ r _ _ _ | SetAttribute r _ _ => Some r
  | _ => None
  end.

(** the expression whose value an in-place statement assigns *)
Definition assigned (st : statement A) : option (statement A) :=
  match st with
  | IAdd r s => Some (Add r s)
  | ISub r s => Some (Sub r s)
  | IMul r k => Some (Mul r k)
  | IDiv r k => Some (Div r k)
  | IFloorDiv r k => Some (FloorDiv r k)
  | Normalize r => Some (Normalized r)
  | SetTo r s => Some (Copy s)
  | SetXYZ r x y z => Some (New x y z)
  | _ => None
  end.
End VectorObj.

(** the greatest integer that is not above a real number *)
Definition floor_of (x f : R) : Prop := exists n : Z, f = IZR n /\ (f <= x < f + 1)%R.

(** * Properties C107 and C108: vector objects and floor division *)
From Coq Require Import List String ZArith Bool Reals Lra.
From Verif Require Import PyBase Arith ArithR ArithB64 Vector VectorObj SpecVector SpecVectorObj P_VectorObj.
Import ListNotations.
Local Open Scope list_scope.

(** C107: an in-place operator leaves in its vector what the operator returns,
    also when both operands are the same object, and raises what the operator
    raises, changing nothing... *)
Theorem C107_in_place :
  forall (A : arith) st op r (h : memory A), assigned st = Some op -> changes st = Some r -> exists_in h st ->
    match execute op h with
    | (h', None) => execute st h = (replaced r (last h' origin) h, None)
    | (_, Some e) => execute st h = (h, Some e)
    end.
Proof. exact @in_place. Qed.
Print Assumptions C107_in_place.

(** ... [maximize] and [minimize] leave the bound of the two (C66_order)... *)
Theorem C107_extremes :
  forall (A : arith) r s (h : memory A), r < List.length h ->
    execute (Maximize r s) h = (replaced r (maximize (at_ref r h) (at_ref s h)) h, None) /\
    execute (Minimize r s) h = (replaced r (minimize (at_ref r h) (at_ref s h)) h, None).
Proof. exact @extremes. Qed.
Print Assumptions C107_extremes.

(** ... all other methods make a new vector or raise ZeroDivisionError, and change
    none... *)
Theorem C107_operators :
  forall (A : arith) st (h : memory A), changes st = None ->
    (exists v, execute st h = (h ++ [v], None)) \/ execute st h = (h, Some ZeroDivisionError).
Proof. exact @operators. Qed.
Print Assumptions C107_operators.

(** ... so that, whatever a program does, a vector it never changes in place is
    what it was, even if the program raises. *)
Theorem C107_untouched :
  forall (A : arith) sts (h : memory A) s, s < List.length h -> (forall st, In st sts -> changes st <> Some s) ->
    at_ref s (fst (execute_all sts h)) = at_ref s h.
Proof. exact @untouched. Qed.
Print Assumptions C107_untouched.

(** The accessible attributes are x, y and z: what is set is what is read, and
    nothing else changes; setting any other name does nothing. *)
Theorem C107_attributes :
  forall (A : arith) r name x (h : memory A), r < List.length h ->
    (In name ["x"; "y"; "z"]%string ->
       exists h', execute (SetAttribute r name x) h = (h', None) /\ get_attribute r name h' = Some x /\
         (forall s other, other <> name \/ s <> r -> get_attribute s other h' = get_attribute s other h)) /\
    (~ In name ["x"; "y"; "z"]%string ->
       execute (SetAttribute r name x) h = (h, None) /\ get_attribute r name h = None).
Proof. exact @attribute. Qed.
Print Assumptions C107_attributes.

Example C107_example :
  let h := [Vec (A:=B64) (lit 1 0) (lit 2 0) (lit 3 0); Vec (lit 4 0) (lit 5 0) (lit 6 0)] in
  exists_in h (IAdd 1 1) /\ exists_in h (IDiv 0 n0) /\
  forallb (fun v => v_eqb v (Vec (lit 8 0) (lit 10 0) (lit 12 0))) (skipn 1 (fst (execute (IAdd 1 1) h))) = true.
Proof.
  split; [|split]; [repeat constructor..|vm_compute; reflexivity].
Qed.

(** C108: floor division gives, for every component, the greatest integer that
    is not above the quotient; dividing by zero raises... *)
Theorem C108_floor : forall (a : vec RA) (k : R),
  (k <> 0%R -> exists b, v_floordiv a k = Ok b /\
     floor_of (vx a / k) (vx b) /\ floor_of (vy a / k) (vy b) /\ floor_of (vz a / k) (vz b)) /\
  (k = 0%R -> v_floordiv a k = Err ZeroDivisionError).
Proof. exact floor_division. Qed.
Print Assumptions C108_floor.

(** ... a number divided by a vector raises exactly if a component is zero. *)
Theorem C108_reverse : forall (k : R) (a : vec RA),
  (vx a <> 0%R -> vy a <> 0%R -> vz a <> 0%R ->
     v_rdiv (A:=RA) k a = Ok (Vec (A:=RA) (k / vx a)%R (k / vy a)%R (k / vz a)%R) /\
     exists b, v_rfloordiv (A:=RA) k a = Ok b /\
       floor_of (k / vx a) (vx b) /\ floor_of (k / vy a) (vy b) /\ floor_of (k / vz a) (vz b)) /\
  (vx a = 0%R \/ vy a = 0%R \/ vz a = 0%R ->
     v_rdiv (A:=RA) k a = Err ZeroDivisionError /\ v_rfloordiv (A:=RA) k a = Err ZeroDivisionError).
Proof. exact reverse_division. Qed.
Print Assumptions C108_reverse.

Example C108_example : exists a : vec RA, vx a <> 0%R /\ vy a <> 0%R /\ vz a <> 0%R.
Proof. exists (Vec (A:=RA) 1%R (-2)%R 3%R). cbn. repeat split; lra. Qed.

(** The list of the components, and what dropping an axis leaves of it. *)
Theorem C108_coordinates : forall (A : arith) (a : vec A),
  float_list a = [vx a; vy a; vz a] /\
  (forall i p q, drop a i = Some (p, q) <-> i < 3 /\ [p; q] = firstn i (float_list a) ++ skipn (S i) (float_list a)).
Proof. exact coordinates. Qed.
Print Assumptions C108_coordinates.

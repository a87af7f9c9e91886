(** * Property C131: programs that compare equal and move absolutely *)
From Coq Require Import List String Reals.
From Verif Require Import PyBase Arith ArithQ Gcoder SpecLoad SpecEqual SpecOrders Samples P_OrdersNear P_OrdersNearSample.
Import ListNotations.

(** C131, exact arithmetic: two programs that compare equal in both orders, with
    absolute moves only, end within a thousandth of each other on each axis, however
    many moves they have.  Missing: the extruder, and the size and duration. *)
Theorem C131_near_partial :
  forall (A : arith) (E : exact A) home data data' (g h : gcode A),
    load_gen false home data = Ok g -> load_gen false home data' = Ok h ->
    gcode_eqb g h = true -> gcode_eqb h g = true -> plain_moves g ->
    (Rabs (val E (m_x (g_m g)) - val E (m_x (g_m h))) <= / 1000)%R /\
    (Rabs (val E (m_y (g_m g)) - val E (m_y (g_m h))) <= / 1000)%R /\
    (Rabs (val E (m_z (g_m g)) - val E (m_z (g_m h))) <= / 1000)%R.
Proof. exact @equal_near. Qed.
Print Assumptions C131_near_partial.

(** two programs that compare equal and end at different places *)
Example C131_near_example :
  exists g h : gcode QA, load_gen false home0 rough = Ok g /\ load_gen false home0 fine = Ok h /\
    gcode_eqb g h = true /\ gcode_eqb h g = true /\ plain_moves g /\ n_ltb (m_x (g_m g)) (m_x (g_m h)) = true.
Proof. exact rough_fine. Qed.

(** * Property C131: programs that compare equal *)
From Coq Require Import List String NArith.
From Verif Require Import PyBase Arith ArithB64 Gcoder SpecLoad SpecEqual SpecOrders Samples P_Orders P_OrdersSample.
Import ListNotations.

(** C131, every arithmetic: two programs that give the same commands with the
    same numbers, however they are written, leave the machine in the same state
    and need the same filament.  Missing: numbers that are only nearly the same. *)
Theorem C131_machine_partial :
  forall (A : arith) home data data' (g h : gcode A),
    load_gen false home data = Ok g -> load_gen false home data' = Ok h ->
    same_orders g h -> g_m g = g_m h /\ g_filament g = g_filament h.
Proof. exact @orders_machine. Qed.
Print Assumptions C131_machine_partial.

(** C131, every arithmetic: if there is no G4 among them they have the same size
    and heights and the same duration. *)
Theorem C131_size_partial :
  forall (A : arith) home data data' (g h : gcode A),
    load_gen false home data = Ok g -> load_gen false home data' = Ok h ->
    same_orders g h -> never_waits g -> same_size g h.
Proof. exact @orders_size. Qed.
Print Assumptions C131_size_partial.

(** a program and the same with comments, line numbers, other cases and other
    spellings of its numbers *)
Example C131_example :
  exists g h : gcode B64, load_gen false home0 tidy = Ok g /\ load_gen false home0 untidy = Ok h /\
    same_orders g h /\ never_waits g.
Proof. exact both_tidy. Qed.

(** C131 is false of the code for words other than X, Y, Z, E, F, I and J, which
    are not compared: the programs are equal, one heats and the other cools, and
    one lasts more than a second longer. *)
Theorem C131_parameters_refuted :
  exists g h : gcode B64,
    load_gen false home0 ["M104 S200"; "G4 P1"]%string = Ok g /\
    load_gen false home0 ["M104 S0"; "G4 P2000"]%string = Ok h /\
    gcode_eqb g h = true /\ gcode_eqb h g = true /\ n_ltb (n_add (g_total g) n1) (g_total h) = true.
Proof. exact hot_and_cold. Qed.
Print Assumptions C131_parameters_refuted.

(** C131 is false of the code for relative moves: numbers may differ by a
    thousandth, and fifty such moves end 0.049 mm apart. *)
Theorem C131_drift_refuted :
  exists g h : gcode B64,
    load_gen false home0 ("G91" :: repeat "G1 X1" 50)%string = Ok g /\
    load_gen false home0 ("G91" :: repeat "G1 X1.001" 50)%string = Ok h /\
    gcode_eqb g h = true /\ gcode_eqb h g = true /\
    n_ltb (n_add (m_x (g_m g)) (lit 49 3)) (m_x (g_m h)) = true.
Proof. exact drifting. Qed.
Print Assumptions C131_drift_refuted.

(** * P_OrdersNearSample: two programs that are nearly the same (C131) *)
From Coq Require Import List Bool String.
From Verif Require Import PyBase Arith ArithQ Gcoder SpecText SpecLoad SpecEqual SpecOrders Samples.
Import ListNotations.
Open Scope bool_scope.

Definition rough : list string := ["G21"; "G90"; "G1 Z0.2"; "G1 X10 Y20 E1.5"; "G1 X20"]%string.
Definition fine : list string := ["G21"; "G90"; "G1 Z0.2003"; "G1 X10.0004 Y19.9995 E1.5"; "G1 X20.0007"]%string.

Definition plainb (l : line QA) : bool :=
  negb (cmd_is (command l) "G91") && negb (cmd_is (command l) "G92") && negb (cmd_is (command l) "G28").

Definition near_seen : bool :=
  match load_gen (A:=QA) false home0 rough, load_gen (A:=QA) false home0 fine with
  | Ok g, Ok h => gcode_eqb g h && gcode_eqb h g && forallb plainb (commands_of g) && n_ltb (m_x (g_m g)) (m_x (g_m h))
  | _, _ => false end.

Lemma rough_fine : exists g h : gcode QA, load_gen false home0 rough = Ok g /\ load_gen false home0 fine = Ok h /\
  gcode_eqb g h = true /\ gcode_eqb h g = true /\ plain_moves g /\ n_ltb (m_x (g_m g)) (m_x (g_m h)) = true.
Proof.
  assert (H : near_seen = true) by (vm_compute; reflexivity). unfold near_seen in H.
  destruct (load_gen (A:=QA) false home0 rough) as [g|e]; [|discriminate H].
  destruct (load_gen (A:=QA) false home0 fine) as [h|e]; [|discriminate H].
  apply andb_prop in H as [H H4]. apply andb_prop in H as [H H3]. apply andb_prop in H as [H1 H2].
  exists g, h. split; [reflexivity|]. split; [reflexivity|]. split; [exact H1|]. split; [exact H2|]. split; [|exact H4].
  apply Forall_forall. intros l Hl. rewrite forallb_forall in H3. specialize (H3 _ Hl). unfold plainb in H3.
  repeat split; intros Hc; rewrite Hc in H3; discriminate H3.
Qed.

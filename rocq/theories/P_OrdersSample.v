(** * P_OrdersSample: programs that compare equal (C131) *)
From Coq Require Import List Bool String NArith ZArith SpecFloat.
From Verif Require Import PyBase Arith ArithB64 Gcoder SpecText SpecLoad SpecMachine SpecEqual SpecOrders Samples.
Import ListNotations.
Open Scope bool_scope.

(** one program, written twice *)
Definition tidy : list string :=
  ["G21"; "G90"; "G1 Z0.2 F600"; "G1 X10 Y20 E1.5"; "M107"; "G1 X20"]%string.
Definition untidy : list string :=
  ["; a comment"; "g21"; "N2 G90*12"; "G1 F600. Z+0.2 ; up"; ""; "  g1 x010.0 y20 e1.50"; "M107"; "(note)"; "G1 X20.000"]%string.

Definition sf_same (a b : spec_float) : bool :=
  match a, b with
  | S754_finite s m e, S754_finite s' m' e' => Bool.eqb s s' && Pos.eqb m m' && Z.eqb e e'
  | S754_zero s, S754_zero s' => Bool.eqb s s'
  | _, _ => false
  end.
Lemma sf_same_eq : forall a b, sf_same a b = true -> a = b.
Proof.
  intros [s|s| |s m e] [s'|s'| |s' m' e'] H; try discriminate H; cbn in H.
  - apply Bool.eqb_prop in H. congruence.
  - apply andb_prop in H as [H H3]. apply andb_prop in H as [H1 H2].
    apply Bool.eqb_prop in H1. apply Pos.eqb_eq in H2. apply Z.eqb_eq in H3. congruence.
Qed.

Definition opt_same (a b : option (num B64)) : bool :=
  match a, b with Some x, Some y => sf_same x y | None, None => true | _, _ => false end.
Lemma opt_same_eq : forall a b, opt_same a b = true -> a = b.
Proof. intros [x|] [y|] H; try discriminate H; [f_equal; apply sf_same_eq, H|reflexivity]. Qed.

Definition line_same (l l' : line B64) : bool :=
  cmd_eqb (command l) (command l') && forallb (fun k => opt_same (get_arg k (largs l)) (get_arg k (largs l'))) all_letters.
Lemma line_same_eq : forall l l', line_same l l' = true -> command l = command l' /\ largs l = largs l'.
Proof.
  intros l l' H. unfold line_same in H. apply andb_prop in H as [H1 H2]. split.
  - destruct (command l), (command l'); try discriminate H1; [apply String.eqb_eq in H1; congruence|reflexivity].
  - cbn [forallb all_letters] in H2. repeat (apply andb_prop in H2 as [?H H2]).
    destruct (largs l) as [x1 x2 x3 x4 x5 x6 x7], (largs l') as [y1 y2 y3 y4 y5 y6 y7]. cbn [get_arg a_x a_y a_z a_e a_f a_i a_j] in *.
    repeat match goal with H : opt_same _ _ = true |- _ => apply opt_same_eq in H end. congruence.
Qed.

Fixpoint lines_same (a b : list (line B64)) : bool :=
  match a, b with
  | x :: a', y :: b' => line_same x y && lines_same a' b'
  | [], [] => true
  | _, _ => false
  end.
Lemma lines_same_eq : forall a b, lines_same a b = true -> Forall2 (fun l l' => command l = command l' /\ largs l = largs l') a b.
Proof.
  induction a as [|x a IH]; intros [|y b] H; try discriminate H; [constructor|].
  cbn in H. apply andb_prop in H as [H1 H2]. constructor; [apply line_same_eq, H1|apply IH, H2].
Qed.

Definition both_seen : bool :=
  match load_gen (A:=B64) false home0 tidy, load_gen (A:=B64) false home0 untidy with
  | Ok g, Ok h => lines_same (commands_of g) (commands_of h) &&
                  forallb (fun l => negb (cmd_is (command l) "G4")) (commands_of g) && Nat.eqb (List.length (commands_of g)) 6
  | _, _ => false end.

Lemma both_tidy : exists g h : gcode B64, load_gen false home0 tidy = Ok g /\ load_gen false home0 untidy = Ok h /\
  same_orders g h /\ never_waits g.
Proof.
  assert (H : both_seen = true) by (vm_compute; reflexivity). unfold both_seen in H.
  destruct (load_gen (A:=B64) false home0 tidy) as [g|e]; [|discriminate H].
  destruct (load_gen (A:=B64) false home0 untidy) as [h|e]; [|discriminate H].
  apply andb_prop in H as [H _]. apply andb_prop in H as [H1 H2].
  exists g, h. split; [reflexivity|]. split; [reflexivity|]. split; [exact (lines_same_eq _ _ H1)|].
  unfold never_waits. apply Forall_forall. intros l Hl Hc. rewrite forallb_forall in H2. specialize (H2 _ Hl).
  rewrite Hc in H2. discriminate H2.
Qed.

(** ** Programs that compare equal and are not *)

Definition equal_but (p q : list string) (f : gcode B64 -> gcode B64 -> bool) : bool :=
  match load_gen (A:=B64) false home0 p, load_gen (A:=B64) false home0 q with
  | Ok g, Ok h => gcode_eqb g h && gcode_eqb h g && f g h
  | _, _ => false end.

Lemma equal_but_loaded : forall p q f, equal_but p q f = true ->
  exists g h, load_gen (A:=B64) false home0 p = Ok g /\ load_gen (A:=B64) false home0 q = Ok h /\
    gcode_eqb g h = true /\ gcode_eqb h g = true /\ f g h = true.
Proof.
  intros p q f H. unfold equal_but in H. destruct (load_gen (A:=B64) false home0 p) as [g|e]; [|discriminate H].
  destruct (load_gen (A:=B64) false home0 q) as [h|e]; [|discriminate H].
  apply andb_prop in H as [H H3]. apply andb_prop in H as [H1 H2]. exists g, h. auto.
Qed.

Lemma hot_and_cold : exists g h : gcode B64,
  load_gen false home0 ["M104 S200"; "G4 P1"]%string = Ok g /\ load_gen false home0 ["M104 S0"; "G4 P2000"]%string = Ok h /\
  gcode_eqb g h = true /\ gcode_eqb h g = true /\ n_ltb (n_add (g_total g) n1) (g_total h) = true.
Proof. apply equal_but_loaded. vm_compute. reflexivity. Qed.

Lemma drifting : exists g h : gcode B64,
  load_gen false home0 ("G91" :: repeat "G1 X1" 50)%string = Ok g /\ load_gen false home0 ("G91" :: repeat "G1 X1.001" 50)%string = Ok h /\
  gcode_eqb g h = true /\ gcode_eqb h g = true /\
  n_ltb (n_add (m_x (g_m g)) (lit 49 3)) (m_x (g_m h)) = true.
Proof. apply equal_but_loaded. vm_compute. reflexivity. Qed.

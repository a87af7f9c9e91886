(** * P_Rewrite: what a rewritten move asks of the machine (C23, C35) *)
From Coq Require Import List Ascii String ZArith NArith Bool Lia Reals Lra.
From Verif Require Import PyBase Arith ArithR Gcoder SpecText SpecLoad SpecMachine SpecEqual SpecFilter SpecFree.
From Verif Require Import P_Load P_Text P_Report P_Wf P_Machine P_Format P_FilterMotion.
Import ListNotations.
Local Open Scope list_scope.
Local Open Scope R_scope.

Section Rewrite.
Context {A : arith}.
Variable E : exact A.
Notation val := (val E).

Lemma apart_round3 : forall q (o : option (num A)) w, option_map val o = option_map (Rmult q) w ->
  apart (/ 2000) (option_map (fun v => val (py_round 3 v)) o) (option_map (Rmult q) w).
Proof. intros q [v|] w <-; cbn; [apply round3|exact I]. Qed.

Lemma apart_round5 : forall q (o : option (num A)) w, option_map val o = option_map (Rmult q) w ->
  apart (/ 200000) (option_map (fun v => val (py_round 5 v)) o) (option_map (Rmult q) w).
Proof. intros q [v|] w <-; cbn; [apply round5|exact I]. Qed.

Lemma rewrite_move : forall (m m' : mstate A) s l w e f,
  motion_step m (new_line s) = Ok (m', l) -> op_of s = Move w e f ->
  moves_as (if m_imperial m then 254 / 10 else 1) w e f (raw (unsplit l)).
Proof.
  intros m m' s l w e f H Ho. unfold op_of in Ho.
  destruct (command_name s) as [c|] eqn:Hc; [|discriminate Ho].
  destruct (str_mem c ["G0"; "G1"; "G2"; "G3"]%string) eqn:Em.
  2:{ repeat match type of Ho with (if ?b then _ else _) = _ => destruct b; [discriminate Ho|] end.
      destruct c as [|d t]; [discriminate Ho|]. clear - Ho. exfalso. all_chars d; discriminate Ho. }
  injection Ho as <- <- <-.
  assert (Hg : first_is "G" c = true).
  { apply str_mem_in in Em. cbn [In] in Em.
    repeat (destruct Em as [<-|Em]; [reflexivity|]). destruct Em. }
  destruct (motion_some _ _ _ _ _ Hc H) as (s1 & l1 & ext & H1 & H2 & H3 & ->).
  assert (Hs1 : m_imperial s1 = m_imperial m).
  { destruct (update_modes_modes _ _ _ _ Hc H1) as (_ & _ & M3 & _). rewrite M3.
    unfold mode_inch, op_of. rewrite Hc, Em. reflexivity. }
  assert (Hgc : g_command c) by (apply (read_g_command s c Hc Hg)).
  assert (Hk : forall k, option_map val (get_arg k (largs l1)) =
    option_map (Rmult (if m_imperial m then 254 / 10 else 1)) (number_of (letter_code k) (words s))).
  { intros k. rewrite (parsed_arg E _ _ _ _ k H2 Hg), Hs1.
    destruct (number_of _ _) as [v|]; [|reflexivity]. cbn. f_equal. unfold scaled.
    destruct (m_imperial m); lra. }
  assert (Hcl : command l1 = Some c) by (destruct H2 as (_ & H2 & _); exact H2).
  destruct (op_unsplit_move E c (largs l1) Hgc Em) as (w' & e' & f' & Ho & Hw & He & Hf).
  exists w', e', f'. unfold unsplit. cbn [raw set_raw command set_notes largs]. rewrite Hcl.
  split; [exact Ho|]. split; [|split].
  - intros a. rewrite Hw. apply apart_round3. destruct a; [apply (Hk LX)|apply (Hk LY)|apply (Hk LZ)].
  - rewrite He. apply apart_round5. apply (Hk LE).
  - rewrite Hf. apply apart_round3. apply (Hk LF).
Qed.

Lemma rewrite_mm : forall (m m' : mstate A) s l w e f,
  motion_step m (new_line s) = Ok (m', l) -> op_of s = Move w e f -> m_imperial m = false ->
  moves_as 1 w e f (raw (unsplit l)).
Proof. intros m m' s l w e f H Ho Hi. pose proof (rewrite_move _ _ _ _ _ _ _ H Ho) as R. rewrite Hi in R. exact R. Qed.

Lemma rewrite_inch : forall (m m' : mstate A) s l w e f,
  motion_step m (new_line s) = Ok (m', l) -> op_of s = Move w e f -> m_imperial m = true ->
  moves_as (254 / 10) w e f (raw (unsplit l)).
Proof. intros m m' s l w e f H Ho Hi. pose proof (rewrite_move _ _ _ _ _ _ _ H Ho) as R. rewrite Hi in R. exact R. Qed.

End Rewrite.

(** * P_Tool: the tool of a move (C127) *)
From Coq Require Import List Ascii String ZArith NArith Bool Lia.
From Verif Require Import PyBase Arith ArithB64 Gcoder SpecText SpecLoad SpecMachine SpecTool Samples P_Text P_Load P_Append P_Machine.
Import ListNotations.
Local Open Scope list_scope.

Lemma digit_decimal : forall c, is_digit c = true -> Z.of_N (digit_val c) = (Z.of_nat (nat_of_ascii c) - 48)%Z.
Proof. intros c. all_chars c; intros H; try discriminate H; reflexivity. Qed.

Lemma digits_decimal : forall s a, str_all is_digit s = true -> Z.of_N (digits_val_acc a s) = decimal (Z.of_N a) s.
Proof.
  induction s as [|c s IH]; intros a H; cbn [digits_val_acc decimal]; [reflexivity|].
  cbn [str_all] in H. apply andb_true_iff in H as [Hc Hs]. rewrite (IH _ Hs). f_equal.
  rewrite N2Z.inj_add, N2Z.inj_mul, (digit_decimal _ Hc). reflexivity.
Qed.

Lemma py_int_integer : forall s z, py_int s = Some z -> z = integer s.
Proof.
  assert (D : forall s, str_all is_digit s = true -> Z.of_N (digits_val s) = decimal 0 s)
    by (intros s H; apply (digits_decimal s 0 H)).
  intros s z H. unfold py_int, integer in *. destruct s as [|c t]; [discriminate H|].
  destruct (Ascii.eqb c "-") eqn:E1; [apply Ascii.eqb_eq in E1; subst c|].
  { destruct (negb (is_empty t) && str_all is_digit t) eqn:E; [|discriminate H]. apply andb_true_iff in E as [_ E].
    injection H as <-. rewrite (D _ E). reflexivity. }
  destruct (Ascii.eqb c "+") eqn:E2; [apply Ascii.eqb_eq in E2; subst c|].
  { destruct (negb (is_empty t) && str_all is_digit t) eqn:E; [|discriminate H]. apply andb_true_iff in E as [_ E].
    injection H as <-. rewrite (D _ E). reflexivity. }
  assert (H' : (if negb (is_empty (String c t)) && str_all is_digit (String c t) then Some (Z.of_N (digits_val (String c t))) else None) = Some z)
    by (revert H; clear - E1 E2; all_chars c; try discriminate E1; try discriminate E2; intros H; exact H).
  clear H. destruct (negb _ && _) eqn:E; [|discriminate H']. apply andb_true_iff in E as [_ E]. injection H' as <-. rewrite (D _ E).
  clear - E1 E2. all_chars c; try discriminate E1; try discriminate E2; reflexivity.
Qed.

Section Any.
Context {A : arith}.

Definition next_tool (t : BinNums.Z) (s : string) : BinNums.Z := match op_of s with Tool n => integer n | _ => t end.

Lemma modes_tool : forall c (m m1 : mstate A) s, command_name s = Some c ->
  update_modes c (str_mem c move_gcodes) m = Ok m1 -> m_tool m1 = next_tool (m_tool m) s.
Proof.
  intros c m m1 s Hc H. unfold next_tool, op_of. rewrite Hc.
  change (str_mem c ["G0"; "G1"; "G2"; "G3"]%string) with (str_mem c move_gcodes).
  unfold update_modes in H. destruct (str_mem c move_gcodes); [injection H as <-; reflexivity|].
  destruct (String.eqb c "G28") eqn:E28; [apply String.eqb_eq in E28; subst c; injection H as <-; reflexivity|].
  destruct (String.eqb c "G92") eqn:E92; [apply String.eqb_eq in E92; subst c; injection H as <-; reflexivity|].
  repeat match type of H with context [if String.eqb c ?x then _ else _] =>
    destruct (String.eqb c x); [injection H as <-; reflexivity|] end.
  destruct c as [|d t]; [injection H as <-; reflexivity|].
  destruct (Ascii.eqb d "T") eqn:Ed.
  - apply Ascii.eqb_eq in Ed. subst d. destruct (py_int t) as [z|] eqn:Ez; [|discriminate H].
    injection H as <-. exact (py_int_integer _ _ Ez).
  - assert (Hm : m1 = m) by (all_chars d; try congruence; discriminate Ed). subst m1.
    all_chars d; try reflexivity; discriminate Ed.
Qed.

Lemma motion_tool : forall (m m' : mstate A) s l, motion_step m (new_line s) = Ok (m', l) ->
  m_tool m' = next_tool (m_tool m) s /\ (is_move l = true -> t_tool (lnotes l) = Some (m_tool m)).
Proof.
  intros m m' s l H. destruct (command_name s) as [c|] eqn:Hc.
  - destruct (motion_some _ _ _ _ _ Hc H) as (s1 & l1 & ext & H1 & H2 & H3 & ->).
    pose proof (modes_tool _ _ _ _ Hc H1) as Ht.
    destruct (update_extrusion_fixed _ _ _ _ H3) as (_ & _ & _ & X & _).
    destruct (update_position_fixed l1 s1) as (_ & _ & _ & Y & _).
    split; [congruence|]. destruct H2 as (_ & _ & Hmv & _).
    cbn [is_move set_notes lnotes position_notes t_tool]. intros El. rewrite El.
    rewrite <- Hmv, El in H1. cbn [update_modes] in H1. injection H1 as <-. reflexivity.
  - destruct (motion_none _ _ _ _ Hc H) as (-> & _ & Hmv & _).
    unfold next_tool, op_of. rewrite Hc, Hmv. split; [reflexivity|discriminate].
Qed.

Lemma trace_tool : forall ts ls (m m' : mstate A), trace m ts ls m' ->
  m_tool m' = fold_left next_tool ts (m_tool m) /\
  forall i l, nth_error ls i = Some l -> is_move l = true ->
    t_tool (lnotes l) = Some (fold_left next_tool (firstn i ts) (m_tool m)).
Proof.
  intros ts ls m m' H. induction H as [m|m s l m1 ts ls m' Hs Ht [IH1 IH2]].
  - split; [reflexivity|]. intros i l Hi. destruct i; discriminate Hi.
  - destruct (motion_tool _ _ _ _ Hs) as [H1 H2]. cbn [fold_left]. rewrite <- H1. split; [exact IH1|].
    intros i l0 Hi Hm. destruct i as [|i]; cbn [nth_error] in Hi.
    + injection Hi as <-. exact (H2 Hm).
    + cbn [firstn fold_left]. rewrite <- H1. exact (IH2 i l0 Hi Hm).
Qed.

Lemma load_tool : forall light home data (g : gcode A), load_gen light home data = Ok g ->
  m_tool (g_m g) = tool_after (program_text data) /\
  (light = false -> forall i l, nth_error (g_lines g) i = Some l -> is_move l = true ->
     t_tool (lnotes l) = Some (tool_after (firstn i (program_text data)))).
Proof.
  intros light home data g H. apply load_trace in H as (ls & Ht & Hl). destruct home as [[hx hy] hz].
  destruct (trace_tool _ _ _ _ Ht) as [H1 H2]. split; [exact H1|].
  intros Hf i l Hi Hm. rewrite (Hl Hf) in Hi. exact (H2 i l Hi Hm).
Qed.

End Any.

Definition two_tools : list string := ["G1 X1"; "T1"; "G28 X"; "G1 X2"; "t12 ; wide"; "G1 X3"; "T0"]%string.
Definition tools_seen : bool :=
  match load_gen (A:=B64) false home0 two_tools with
  | Ok g => forallb (fun p => match t_tool (lnotes (fst p)), snd p with Some a, Some b => Z.eqb a b | None, None => true | _, _ => false end)
              (combine (g_lines g) [Some 0; None; None; Some 1; None; Some 12; None]%Z) && Z.eqb (m_tool (g_m g)) 0
  | Err _ => false
  end.
Lemma tools_sample : tools_seen = true.
Proof. vm_compute. reflexivity. Qed.

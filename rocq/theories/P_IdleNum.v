(** * P_IdleNum: idle lines in exact arithmetic and for doubles (C115) *)
From Coq Require Import List Ascii String ZArith NArith Bool Lia Reals Lra Floats.SpecFloat.
From Flocq Require Import Core BinarySingleNaN.
From Verif Require Import PyBase Arith ArithB64 Gcoder SpecText SpecLoad SpecFree SpecMachine SpecFilter SpecArc SpecIdle SpecBinary64.
From Verif Require Import P_Load P_Text P_Machine P_Layers P_Wf P_Float P_FloatText P_FloatTempcal P_FloatHypot P_FloatTime P_Idle P_Measure.
Import ListNotations.
Local Open Scope list_scope.

Lemma load_idle_exact : forall (A : arith) (E : exact A) light home d d',
  more (fun s => idle s = true) (program_text d) (program_text d') ->
  match load_gen (A:=A) light home d, load_gen light home d' with
  | Ok g, Ok h => same_run g h /\ (program_text d <> [] -> same_levels g h)
  | Err e, Err e' => e = e'
  | _, _ => False
  end.
Proof.
  intros A E light home d d' H.
  apply (load_idle (fun _ => True) (fun _ => True)); [intros z _; apply (opt_eqb_refl E)|auto|exact I|exact H|].
  apply Forall_forall. auto.
Qed.

Local Open Scope R_scope.

(** ** Doubles *)

Definition level : R := bpow radix2 200.
Definition calm (z : option (num B64)) : Prop := match z with Some x => fin x /\ Rabs (fval x) <= level | None => True end.
Definition small (x : num B64) : Prop := fin x /\ Rabs (fval x) <= 10 ^ 30.

Lemma calm_eq : forall z, calm z -> opt_eqb z z = true.
Proof. intros [x|] H; [|reflexivity]. apply (feqb_val x x (proj1 H) (proj1 H)). reflexivity. Qed.

Lemma thirty_level : 10 ^ 30 <= bpow radix2 147.
Proof.
  change (bpow radix2 147) with (IZR (2 ^ 147)). replace (10 ^ 30) with (IZR (10 ^ 30)) by (rewrite pow_IZR; reflexivity).
  apply IZR_le. vm_compute. discriminate.
Qed.
Lemma thirty_strict : 10 ^ 30 < bpow radix2 147.
Proof.
  change (bpow radix2 147) with (IZR (2 ^ 147)). replace (10 ^ 30) with (IZR (10 ^ 30)) by (rewrite pow_IZR; reflexivity).
  apply IZR_lt. vm_compute. reflexivity.
Qed.

Lemma rnd_level : rnd (level + 10 ^ 30) <= level.
Proof.
  apply round_N_le_midp; [apply fexp_correct; reflexivity| |].
  - apply generic_format_bpow. vm_compute. discriminate.
  - rewrite succ_eq_pos by (apply bpow_ge_0). unfold level. rewrite ulp_bpow.
    change (SpecFloat.fexp prec emax (200 + 1)) with 148%Z.
    assert (bpow radix2 148 = 2 * bpow radix2 147).
    { change 2 with (bpow radix2 1). rewrite <- bpow_plus. reflexivity. }
    pose proof thirty_strict. lra.
Qed.

Lemma small_calm : forall x, small x -> calm (Some x).
Proof.
  intros x [F H]. split; [exact F|]. eapply Rle_trans; [exact H|]. eapply Rle_trans; [apply thirty_level|].
  apply bpow_le. lia.
Qed.

Lemma calm_add : forall c x, calm (Some c) -> small x -> calm (Some (n_add c x)).
Proof.
  intros c x [Fc Hc] [Fx Hx]. change (@n_add B64) with fadd. pose proof thirty_level as T.
  assert (L : bpow radix2 147 <= level) by (apply bpow_le; lia).
  assert (Hb : Rabs (fval c + fval x) <= big).
  { pose proof huge_big as Hh. change huge with level in Hh. eapply Rle_trans; [apply Rabs_triang|]. lra. }
  destruct (fadd_val c x Fc Fx Hb) as [F V]. split; [exact F|]. rewrite V.
  apply Rabs_le_both in Hc, Hx. pose proof rnd_level as R. apply Rabs_le. split.
  - apply Ropp_le_cancel. rewrite Ropp_involutive. rewrite <- rnd_opp. eapply Rle_trans; [apply rnd_le|exact R]. lra.
  - eapply Rle_trans; [apply rnd_le|exact R]. lra.
Qed.

(** words in inches are those in millimetres, times 25.4 *)
Lemma parse_inches : forall ws (a b a' : line B64), foldM (parse_word true) ws a = Ok b ->
  (forall k, get_arg k (largs a) = option_map (n_mul (lit 254 1)) (get_arg k (largs a'))) ->
  exists b', foldM (parse_word false) ws a' = Ok b' /\
    (forall k, get_arg k (largs b) = option_map (n_mul (lit 254 1)) (get_arg k (largs b'))).
Proof.
  induction ws as [|[c v] ws IH]; intros a b a' H Ha; cbn [foldM] in *.
  - apply ok_inj in H. subst b. exists a'. split; [reflexivity|exact Ha].
  - unfold parse_word at 1 in H. unfold parse_word at 1. destruct (letter_of_code c) as [j|]; cbn [bind] in *; [|eapply IH; eassumption].
    destruct (is_empty v); cbn [bind] in *; [eapply IH; eassumption|].
    destruct (py_float (A:=B64) v) as [x|]; cbn [bind] in *; [|discriminate H].
    eapply IH; [exact H|]. intros k. specialize (Ha k). destruct k, j; cbn in *; assumption || reflexivity.
Qed.

Lemma lit254 : small (lit (A:=B64) 254 1) /\ Rabs (fval (lit (A:=B64) 254 1)) <= 30.
Proof.
  assert (F : fin (lit (A:=B64) 254 1)) by (split; vm_compute; reflexivity).
  assert (V : Rabs (fval (lit (A:=B64) 254 1)) <= 30).
  { unfold fval. vm_compute SF2R. unfold F2R. cbn. rewrite Rabs_pos_eq; lra. }
  split; [|exact V]. split; [exact F|]. eapply Rle_trans; [exact V|].
  replace (10 ^ 30) with (IZR (10 ^ 30)) by (rewrite pow_IZR; reflexivity). apply IZR_le. vm_compute. discriminate.
Qed.

Lemma read_letter : forall k (m m' : mstate B64) s l z, modest s -> motion_step m (new_line s) = Ok (m', l) ->
  get_arg k (largs l) = Some z -> small z.
Proof.
  intros k m m' s l z Hm H Hz.
  assert (S6 : forall v x, holds v x -> fin x /\ Rabs (fval x) <= 2 * 1000000).
  { intros v x (Hv & F & V). split; [exact F|]. rewrite V. apply rnd_sized; [|apply span_num; lra].
    eapply Rle_trans; [exact Hv|]. cbn. lra. }
  assert (H30 : 100000000000 <= 10 ^ 30).
  { replace (10 ^ 30) with (IZR (10 ^ 30)) by (rewrite pow_IZR; reflexivity). apply IZR_le. vm_compute. discriminate. }
  destruct (command_name s) as [c|] eqn:Ec.
  - destruct (motion_some m m' s l c Ec H) as (s1 & l1 & ext & _ & Hp & _ & ->).
    cbn [largs set_notes] in Hz. pose proof Hp as (_ & _ & _ & _ & Hf).
    destruct (first_is "G" c) eqn:Hg; [|rewrite Hf in Hz; destruct k; discriminate Hz].
    destruct (m_imperial s1).
    + destruct (parse_inches _ _ _ (set_command (Some c) (str_mem c move_gcodes) (new_line s)) Hf (fun j => ltac:(destruct j; reflexivity))) as (b' & Hb & Hk).
      specialize (Hk k). rewrite Hz in Hk.
      assert (Hq : parsed (A:=B64) s c false b').
      { destruct (parse_words_fixed _ _ _ _ Hb) as (K1 & K2 & K3 & K4). repeat split; try assumption. rewrite Hg. exact Hb. }
      pose proof (parsed_B64 s c b' k Hq Hg Hm) as Hh.
      destruct (get_arg k (largs b')) as [x|]; [|discriminate Hk]. cbn [option_map] in Hk. injection Hk as ->.
      destruct (number_of (letter_code k) (words s)) as [v|]; [|destruct Hh]. destruct (S6 _ _ Hh) as [Fx Hx].
      destruct lit254 as [[Fq _] Vq].
      assert (Hprod : Rabs (fval (lit (A:=B64) 254 1) * fval x) <= 60000000).
      { rewrite Rabs_mult. replace 60000000 with (30 * 2000000) by lra. apply Rmult_le_compat; try apply Rabs_pos; lra. }
      destruct (sized_mul 30 (2 * 1000000) 60000000 _ x (conj Fq Vq) (conj Fx Hx) ltac:(lra) ltac:(apply span_num; lra)) as [[F V] _].
      split; [exact F|]. change (Rabs (fval (fmul (lit (A:=B64) 254 1) x)) <= 10 ^ 30). eapply Rle_trans; [exact V|]. eapply Rle_trans; [|exact H30]. lra.
    + pose proof (parsed_B64 s c l1 k Hp Hg Hm) as Hh. rewrite Hz in Hh.
      destruct (number_of (letter_code k) (words s)) as [v|]; [|destruct Hh]. destruct (S6 _ _ Hh) as [Fx Hx].
      split; [exact Fx|]. eapply Rle_trans; [exact Hx|]. eapply Rle_trans; [|exact H30]. lra.
  - exfalso. destruct (motion_none m m' s l Ec H) as (_ & Ha & _). rewrite Ha in Hz. destruct k; discriminate Hz.
Qed.

Lemma read_z : forall (m m' : mstate B64) s l z, modest s -> motion_step m (new_line s) = Ok (m', l) -> l_z l = Some z -> small z.
Proof. intros m m' s l z Hm H Hz. exact (read_letter LZ m m' s l z Hm H Hz). Qed.

Lemma calm_step : forall (m : mstate B64) s m' l z, modest s -> motion_step m (new_line s) = Ok (m', l) -> calm z ->
  calm (update_cur_z l z).
Proof.
  intros m s m' l z Hm H Hz. pose proof (read_z m m' s l) as K. unfold update_cur_z.
  destruct (l_z l) as [v|]; [|exact Hz]. specialize (K v Hm H eq_refl).
  destruct (cmd_is (command l) "G92"); [apply small_calm, K|].
  destruct (is_move l); [|exact Hz]. destruct (t_relative (lnotes l)) as [[|]|]; try (apply small_calm, K).
  destruct z as [c|]; [apply calm_add; assumption|apply small_calm, K].
Qed.

Lemma load_idle_B64 : forall light home d d', Forall modest (program_text d) ->
  more (fun s => idle s = true) (program_text d) (program_text d') ->
  match load_gen (A:=B64) light home d, load_gen light home d' with
  | Ok g, Ok h => same_run g h /\ (program_text d <> [] -> same_levels g h)
  | Err e, Err e' => e = e'
  | _, _ => False
  end.
Proof.
  intros light home d d' Hm H. apply (load_idle calm modest); [exact calm_eq|exact calm_step|exact I|exact H|exact Hm].
Qed.

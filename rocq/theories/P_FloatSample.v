(** * P_FloatSample: programs that meet the hypotheses of the theorems about doubles *)
From Coq Require Import List Ascii String ZArith NArith Bool Lia Reals Lra Floats.SpecFloat FunctionalExtensionality.
From Flocq Require Import Core BinarySingleNaN.
From Verif Require Import PyBase Arith ArithQ ArithR ArithB64 Gcoder SpecText SpecLoad SpecMachine SpecMeasure SpecFilter SpecBinary64 Samples.
From Verif Require Import P_Machine P_MachineRefuted P_FilterRefuted P_Measure P_Float P_FloatText P_FloatTrack P_FloatTempcal.
Import ListNotations.
Local Open Scope list_scope.
Local Open Scope R_scope.

(** absolute and relative moves and a G92 *)
Definition wander : list string :=
  ["G28"; "G90"; "G1 Z0.3 F1200"; "G1 X10.1 Y3 E1"; "G92 X0"; "G91"; "M82"; "G1 X-2.7 E2.5"; "G1 Y0.1 E3"]%string.

Definition wanderF : gcode B64 := get empty_program (load_gen (A:=B64) false home0 wander).
Lemma wander_loaded : load_gen (A:=B64) false home0 wander = Ok wanderF.
Proof. apply is_ok_get. vm_compute. reflexivity. Qed.

Lemma wander_text : program_text wander = wander.
Proof. reflexivity. Qed.

Lemma home0_fin : fhome_fin (home0 (A:=B64)).
Proof. repeat split; vm_compute; reflexivity. Qed.

(** ** Checking that the reference machine stays within bounds

    The exact tracking of the model over the rationals agrees with the
    reference machine; it can be evaluated. *)
Definition smallQ (q : num QA) : bool := n_leb q (n_of_dec false 1000000 0) && n_leb (n_of_dec true 1000000 0) q.

Lemma smallQ_ok : forall q, smallQ q = true -> Rabs (val exactQ q) <= 10 ^ 6.
Proof.
  intros q H. apply andb_prop in H as [H1 H2]. apply (val_leb QA exactQ) in H1, H2.
  rewrite (val_of_dec QA exactQ) in H1, H2. replace (10 ^ 6) with 1000000 by (cbn [pow]; lra).
  apply Rabs_le. cbn in *. lra.
Qed.

Definition clearb (s : string) : bool :=
  match op_of s with
  | Home w => negb (named w X || named w Y || named w Z)
  | SetPosition w e => negb (bare w e)
  | _ => true
  end.

Lemma clearb_ok : forall s, clearb s = true -> clear_words s.
Proof.
  intros s H. unfold clearb, clear_words in *. destruct (op_of s); try exact I.
  - left. intros a. unfold named in H. destruct (w X) eqn:Ex, (w Y) eqn:Ey, (w Z) eqn:Ez; try discriminate H.
    destruct a; assumption.
  - destruct (bare w e); [discriminate H|reflexivity].
Qed.

Definition cleanb (ss : list string) : bool := if list_eq_dec string_dec (program_text ss) ss then true else false.

Definition check_reach (f : mstate QA -> bool) (ss : list string) : bool :=
  forallb (fun i => match load_gen (A:=QA) true home0 (firstn i ss) with
                    | Ok g => f (g_m g) && cleanb (firstn i ss)
                    | Err _ => false
                    end) (seq 0 (S (List.length ss))).

Lemma firstn_cap : forall (ss : list string) i, firstn i ss = firstn (Nat.min i (List.length ss)) ss.
Proof.
  intros ss i. destruct (Nat.le_gt_cases i (List.length ss)) as [H|H].
  - rewrite Nat.min_l by exact H. reflexivity.
  - rewrite Nat.min_r by lia. rewrite firstn_all. apply firstn_all2. lia.
Qed.

Lemma check_reach_ok : forall f ss, check_reach f ss = true -> forall i,
  exists g, load_gen (A:=QA) true home0 (firstn i ss) = Ok g /\ f (g_m g) = true /\
    program_text (firstn i ss) = firstn i ss.
Proof.
  intros f ss H i. rewrite (firstn_cap ss i). unfold check_reach in H. rewrite forallb_forall in H.
  specialize (H (Nat.min i (List.length ss))). rewrite in_seq in H. specialize (H ltac:(lia)).
  destruct (load_gen true home0 _) as [g|]; [|discriminate H]. apply andb_prop in H as [H1 H2].
  exists g. split; [reflexivity|]. split; [exact H1|]. unfold cleanb in H2.
  destruct (list_eq_dec string_dec _ _) as [E|]; [exact E|discriminate H2].
Qed.

Lemma Forall_firstn' : forall {T} (P : T -> Prop) (l : list T) i, Forall P l -> Forall P (firstn i l).
Proof. intros T P l i H. apply Forall_forall. intros x Hx. rewrite Forall_forall in H. apply H. rewrite <- (firstn_skipn i l). apply in_or_app. left. exact Hx. Qed.

Lemma homeQ_origin : home_of exactQ (home0 (A:=QA)) = fun _ => 0.
Proof. apply functional_extensionality. intros []; cbn; unfold Q2R; cbn; lra. Qed.
Lemma homeF_origin : fhome_of (home0 (A:=B64)) = fun _ => 0.
Proof. apply functional_extensionality. intros []; reflexivity. Qed.

Lemma volume_check : forall ss, forallb clearb ss = true ->
  check_reach (fun m => smallQ (m_x m) && smallQ (m_y m) && smallQ (m_z m)) ss = true ->
  in_volume ss (start (fhome_of (home0 (A:=B64)))).
Proof.
  intros ss Hc H i a. rewrite homeF_origin, <- homeQ_origin.
  destruct (check_reach_ok _ _ H i) as (g & H1 & H2 & H3).
  assert (Hcl : Forall clear_words (program_text (firstn i ss))).
  { rewrite H3. apply Forall_firstn'. apply Forall_forall. intros s Hs. apply clearb_ok.
    rewrite forallb_forall in Hc. apply Hc, Hs. }
  destruct (load_tracks exactQ _ _ _ _ H1 Hcl) as (T & _). rewrite H3 in T.
  destruct T as (_ & _ & _ & Tx & Ty & Tz & _). apply andb_prop in H2 as [H2 Hz]. apply andb_prop in H2 as [Hx Hy].
  apply smallQ_ok in Hx, Hy, Hz. destruct a; [rewrite <- Tx|rewrite <- Ty|rewrite <- Tz]; assumption.
Qed.

Definition steadyb (s : string) : bool :=
  match op_of s with
  | SetPosition w e => match e with None => negb (bare w e) | Some _ => false end
  | _ => true
  end.
Lemma steadyb_ok : forall s, steadyb s = true -> no_rebase_e s.
Proof.
  intros s H. unfold steadyb, no_rebase_e in *. destruct (op_of s) as [| |w [e|]| | | | | | | |]; try exact I; [discriminate H|].
  split; [reflexivity|]. destruct (bare w None); [discriminate H|reflexivity].
Qed.
Lemma steady_all : forall ss, forallb steadyb ss = true -> Forall no_rebase_e ss.
Proof. intros ss H. apply Forall_forall. intros s Hs. apply steadyb_ok. rewrite forallb_forall in H. apply H, Hs. Qed.

Lemma reach_check : forall ss, forallb steadyb ss = true ->
  check_reach (fun m => smallQ (m_e m)) ss = true -> in_reach ss (start (fun _ => 0)).
Proof.
  intros ss Hc H i. rewrite <- homeQ_origin.
  destruct (check_reach_ok _ _ H i) as (g & H1 & H2 & H3).
  assert (Hcl : Forall no_rebase_e (program_text (firstn i ss))) by (rewrite H3; apply Forall_firstn', steady_all, Hc).
  destruct (load_extrusion exactQ _ _ _ _ H1 Hcl) as (T & _). rewrite H3 in T. cbv zeta in T.
  rewrite firstn_all in T. rewrite <- T. apply smallQ_ok, H2.
Qed.

Lemma wander_plain : Forall plain_line wander.
Proof.
  repeat (constructor; [split; [apply modestb_ok; vm_compute; reflexivity|]|]); [| | | | | | | | | constructor];
    try exact I.
  - left. intros []; reflexivity.
  - reflexivity.
Qed.

Lemma wander_volume : in_volume wander (start (fhome_of (home0 (A:=B64)))).
Proof. apply volume_check; vm_compute; reflexivity. Qed.

Lemma wander_reach : in_reach wander (start (fun _ => 0)).
Proof. apply reach_check; vm_compute; reflexivity. Qed.

Lemma wander_steady : Forall no_rebase_e wander.
Proof. apply steady_all; vm_compute; reflexivity. Qed.

Lemma few : forall n : nat, (n <= 100)%nat -> INR n <= 10 ^ 8.
Proof.
  intros n H. apply le_INR in H. rewrite (INR_IZR_INZ 100) in H. cbn [Z.of_nat Pos.of_succ_nat Pos.succ] in H.
  cbn [pow]. lra.
Qed.

Lemma wander_prints : exists l, In l (g_lines wanderF) /\ extrudes l.
Proof.
  assert (H : existsb extrudes_b (g_lines wanderF) = true) by (vm_compute; reflexivity).
  apply existsb_exists in H as (l & H1 & H2). exists l. split; [exact H1|]. apply extrudes_iff, H2.
Qed.

Lemma fwithin_million : forall x : num B64, fwithin (lit 1000000 0) x = true -> fin x /\ Rabs (fval x) <= 10 ^ 6.
Proof.
  intros x H. assert (Hb : fin (lit (A:=B64) 1000000 0)) by (split; vm_compute; reflexivity).
  destruct (fwithin_ok _ _ Hb H) as [Hx Hv]. split; [exact Hx|].
  replace (10 ^ 6) with (fval (lit (A:=B64) 1000000 0)); [exact Hv|].
  replace (lit (A:=B64) 1000000 0) with (S754_finite false 8589934592000000 (-33)) by (vm_compute; reflexivity).
  unfold fval, SF2R, F2R. cbn [Fnum Fexp cond_Zopp]. change (bpow radix2 (-33)) with (/ 8589934592).
  cbn [pow]. lra.
Qed.

Lemma some_args_small : forall k x, get_arg k some_args = Some x -> fin x /\ Rabs (fval x) <= 10 ^ 6.
Proof.
  intros k x H. apply fwithin_million. destruct k; try discriminate H; injection H as <-; vm_compute; reflexivity.
Qed.

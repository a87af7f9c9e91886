(** * P_TextRefuted: witnesses for C07, C10, C11, C71 *)
From Coq Require Import List Ascii String ZArith NArith Bool.
From Verif Require Import PyBase Arith ArithB64 Gcoder SpecText SpecLoad Samples P_Load P_Text P_Wf.
Import ListNotations.
Local Open Scope list_scope.

Definition stepF (s : string) : res (mstate B64 * line B64) :=
  motion_step (A:=B64) (init_mstate home0) (new_line s).
Definition none_step : mstate B64 * line B64 := (init_mstate home0, new_line ""%string).

Lemma step_ok : forall s, is_ok (stepF s) = true ->
  stepF s = Ok (fst (get none_step (stepF s)), snd (get none_step (stepF s))).
Proof. intros s H. rewrite <- surjective_pairing. apply is_ok_get, H. Qed.

Lemma nested_paren_refuted :
  exists (m : mstate B64) s c, lacks nl s = true /\ lacks nl c = true /\
    (exists l, motion_step m (new_line s) = Ok (m, l) /\ command l = None) /\
    (exists m' l, motion_step m (new_line (s ++ String ";" c)) = Ok (m', l) /\
       command l = Some "G1"%string /\ n_eqb (m_x m) n0 = true /\ n_eqb (m_x m') (lit 5 0) = true).
Proof.
  exists (init_mstate home0), "(G1 X5 (note))"%string, " x"%string.
  split; [reflexivity|]. split; [reflexivity|]. split.
  - exists (new_line "(G1 X5 (note))"). split; [|reflexivity].
    apply comment_step. exists "G1 X5 (note)"%string. split; [reflexivity|]. right.
    split; reflexivity.
  - eexists _, _. split; [apply (step_ok ("(G1 X5 (note))" ++ String ";" " x")); vm_compute; reflexivity|].
    split; [vm_compute; reflexivity|]. split; vm_compute; reflexivity.
Qed.

Lemma free_text_refuted : forall (A : arith) light home,
  load_gen (A:=A) light home ["Start printing"%string] = Err ValueError.
Proof.
  intros A light home.
  pose proof (load_total (A:=A) light home ["Start printing"%string]) as H.
  unfold load_gen. cbn [bind]. unfold clean_lines.
  change (filter (fun s => negb (is_empty s)) (map strip ["Start printing"%string]))
    with ["Start printing"%string]. cbn [map foldM]. unfold build_step.
  pose proof (motion_total (init_mstate (A:=A) home) "Start printing") as Hm.
  destruct (motion_step (init_mstate home) (new_line "Start printing")) as [p|e].
  - discriminate Hm.
  - destruct Hm as [-> _]. reflexivity.
Qed.

(** after "F-60" the feedrate 60 divides by zero, provided the move does not
    turn *)
Definition opposite : list string := ["G1 X1 F-60"; "G1 X2 F60"]%string.
Definition err_is (e : exn) {T} (r : res T) : bool :=
  match r, e with
  | Err ZeroDivisionError, ZeroDivisionError => true
  | Err ValueError, ValueError => true
  | Err TypeError, TypeError => true
  | Err IndexError, IndexError => true
  | Err RuntimeError, RuntimeError => true
  | Err AttributeError, AttributeError => true
  | Err StopIteration, StopIteration => true
  | Err OutOfFuel, OutOfFuel => true
  | _, _ => false
  end.
Lemma err_is_ok : forall e T (r : res T), err_is e r = true -> r = Err e.
Proof. intros e T [x|f]; destruct e; cbn; try discriminate; destruct f; try discriminate; reflexivity. Qed.

Lemma opposite_feeds : load_gen (A:=B64) false home0 opposite = Err ZeroDivisionError.
Proof. apply err_is_ok. vm_compute. reflexivity. Qed.

(** a comment in front of a command hides it *)
Lemma hidden_command : forall (A : arith) (m : mstate A) c s,
  lacks nl c = true -> lacks "(" c = true -> lacks ")" c = true ->
  motion_step m (new_line (String "(" (c ++ ")" ++ s))) =
    Ok (m, new_line (String "(" (c ++ ")" ++ s))).
Proof.
  intros A m c s Hn Ho Hc. apply (no_command_step m _ (findall_from false (lower s))).
  unfold words. rewrite findall_is_from.
  change (lower (String "(" (c ++ ")" ++ s))) with (String "(" (lower (c ++ ")" ++ s))).
  rewrite lower_app, findall_from_step. unfold match_at.
  change (Ascii.eqb "(" "(") with true. cbv iota.
  assert (H : scan_paren (lower c ++ lower (")" ++ s)) = Some (lower s)).
  { change (lower (")" ++ s)) with (String ")" (lower s)).
    assert (Ho' : lacks "(" (lower c) = true) by (apply lacks_lower; [reflexivity|reflexivity|exact Ho]).
    assert (Hc' : lacks ")" (lower c) = true) by (apply lacks_lower; [reflexivity|reflexivity|exact Hc]).
    clear - Ho' Hc'. unfold lacks in *. induction (lower c) as [|d u IH]; [reflexivity|].
    cbn in *. apply andb_prop in Ho' as [H1 Ho'], Hc' as [H2 Hc'].
    apply negb_true_iff in H1, H2. rewrite H1, H2. apply IH; assumption. }
  rewrite H. reflexivity.
Qed.

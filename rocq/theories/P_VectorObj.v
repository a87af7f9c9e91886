(** * P_VectorObj: vector objects, shared or not (C107, C108) *)
From Coq Require Import List String ZArith Bool Reals Lra Lia.
From Verif Require Import PyBase Arith ArithR Vector VectorObj SpecVector SpecVectorObj P_Vector.
Import ListNotations.
Local Open Scope list_scope.

Section VectorObj.
Context {A : arith}.
Notation memory := (memory A).

Lemma store_replaced : forall r v (h : memory), r < List.length h -> store_at r v h = replaced r v h.
Proof.
  induction r as [|r IH]; intros v [|a h] H; cbn in H; try lia; [reflexivity|].
  cbn [store_at]. rewrite IH by lia. reflexivity.
Qed.

Lemma store_length : forall r v (h : memory), List.length (store_at r v h) = List.length h.
Proof. induction r as [|r IH]; intros v [|a h]; cbn; try reflexivity. now rewrite IH. Qed.

Lemma at_store_same : forall r v (h : memory), r < List.length h -> at_ref r (store_at r v h) = v.
Proof.
  induction r as [|r IH]; intros v [|a h] H; cbn in H; try lia; [reflexivity|].
  unfold at_ref in *. cbn. apply IH. lia.
Qed.

Lemma at_store_other : forall r s v (h : memory), s <> r -> at_ref s (store_at r v h) = at_ref s h.
Proof.
  induction r as [|r IH]; intros [|s] v [|a h] H; try reflexivity; try contradiction.
  unfold at_ref in *. cbn. apply IH. congruence.
Qed.

Lemma store_store : forall r v w (h : memory), store_at r v (store_at r w h) = store_at r v h.
Proof. induction r as [|r IH]; intros v w [|a h]; cbn; try reflexivity. now rewrite IH. Qed.

Lemma store_self : forall r (h : memory), r < List.length h -> store_at r (at_ref r h) h = h.
Proof.
  induction r as [|r IH]; intros [|a h] H; cbn in H; try lia; [reflexivity|].
  unfold at_ref in *. cbn. now rewrite IH by lia.
Qed.

(** a component of any vector while one is being overwritten *)
Lemma get_put : forall r s f g x (h : memory), r < List.length h -> f <> g ->
  get_field f s (put_field g r x h) = get_field f s h.
Proof.
  intros r s f g x h H Hne. unfold get_field, put_field. destruct (Nat.eq_dec s r) as [-> |Hs].
  - rewrite at_store_same by exact H. destruct f, g; try reflexivity; congruence.
  - now rewrite at_store_other.
Qed.

(** Assigning component after component gives the vector of the components,
    computed before, if each depends on components of the same name alone. *)
Lemma each_spec : forall r (e : field -> memory -> res (num A)) (h : memory), r < List.length h ->
  (forall f g x h', f <> g -> List.length h' = List.length h -> e f (put_field g r x h') = e f h') ->
  (forall ex, e FX h = Err ex -> e FX h = Err ex) ->
  match e FX h, e FY h, e FZ h with
  | Ok x, Ok y, Ok z => each r e h = (store_at r (Vec x y z) h, None)
  | Err ex, _, _ => each r e h = (h, Some ex)
  | _, _, _ => True
  end.
Proof.
  intros r e h Hr He _. unfold each, assign.
  destruct (e FX h) as [x|ex] eqn:Ex; [|reflexivity]. cbn [then_].
  rewrite He by (congruence || reflexivity). destruct (e FY h) as [y|ex] eqn:Ey; [|exact I]. cbn [then_].
  rewrite He; [|congruence|unfold put_field; apply store_length].
  rewrite He by (congruence || reflexivity). destruct (e FZ h) as [z|ex] eqn:Ez; [|exact I].
  f_equal. unfold put_field. rewrite !at_store_same by (rewrite ?store_length; exact Hr). rewrite !store_store. reflexivity.
Qed.

Lemma each_ok : forall r (e : field -> memory -> num A) (h : memory), r < List.length h ->
  (forall f g x h', f <> g -> List.length h' = List.length h -> e f (put_field g r x h') = e f h') ->
  each r (fun f m => Ok (e f m)) h = (store_at r (Vec (e FX h) (e FY h) (e FZ h)) h, None).
Proof.
  intros r e h Hr He.
  apply (each_spec r (fun f m => Ok (e f m)) h Hr); [|congruence].
  intros f g x h' Hne Hl. now rewrite He.
Qed.

(** a division that fails fails for the first component *)
Lemma each_div : forall (op : num A -> num A -> res (num A)) r k (h : memory), r < List.length h ->
  (forall a b, op a k = Err ZeroDivisionError <-> op b k = Err ZeroDivisionError) ->
  (forall a e, op a k = Err e -> e = ZeroDivisionError) ->
  match (do x <- op (vx (at_ref r h)) k; do y <- op (vy (at_ref r h)) k; do z <- op (vz (at_ref r h)) k; Ok (Vec x y z)) with
  | Ok v => each r (fun f m => op (get_field f r m) k) h = (store_at r v h, None)
  | Err ex => each r (fun f m => op (get_field f r m) k) h = (h, Some ex)
  end.
Proof.
  intros op r k h Hr Hz Ho.
  pose proof (each_spec r (fun f m => op (get_field f r m) k) h Hr) as K.
  specialize (K ltac:(intros f g x h' Hne Hl; cbv beta; rewrite get_put by (congruence || lia); reflexivity) ltac:(congruence)).
  cbv beta in K. change (get_field FX r h) with (vx (at_ref r h)) in K. change (get_field FY r h) with (vy (at_ref r h)) in K.
  change (get_field FZ r h) with (vz (at_ref r h)) in K.
  destruct (op (vx (at_ref r h)) k) as [x|ex] eqn:Ex; cbn [bind]; [|exact K].
  destruct (op (vy (at_ref r h)) k) as [y|ey] eqn:Ey; cbn [bind].
  2:{ exfalso. pose proof (Ho _ _ Ey). subst ey. apply Hz with (b := vx (at_ref r h)) in Ey. congruence. }
  destruct (op (vz (at_ref r h)) k) as [z|ez] eqn:Ez; cbn [bind].
  2:{ exfalso. pose proof (Ho _ _ Ez). subst ez. apply Hz with (b := vx (at_ref r h)) in Ez. congruence. }
  exact K.
Qed.

Lemma py_div_zero : forall k a b : num A, py_div a k = Err ZeroDivisionError <-> py_div b k = Err ZeroDivisionError.
Proof. intros k a b. unfold py_div. destruct (n_eqb k n0); split; congruence. Qed.
Lemma py_div_err : forall (k a : num A) e, py_div a k = Err e -> e = ZeroDivisionError.
Proof. intros k a e. unfold py_div. destruct (n_eqb k n0); congruence. Qed.
Lemma py_floordiv_zero : forall k a b : num A, py_floordiv a k = Err ZeroDivisionError <-> py_floordiv b k = Err ZeroDivisionError.
Proof. intros k a b. unfold py_floordiv. destruct (n_eqb k n0); split; congruence. Qed.
Lemma py_floordiv_err : forall (k a : num A) e, py_floordiv a k = Err e -> e = ZeroDivisionError.
Proof. intros k a e. unfold py_floordiv. destruct (n_eqb k n0); congruence. Qed.

Lemma idiv_spec : forall r k (h : memory), r < List.length h ->
  match v_div (at_ref r h) k with
  | Ok v => idiv r k h = (store_at r v h, None)
  | Err ex => idiv r k h = (h, Some ex)
  end.
Proof.
  intros r k h Hr. exact (each_div py_div r k h Hr (py_div_zero k) (py_div_err k)).
Qed.

Lemma vec_eta : forall a : vec A, Vec (vx a) (vy a) (vz a) = a.
Proof. intros []. reflexivity. Qed.

Lemma last_made : forall (h : memory) v, last (h ++ [v]) origin = v.
Proof. intros h v. apply last_last. Qed.

Lemma in_place : forall st op r (h : memory), assigned st = Some op -> changes st = Some r -> exists_in h st ->
  match execute op h with
  | (h', None) => execute st h = (replaced r (last h' origin) h, None)
  | (_, Some e) => execute st h = (h, Some e)
  end.
Proof.
  intros st op r h Ha Hc Hv. destruct st; cbn [assigned] in Ha; try discriminate Ha; injection Ha as <-;
    cbn [changes] in Hc; injection Hc as ->; unfold exists_in in Hv; cbn [mentions] in Hv;
    (inversion Hv as [|? ? Hr Hs]; subst); cbn [execute make]; rewrite ?last_made.
  - rewrite (each_ok r (fun f m => n_add (get_field f r m) (get_field f s m)) h Hr); [|intros; cbv beta; rewrite !get_put by (congruence || lia); reflexivity].
    now rewrite store_replaced.
  - rewrite (each_ok r (fun f m => n_sub (get_field f r m) (get_field f s m)) h Hr); [|intros; cbv beta; rewrite !get_put by (congruence || lia); reflexivity].
    now rewrite store_replaced.
  - rewrite (each_ok r (fun f m => n_mul (get_field f r m) k) h Hr); [|intros; cbv beta; rewrite !get_put by (congruence || lia); reflexivity].
    now rewrite store_replaced.
  - pose proof (idiv_spec r k h Hr) as K. destruct (v_div (at_ref r h) k) as [v|ex]; cbn [make]; rewrite K; [|reflexivity].
    now rewrite last_made, store_replaced.
  - pose proof (each_div py_floordiv r k h Hr (py_floordiv_zero k) (py_floordiv_err k)) as K.
    change (do x <- py_floordiv (vx (at_ref r h)) k; do y <- py_floordiv (vy (at_ref r h)) k;
            do z <- py_floordiv (vz (at_ref r h)) k; Ok (Vec x y z)) with (v_floordiv (at_ref r h) k) in K.
    destruct (v_floordiv (at_ref r h) k) as [v|ex]; cbn [make]; rewrite K; [|reflexivity].
    now rewrite last_made, store_replaced.
  - unfold normalized. destruct (n_eqb (magnitude (at_ref r h)) n0); cbn [negb make].
    + rewrite last_made, <- store_replaced, store_self by exact Hr. reflexivity.
    + pose proof (idiv_spec r (magnitude (at_ref r h)) h Hr) as K.
      destruct (v_div (at_ref r h) _) as [v|ex]; cbn [make]; rewrite K; [|reflexivity].
      now rewrite last_made, store_replaced.
  - rewrite (each_ok r (fun f m => get_field f s m) h Hr); [|intros; cbv beta; rewrite !get_put by (congruence || lia); reflexivity].
    now rewrite store_replaced.
  - rewrite (each_ok r (fun f m => match f with FX => x | FY => y | FZ => z end) h Hr); [|reflexivity].
    now rewrite store_replaced.
Qed.

Lemma extremes : forall r s (h : memory), r < List.length h ->
  execute (Maximize r s) h = (replaced r (maximize (at_ref r h) (at_ref s h)) h, None) /\
  execute (Minimize r s) h = (replaced r (minimize (at_ref r h) (at_ref s h)) h, None).
Proof.
  intros r s h Hr. cbn [execute]. split.
  - rewrite (each_ok r (fun f m => n_max (get_field f s m) (get_field f r m)) h Hr); [|intros; cbv beta; rewrite !get_put by (congruence || lia); reflexivity].
    now rewrite store_replaced.
  - rewrite (each_ok r (fun f m => n_min (get_field f s m) (get_field f r m)) h Hr); [|intros; cbv beta; rewrite !get_put by (congruence || lia); reflexivity].
    now rewrite store_replaced.
Qed.

Lemma div_err : forall (op : num A -> num A -> res (num A)) a b c k e,
  (forall x y e, op x y = Err e -> e = ZeroDivisionError) ->
  (do x <- op a k; do y <- op b k; do z <- op c k; Ok (Vec x y z)) = Err e -> e = ZeroDivisionError.
Proof.
  intros op a b c k e Ho H. destruct (op a k) eqn:E1; cbn [bind] in H; [|injection H as <-; eauto].
  destruct (op b k) eqn:E2; cbn [bind] in H; [|injection H as <-; eauto].
  destruct (op c k) eqn:E3; cbn [bind] in H; [discriminate H|injection H as <-; eauto].
Qed.

Lemma rdiv_err : forall (op : num A -> num A -> res (num A)) a b c k e,
  (forall x y e, op x y = Err e -> e = ZeroDivisionError) ->
  (do x <- op k a; do y <- op k b; do z <- op k c; Ok (Vec x y z)) = Err e -> e = ZeroDivisionError.
Proof.
  intros op a b c k e Ho H. destruct (op k a) eqn:E1; cbn [bind] in H; [|injection H as <-; eauto].
  destruct (op k b) eqn:E2; cbn [bind] in H; [|injection H as <-; eauto].
  destruct (op k c) eqn:E3; cbn [bind] in H; [discriminate H|injection H as <-; eauto].
Qed.

Lemma operators : forall st (h : memory), changes st = None ->
  (exists v, execute st h = (h ++ [v], None)) \/ execute st h = (h, Some ZeroDivisionError).
Proof.
  intros st h Hc.
  assert (D : forall x y e, py_div (A:=A) x y = Err e -> e = ZeroDivisionError) by (intros x y; apply py_div_err).
  assert (F : forall x y e, py_floordiv (A:=A) x y = Err e -> e = ZeroDivisionError) by (intros x y; apply py_floordiv_err).
  assert (M : forall v : res (vec A), (forall e, v = Err e -> e = ZeroDivisionError) ->
    (exists w, make v h = (h ++ [w], None)) \/ make v h = (h, Some ZeroDivisionError)).
  { intros [v|e] H; cbn [make]; [left; eauto|right]. now rewrite (H e eq_refl). }
  destruct st; cbn [changes] in Hc; try discriminate Hc; cbn [execute]; apply M; try discriminate.
  - intros e. apply div_err, D.
  - intros e. apply rdiv_err, D.
  - intros e. apply div_err, F.
  - intros e. apply rdiv_err, F.
  - intros e. unfold normalized. destruct (n_eqb _ n0); [discriminate|]. apply div_err, D.
Qed.

Lemma attribute : forall r name x (h : memory), r < List.length h ->
  (In name ["x"; "y"; "z"]%string ->
     exists h', execute (SetAttribute r name x) h = (h', None) /\ get_attribute r name h' = Some x /\
       (forall s other, other <> name \/ s <> r -> get_attribute s other h' = get_attribute s other h)) /\
  (~ In name ["x"; "y"; "z"]%string ->
     execute (SetAttribute r name x) h = (h, None) /\ get_attribute r name h = None).
Proof.
  intros r name x h Hr. cbn [execute].
  assert (Hf : forall n, field_named n = if String.eqb n "x" then Some FX else if String.eqb n "y" then Some FY
                         else if String.eqb n "z" then Some FZ else None) by reflexivity.
  split; intros Hn.
  - assert (Hs : exists f, field_named name = Some f).
    { destruct Hn as [<- |[<- |[<- |[]]]]; cbn; eauto. }
    destruct Hs as (f & Ef). rewrite Ef. eexists. split; [reflexivity|]. unfold get_attribute. rewrite Ef. split.
    + f_equal. unfold get_field, put_field. rewrite at_store_same by exact Hr. destruct f; reflexivity.
    + intros s other Ho. destruct (field_named other) as [g|] eqn:Eg; [|reflexivity]. f_equal.
      destruct (Nat.eq_dec s r) as [-> |Hs].
      * apply get_put; [exact Hr|]. intros ->. destruct Ho as [Ho|Ho]; [|congruence].
        apply Ho. unfold field_named in Ef, Eg.
        destruct (String.eqb_spec name "x"), (String.eqb_spec other "x"), (String.eqb_spec name "y"), (String.eqb_spec other "y"),
          (String.eqb_spec name "z"), (String.eqb_spec other "z"); congruence.
      * unfold get_field, put_field. now rewrite at_store_other.
  - assert (Ef : field_named name = None).
    { unfold field_named. destruct (String.eqb_spec name "x") as [-> |_]; [exfalso; apply Hn; cbn; auto|].
      destruct (String.eqb_spec name "y") as [-> |_]; [exfalso; apply Hn; cbn; auto|].
      destruct (String.eqb_spec name "z") as [-> |_]; [exfalso; apply Hn; cbn; auto|reflexivity]. }
    unfold get_attribute. rewrite Ef. split; reflexivity.
Qed.

(** ** Whole programs *)

Lemma each_frame : forall r e (h : memory) s, s <> r -> at_ref s (fst (each r e h)) = at_ref s h /\ List.length (fst (each r e h)) = List.length h.
Proof.
  intros r e h s Hs. unfold each, assign.
  assert (P : forall f x (m : memory), at_ref s (put_field f r x m) = at_ref s m /\ List.length (put_field f r x m) = List.length m).
  { intros f x m. unfold put_field. rewrite at_store_other by exact Hs. now rewrite store_length. }
  destruct (e FX h) as [x|]; cbn [then_ fst]; [|auto].
  destruct (e FY _) as [y|]; cbn [then_ fst]; [|apply P].
  destruct (e FZ _) as [z|]; cbn [then_ fst]; destruct (P FX x h) as [P1 P2]; destruct (P FY y (put_field FX r x h)) as [P3 P4].
  - destruct (P FZ z (put_field FY r y (put_field FX r x h))) as [P5 P6]. split; congruence.
  - split; congruence.
Qed.

Lemma each_length : forall r e (h : memory), List.length (fst (each r e h)) = List.length h.
Proof. intros r e h. destruct (each_frame r e h (S r) ltac:(lia)) as [_ H]. exact H. Qed.

Lemma make_frame : forall v (h : memory) s, s < List.length h -> at_ref s (fst (make v h)) = at_ref s h /\
  List.length h <= List.length (fst (make v h)).
Proof.
  intros [v|e] h s Hs; cbn [make fst]; [|auto]. unfold at_ref. rewrite app_nth1 by exact Hs. rewrite app_length. split; [reflexivity|lia].
Qed.

Lemma frame : forall st (h : memory) s, s < List.length h -> changes st <> Some s ->
  at_ref s (fst (execute st h)) = at_ref s h /\ List.length h <= List.length (fst (execute st h)).
Proof.
  intros st h s Hs Hc.
  assert (E : forall r e, Some r <> Some s -> at_ref s (fst (each r e h)) = at_ref s h /\ List.length h <= List.length (fst (each r e h))).
  { intros r e Hne. destruct (each_frame r e h s ltac:(congruence)) as [-> ->]. auto. }
  destruct st; cbn [changes] in Hc; cbn [execute]; try (apply make_frame; exact Hs); try (apply E; exact Hc).
  - destruct (negb _); [apply E; exact Hc|]. cbn. auto.
  - destruct (field_named name); cbn [fst]; [|auto]. unfold put_field. rewrite at_store_other by congruence.
    rewrite store_length. auto.
Qed.

Lemma untouched : forall sts (h : memory) s, s < List.length h -> (forall st, In st sts -> changes st <> Some s) ->
  at_ref s (fst (execute_all sts h)) = at_ref s h.
Proof.
  induction sts as [|st sts IH]; intros h s Hs Hc; [reflexivity|]. cbn [execute_all].
  destruct (frame st h s Hs (Hc st (or_introl eq_refl))) as [F1 F2].
  destruct (execute st h) as [h' [e|]]; cbn [then_ fst] in *; [exact F1|].
  rewrite IH; [exact F1|lia|]. intros st' Hin. apply Hc. now right.
Qed.

End VectorObj.

(** ** Floor division, over the reals *)
Local Open Scope R_scope.

Lemma r_floor_spec : forall x, IZR (r_floor x) <= x < IZR (r_floor x) + 1.
Proof. intros x. unfold r_floor. destruct (archimed x) as [H1 H2]. rewrite minus_IZR. lra. Qed.

Lemma n_floor_R : forall x : R, floor_of x (n_floor (A:=RA) x).
Proof.
  intros x. unfold n_floor.
  assert (Hz : forall z, @n_of_dec RA (Z.ltb z 0) (Z.abs_N z) 0 = IZR z).
  { intros z. cbn. rewrite N2Z.inj_abs_N. destruct (Z.ltb_spec z 0) as [H|H].
    - rewrite Z.abs_neq by lia. rewrite opp_IZR. lra.
    - rewrite Z.abs_eq by lia. lra. }
  rewrite !Hz. change (@n_trunc RA x) with (r_trunc x). change (@n_leb RA) with r_leb. unfold r_trunc.
  destruct (r_ltb x 0) eqn:En.
  - apply r_ltb_iff in En. pose proof (r_floor_spec (- x)) as H. rewrite opp_IZR.
    destruct (r_leb (- IZR (r_floor (- x))) x) eqn:El.
    + apply r_leb_iff in El. exists (- r_floor (- x))%Z. rewrite opp_IZR. split; [reflexivity|]. lra.
    + exists (- r_floor (- x) - 1)%Z. split; [reflexivity|]. rewrite minus_IZR, opp_IZR.
      assert (~ - IZR (r_floor (- x)) <= x) by (intros K; apply r_leb_iff in K; congruence). lra.
  - pose proof (r_floor_spec x) as H. assert (El : r_leb (IZR (r_floor x)) x = true) by (apply r_leb_iff; lra).
    rewrite El. exists (r_floor x). split; [reflexivity|exact H].
Qed.

Lemma py_floordiv_R : forall a k : R,
  (k <> 0 -> exists f, py_floordiv (A:=RA) a k = Ok f /\ floor_of (a / k) f) /\
  (k = 0 -> py_floordiv (A:=RA) a k = Err ZeroDivisionError).
Proof.
  intros a k. unfold py_floordiv. rewrite n0_R. cbn [RA n_eqb]. destruct (r_eqb k 0) eqn:E.
  - apply r_eqb_iff in E. split; [congruence|reflexivity].
  - split; [|intros ->; assert (r_eqb 0 0 = true) by (apply r_eqb_iff; reflexivity); congruence].
    intros _. eexists. split; [reflexivity|]. apply n_floor_R.
Qed.

Lemma floor_division : forall (a : vec RA) (k : R),
  (k <> 0 -> exists b, v_floordiv a k = Ok b /\ floor_of (vx a / k) (vx b) /\ floor_of (vy a / k) (vy b) /\ floor_of (vz a / k) (vz b)) /\
  (k = 0 -> v_floordiv a k = Err ZeroDivisionError).
Proof.
  intros a k. unfold v_floordiv. split; intros Hk.
  - destruct (proj1 (py_floordiv_R (vx a) k) Hk) as (x & -> & X). destruct (proj1 (py_floordiv_R (vy a) k) Hk) as (y & -> & Y).
    destruct (proj1 (py_floordiv_R (vz a) k) Hk) as (z & -> & Z). cbn [bind]. eexists. split; [reflexivity|]. cbn [vx vy vz]. auto.
  - now rewrite (proj2 (py_floordiv_R (vx a) k) Hk).
Qed.

Lemma reverse_division : forall (k : R) (a : vec RA),
  (vx a <> 0 -> vy a <> 0 -> vz a <> 0 ->
     v_rdiv (A:=RA) k a = Ok (Vec (A:=RA) (k / vx a) (k / vy a) (k / vz a)) /\
     exists b, v_rfloordiv (A:=RA) k a = Ok b /\ floor_of (k / vx a) (vx b) /\ floor_of (k / vy a) (vy b) /\ floor_of (k / vz a) (vz b)) /\
  (vx a = 0 \/ vy a = 0 \/ vz a = 0 -> v_rdiv (A:=RA) k a = Err ZeroDivisionError /\ v_rfloordiv (A:=RA) k a = Err ZeroDivisionError).
Proof.
  intros k a. unfold v_rdiv, v_rfloordiv.
  assert (D : forall x : R, (x <> 0 -> py_div (A:=RA) k x = Ok (k / x)) /\ (x = 0 -> py_div (A:=RA) k x = Err ZeroDivisionError)).
  { intros x. unfold py_div. rewrite n0_R. cbn [RA n_eqb]. destruct (r_eqb x 0) eqn:E.
    - apply r_eqb_iff in E. split; [congruence|reflexivity].
    - split; [reflexivity|]. intros ->. assert (r_eqb 0 0 = true) by (apply r_eqb_iff; reflexivity). congruence. }
  assert (F : forall x, (exists f, py_floordiv (A:=RA) k x = Ok f) \/ py_floordiv (A:=RA) k x = Err ZeroDivisionError).
  { intros x. destruct (Req_dec x 0) as [Hx|Hx]; [right; apply (py_floordiv_R k x), Hx|].
    left. destruct (proj1 (py_floordiv_R k x) Hx) as (f & Hf & _). eauto. }
  split.
  - intros Hx Hy Hz. rewrite (proj1 (D _) Hx), (proj1 (D _) Hy), (proj1 (D _) Hz). split; [reflexivity|].
    destruct (proj1 (py_floordiv_R k _) Hx) as (x & -> & X). destruct (proj1 (py_floordiv_R k _) Hy) as (y & -> & Y).
    destruct (proj1 (py_floordiv_R k _) Hz) as (z & -> & Z). cbn [bind]. eexists. split; [reflexivity|]. cbn [vx vy vz]. auto.
  - intros H.
    assert (G : forall x, x <> 0 \/ x = 0) by (intros x; destruct (Req_dec x 0); auto).
    split.
    + destruct (G (vx a)) as [Hx|Hx]; [rewrite (proj1 (D _) Hx)|now rewrite (proj2 (D _) Hx)]. cbn [bind].
      destruct (G (vy a)) as [Hy|Hy]; [rewrite (proj1 (D _) Hy)|now rewrite (proj2 (D _) Hy)]. cbn [bind].
      destruct (G (vz a)) as [Hz|Hz]; [exfalso; tauto|now rewrite (proj2 (D _) Hz)].
    + destruct (G (vx a)) as [Hx|Hx]; [destruct (proj1 (py_floordiv_R k _) Hx) as (x & -> & _)|now rewrite (proj2 (py_floordiv_R k _) Hx)]. cbn [bind].
      destruct (G (vy a)) as [Hy|Hy]; [destruct (proj1 (py_floordiv_R k _) Hy) as (y & -> & _)|now rewrite (proj2 (py_floordiv_R k _) Hy)]. cbn [bind].
      destruct (G (vz a)) as [Hz|Hz]; [exfalso; tauto|now rewrite (proj2 (py_floordiv_R k _) Hz)].
Qed.

(** ** Coordinates *)
Lemma coordinates : forall (A : arith) (a : vec A),
  float_list a = [vx a; vy a; vz a] /\
  (forall i p q, drop a i = Some (p, q) <-> (i < 3)%nat /\ [p; q] = firstn i (float_list a) ++ skipn (S i) (float_list a)).
Proof.
  intros A a. split; [reflexivity|]. intros i p q.
  assert (I : forall x y : num A, (3 > 0)%nat -> Some (x, y) = Some (p, q) <-> [p; q] = [x; y]) by (intros; split; congruence).
  destruct i as [|[|[|i]]]; cbn [drop float_list firstn skipn app]; try (rewrite I by lia; intuition lia).
  split; [discriminate|lia].
Qed.

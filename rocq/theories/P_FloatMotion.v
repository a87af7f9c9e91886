(** * P_FloatMotion: what the printer does with programs filtered with doubles
    (C28, C30, C33) *)
From Coq Require Import List Ascii String ZArith NArith Bool Lia Reals Lra.
From Flocq Require Import Core.
From Verif Require Import PyBase Arith ArithR ArithB64 Gcoder Filters SpecText SpecLoad SpecMachine SpecEqual SpecFilter SpecBinary64.
From Verif Require Import P_Load P_Text P_Report P_Wf P_Machine P_Format P_Filter P_FilterMotion P_Float P_FloatText.
Import ListNotations.
Local Open Scope list_scope.
Local Open Scope R_scope.

(** ** Relative extrusion *)

Definition fe_inv (p : e_phase) (s : rstate (A:=B64)) (k k' : machine) : Prop :=
  inches k = false /\ inches k' = false /\
  match p with
  | Begin => r_relative s = false /\ relative_e k' = relative_e k /\ extruder k' = extruder k /\
      extruder_origin k' = extruder_origin k /\ holds (extruder k - extruder_origin k) (r_current s)
  | Native => r_relative s = true /\ relative_e k' = relative_e k /\ extruder k' = extruder k /\
      extruder_origin k' = extruder_origin k
  | Abs => r_relative s = false /\ relative_e k = false /\ relative_e k' = true /\
      holds (extruder k - extruder_origin k) (r_current s)
  | Rel => r_relative s = true /\ relative_e k = true /\ relative_e k' = true
  | Stale => r_relative s = false /\ relative_e k = false /\ relative_e k' = true
  end.

Lemma no_xyz_fbare : forall (l : line B64) w e, held (w X) (l_x l) -> held (w Y) (l_y l) ->
  held (w Z) (l_z l) -> held e (l_e l) ->
  (match l_e l with Some _ => false | None => no_xyz l end) = bare w e.
Proof.
  intros l w e H1 H2 H3 H4. unfold bare, named, no_xyz.
  destruct (w X), (w Y), (w Z), e, (l_x l), (l_y l), (l_z l), (l_e l); try contradiction; reflexivity.
Qed.

Lemma holds_0 : forall v, v = 0 -> holds v (n0 (A:=B64)).
Proof.
  intros v ->. split; [rewrite Rabs_R0; apply pow_le; lra|]. split; [split; reflexivity|]. symmetry. apply rnd_0.
Qed.

Lemma holds_eq : forall v w x, holds v x -> w = v -> holds w x.
Proof. intros v w x H ->. exact H. Qed.

(** the difference of two E words, computed and printed *)
Lemma shown_sub : forall v u (x c : num B64), holds v x -> holds u c ->
  fin (n_sub (a:=B64) x c) /\
  Rabs (shown 5 (n_sub (a:=B64) x c) - (v - u)) <= / 2 / 10 ^ 5 + / 10 ^ 9.
Proof.
  intros v u x c (V1 & V2 & V3) (U1 & U2 & U3).
  cbn [pow] in V1, U1. assert (V : Rabs v <= 1000000) by lra. assert (U : Rabs u <= 1000000) by lra.
  pose proof (Rabs_le_both _ _ (rnd_nearer v V)) as Nv. pose proof (Rabs_le_both _ _ (rnd_nearer u U)) as Nu.
  pose proof (Rabs_le_both _ _ V) as Bv. pose proof (Rabs_le_both _ _ U) as Bu.
  rewrite <- V3 in Nv. rewrite <- U3 in Nu.
  assert (Hd : Rabs (fval x - fval c) <= 2100000) by (apply Rabs_le; lra).
  destruct (fsub_val x c V2 U2) as [F1 F2]; [apply million_big; lra|].
  change (n_sub (a:=B64) x c) with (fsub x c). split; [exact F1|].
  pose proof (Rabs_le_both _ _ (shown_near 5 _ F1)) as S. rewrite F2 in S.
  pose proof (Rabs_le_both _ _ (rnd_between _ Hd)) as Nd.
  apply Rabs_le. cbn [pow] in *. lra.
Qed.

Ltac conj := repeat (split; [first [assumption|reflexivity]|]);
  first [assumption|reflexivity|match goal with He : holds _ ?x |- holds _ ?x => apply (holds_eq _ _ _ He); cbn; lra end|
         apply holds_0; cbn; lra].

Lemma frel_step_sim : forall s (l : line B64) p q st k k', freads s l -> fe_inv p st k k' ->
  e_step p s = Some q ->
  let s' := raw (answer rel_opcode st l) in
  Rabs (advance s' k' - advance s k) <= (if feeds s then / 2 / 10 ^ 5 + / 10 ^ 9 else 0) /\
  fe_inv q (rel_next st l) (exec_line s k) (exec_line s' k').
Proof.
  intros s l p q st k k' Hr Hi Hq s'. subst s'. unfold feeds, advance, exec_line.
  pose proof (freads_op s l Hr) as Ho. pose proof Hr as (Hraw & _).
  unfold e_step in Hq. unfold rel_next, answer, rel_opcode. rewrite !cmd_is_command, cmd_in_motion.
  destruct Hi as (I1 & I2 & I3).
  destruct (op_of s) as [w e f|w|w e| | | | | | |n|] eqn:Eop.
  - (* move *)
    destruct Ho as (Hm & Hx & Hy & Hz & He & Hf & Hfin & c & Hc & Hgc & Hmc).
    rewrite (move_not_command "M83" l Hm eq_refl), (move_not_command "M82" l Hm eq_refl),
      (move_not_command "G92" l Hm eq_refl), Hm. cbn [andb].
    destruct e as [ev|].
    + destruct (l_e l) as [x|] eqn:Ele; [|destruct He]. cbn [held] in He.
      destruct p; try discriminate Hq; injection Hq as <-.
      * (* Native *)
        destruct I3 as (R1 & R2 & R3 & R4). rewrite R1. cbn [negb snd fst]. rewrite Hraw, Eop.
        split.
        { cbn [exec extruder]. unfold mm. rewrite I1, I2, R2, R3, R4. destruct (relative_e k); match goal with |- Rabs ?t <= _ => replace t with 0 by lra end;
          rewrite Rabs_R0; lra. }
        split; [exact I1|]. split; [exact I2|]. split; [exact R1|]. split; [exact R2|].
        split; [|exact R4]. cbn [extruder exec relative_e]. unfold mm. rewrite I1, I2, R2, R3, R4. reflexivity.
      * (* Abs *)
        destruct I3 as (R1 & R2 & R3 & R4). rewrite R1. cbn [negb snd fst].
        cbn [unsplit mark_relative_e set_notes raw set_raw largs command set_arg set_args]. rewrite Hc.
        set (a' := put_arg LE (Some (n_sub x (r_current st))) (largs l)).
        destruct (shown_sub _ _ _ _ He R4) as [Fs Hs].
        assert (Ha' : all_fin a').
        { intros j y Hj. unfold a' in Hj. destruct (letter_eq_dec j LE) as [->|Hne].
          - rewrite get_put_same in Hj. injection Hj as <-. exact Fs.
          - rewrite get_put_other in Hj by exact Hne. apply (Hfin j y Hj). }
        destruct (op_move_B64 c a' Hgc Ha' Hmc) as (w' & e' & f' & Ho' & _ & He' & _).
        rewrite Ho'. cbn [a' put_arg a_e option_map] in He'. subst e'.
        split.
        { cbn [exec extruder]. unfold mm. rewrite I1, I2, R2, R3.
          match goal with |- Rabs ?t <= _ => replace t with (shown 5 (n_sub x (r_current st)) - (ev - (extruder k - extruder_origin k))) by lra end.
          exact Hs. }
        split; [exact I1|]. split; [exact I2|]. split; [reflexivity|]. split; [exact R2|].
        split; [exact R3|]. cbn [extruder exec extruder_origin r_current]. unfold mm. rewrite I1, R2.
        apply (holds_eq _ _ _ He). lra.
      * (* Rel *)
        destruct I3 as (R1 & R2 & R3). rewrite R1. cbn [negb snd fst]. rewrite Hraw, Eop.
        split.
        { cbn [exec extruder]. unfold mm. rewrite I1, I2, R2, R3. match goal with |- Rabs ?t <= _ => replace t with 0 by lra end. rewrite Rabs_R0. lra. }
        split; [exact I1|]. split; [exact I2|]. split; [exact R1|]. split; [exact R2|exact R3].
    + assert (Hle : l_e l = None) by (destruct (l_e l); [destruct He|reflexivity]). rewrite Hle.
      assert (Hsame : (if negb (r_relative st) then (st, FNone (A:=B64)) else (st, FNone)) = (st, FNone))
        by (destruct (negb (r_relative st)); reflexivity).
      rewrite Hsame. cbn [fst snd]. rewrite Hraw, Eop. cbn [exec extruder].
      injection Hq as <-. split.
      { match goal with |- Rabs ?t <= _ => replace t with 0 by lra end. apply zero_abs. }
      split; [exact I1|]. split; [exact I2|]. destruct p; exact I3.
  - (* home *)
    destruct Ho as (H1 & H2 & H3 & H4 & _). rewrite H4, H3, H2, H1. cbn [andb fst snd]. rewrite Hraw, Eop.
    cbn [exec extruder]. injection Hq as <-. split.
    { match goal with |- Rabs ?t <= _ => replace t with 0 by lra end. apply zero_abs. }
    split; [exact I1|]. split; [exact I2|]. destruct p; exact I3.
  - (* set position *)
    destruct Ho as (Hm & H92 & Hx & Hy & Hz & He & _).
    rewrite (is_command_eq _ "M83" _ H92), (is_command_eq _ "M82" _ H92), H92.
    change (String.eqb "G92" "M83") with false. change (String.eqb "G92" "M82") with false. cbv iota.
    cbn [fst snd]. rewrite Hraw, Eop. cbn [exec extruder]. split.
    { match goal with |- Rabs ?t <= _ => replace t with 0 by lra end. apply zero_abs. }
    pose proof (no_xyz_fbare l w e Hx Hy Hz He) as Hb.
    destruct (l_e l) as [x|] eqn:Ele; destruct e as [ev|]; try contradiction; cbn [held] in He.
    + destruct p; injection Hq as <-.
      * destruct I3 as (R1 & R2 & R3 & R4 & R5). split; [exact I1|]. split; [exact I2|].
        cbn [exec relative_e extruder extruder_origin r_relative r_current]. unfold mm. rewrite I1, I2, R3.
        conj.
      * destruct I3 as (R1 & R2 & R3 & R4). split; [exact I1|]. split; [exact I2|].
        cbn [exec relative_e extruder extruder_origin r_relative r_current]. unfold mm. rewrite I1, I2, R3.
        conj.
      * destruct I3 as (R1 & R2 & R3 & R4). split; [exact I1|]. split; [exact I2|].
        cbn [exec relative_e extruder extruder_origin r_relative r_current]. unfold mm. rewrite I1.
        conj.
      * destruct I3 as (R1 & R2 & R3). split; [exact I1|]. split; [exact I2|]. conj.
      * destruct I3 as (R1 & R2 & R3). split; [exact I1|]. split; [exact I2|].
        cbn [exec relative_e extruder extruder_origin r_relative r_current]. unfold mm. rewrite I1.
        conj.
    + rewrite Hb. destruct (bare w None) eqn:Eb.
      * destruct p; injection Hq as <-.
        -- destruct I3 as (R1 & R2 & R3 & R4 & R5). split; [exact I1|]. split; [exact I2|].
           cbn [exec relative_e extruder extruder_origin r_relative r_current]. rewrite ?Eb, R3.
           conj.
        -- destruct I3 as (R1 & R2 & R3 & R4). split; [exact I1|]. split; [exact I2|].
           cbn [exec relative_e extruder extruder_origin r_relative r_current]. rewrite ?Eb.
           conj.
        -- destruct I3 as (R1 & R2 & R3 & R4). split; [exact I1|]. split; [exact I2|].
           cbn [exec relative_e extruder extruder_origin r_relative r_current]. rewrite ?Eb.
           conj.
        -- destruct I3 as (R1 & R2 & R3). split; [exact I1|]. split; [exact I2|]. conj.
        -- destruct I3 as (R1 & R2 & R3). split; [exact I1|]. split; [exact I2|].
           cbn [exec relative_e extruder extruder_origin r_relative r_current]. rewrite ?Eb.
           conj.
      * destruct p; injection Hq as <-; (split; [exact I1|]); (split; [exact I2|]);
          cbn [exec relative_e extruder extruder_origin]; rewrite ?Eb; exact I3.
  - discriminate Hq.
  - (* millimetres *)
    destruct Ho as (H1 & H2 & H3 & H4 & _). rewrite H4, H3, H2, H1. cbn [andb fst snd]. rewrite Hraw, Eop.
    cbn [exec extruder]. injection Hq as <-. split.
    { match goal with |- Rabs ?t <= _ => replace t with 0 by lra end. apply zero_abs. }
    split; [reflexivity|]. split; [reflexivity|]. destruct p; exact I3.
  - (* G90 *)
    rewrite (is_command_eq _ "M83" _ Ho), (is_command_eq _ "M82" _ Ho), (is_command_eq _ "G92" _ Ho),
      (is_command_motion _ _ Ho). 
    change (String.eqb "G90" "M83") with false. change (String.eqb "G90" "M82") with false.
    change (String.eqb "G90" "G92") with false. cbn [str_mem existsb String.eqb Ascii.eqb Bool.eqb andb orb].
    change (str_mem "G90" ["G0"; "G1"; "G2"; "G3"]%string) with false. cbn [andb fst snd].
    rewrite Hraw, Eop. cbn [exec extruder]. split.
    { match goal with |- Rabs ?t <= _ => replace t with 0 by lra end. apply zero_abs. }
    destruct p; try discriminate Hq; injection Hq as <-; (split; [exact I1|]); (split; [exact I2|]).
    + destruct I3 as (R1 & R2 & R3 & R4 & R5). conj.
    + destruct I3 as (R1 & R2 & R3 & R4). conj.
  - (* G91 *)
    rewrite (is_command_eq _ "M83" _ Ho), (is_command_eq _ "M82" _ Ho), (is_command_eq _ "G92" _ Ho),
      (is_command_motion _ _ Ho).
    change (String.eqb "G91" "M83") with false. change (String.eqb "G91" "M82") with false.
    change (String.eqb "G91" "G92") with false.
    change (str_mem "G91" ["G0"; "G1"; "G2"; "G3"]%string) with false. cbn [andb fst snd].
    rewrite Hraw, Eop. cbn [exec extruder]. split.
    { match goal with |- Rabs ?t <= _ => replace t with 0 by lra end. apply zero_abs. }
    destruct p; try discriminate Hq; injection Hq as <-; (split; [exact I1|]); (split; [exact I2|]).
    + destruct I3 as (R1 & R2 & R3 & R4 & R5). conj.
    + destruct I3 as (R1 & R2 & R3 & R4). conj.
    + destruct I3 as (R1 & R2 & R3). conj.
  - (* M82 *)
    rewrite (is_command_eq _ "M83" _ Ho), Ho. change (String.eqb "M82" "M83") with false. cbn [fst snd].
    change (raw (raw_to_line (A:=B64) "M83")) with "M83"%string.
    change (op_of "M83") with RelativeE. cbn [exec extruder]. split.
    { match goal with |- Rabs ?t <= _ => replace t with 0 by lra end. apply zero_abs. }
    destruct p; injection Hq as <-; (split; [exact I1|]); (split; [exact I2|]);
      cbn [exec relative_e extruder extruder_origin r_relative r_current].
    + destruct I3 as (R1 & R2 & R3 & R4 & R5). conj.
    + conj.
    + destruct I3 as (R1 & R2 & R3 & R4). conj.
    + conj.
    + conj.
  - (* M83 *)
    rewrite Ho. cbn [fst snd]. rewrite Hraw, Eop. cbn [exec extruder]. split.
    { match goal with |- Rabs ?t <= _ => replace t with 0 by lra end. apply zero_abs. }
    destruct p; injection Hq as <-; (split; [exact I1|]); (split; [exact I2|]);
      cbn [exec relative_e extruder extruder_origin r_relative r_current].
    + destruct I3 as (R1 & R2 & R3 & R4 & R5). conj.
    + destruct I3 as (R1 & R2 & R3 & R4). conj.
    + conj.
    + conj.
    + conj.
  - (* tool *)
    destruct Ho as (H1 & H2 & H3 & H4 & _). rewrite H4, H3, H2, H1. cbn [andb fst snd]. rewrite Hraw, Eop.
    cbn [exec extruder]. injection Hq as <-. split.
    { match goal with |- Rabs ?t <= _ => replace t with 0 by lra end. apply zero_abs. }
    split; [exact I1|]. split; [exact I2|]. exact I3.
  - destruct Ho as (H1 & H2 & H3 & H4 & _). rewrite H4, H3, H2, H1. cbn [andb fst snd]. rewrite Hraw, Eop.
    cbn [exec extruder]. injection Hq as <-. split.
    { match goal with |- Rabs ?t <= _ => replace t with 0 by lra end. apply zero_abs. }
    split; [exact I1|]. split; [exact I2|]. exact I3.
Qed.

Lemma frel_run_sim : forall ss (ls : list (line B64)), Forall2 freads ss ls -> forall p st k k',
  fe_inv p st k k' -> e_ready_from p ss = true ->
  feed_within (/ 2 / 10 ^ 5 + / 10 ^ 9) ss (map raw (answers rel_opcode st ls)) k k'.
Proof.
  intros ss ls H. induction H as [|s l ss ls Hr _ IH]; intros p st k k' Hi Hq; cbn [answers map feed_within]; [exact I|].
  cbn [e_ready_from] in Hq. destruct (e_step p s) as [q|] eqn:Eq; [|discriminate Hq].
  destruct (frel_step_sim s l p q st k k' Hr Hi Eq) as [H1 H2]. split; [exact H1|].
  apply (IH q _ _ _ H2 Hq).
Qed.

Lemma relative_feed_B64 : forall home data (g g' : gcode B64) h, load_gen false home data = Ok g ->
  to_relative_extrusion g = Ok g' -> e_ready (program_text data) = true ->
  Forall modest (program_text data) ->
  feed_within (/ 2 / 10 ^ 5 + / 10 ^ 9) (program_text data) (write g') (start h) (start h).
Proof.
  intros home data g g' h H H' Hq Hm. destruct (relative_pure g g' H') as (Ha & _).
  unfold write. change (List.concat (map ly_lines (g_layers g'))) with (all_lines g'). rewrite Ha.
  apply (frel_run_sim _ _ (load_freads _ _ _ H (e_ready_inches _ _ Hq) Hm) Begin).
  - conj.
  - exact Hq.
Qed.


Lemma feed_within_total : forall d ss ss' k k', feed_within d ss ss' k k' ->
  Rabs ((extruder (run ss' k') - extruder k') - (extruder (run ss k) - extruder k))
    <= INR (feed_count ss) * d.
Proof.
  intros d. induction ss as [|s ss IH]; intros [|s' ss'] k k' H; cbn [feed_within] in H; try contradiction.
  - cbn. replace (extruder k' - extruder k' - (extruder k - extruder k)) with 0 by lra. rewrite Rabs_R0. lra.
  - destruct H as [H1 H2]. apply IH in H2. unfold run in *. cbn [fold_left].
    unfold advance in H1. unfold feed_count in *. cbn [filter].
    set (a := extruder (fold_left (fun k s => exec_line s k) ss' (exec_line s' k'))) in *.
    set (b := extruder (fold_left (fun k s => exec_line s k) ss (exec_line s k))) in *.
    replace (a - extruder k' - (b - extruder k)) with
      ((a - extruder (exec_line s' k') - (b - extruder (exec_line s k))) +
       (extruder (exec_line s' k') - extruder k' - (extruder (exec_line s k) - extruder k))) by lra.
    eapply Rle_trans; [apply Rabs_triang|].
    destruct (feeds s).
    + cbn [List.length]. rewrite S_INR. lra.
    + lra.
Qed.

Lemma relative_drift_B64 : forall home data (g g' : gcode B64) h, load_gen false home data = Ok g ->
  to_relative_extrusion g = Ok g' -> e_ready (program_text data) = true ->
  Forall modest (program_text data) ->
  Rabs (extruder (run (write g') (start h)) - extruder (run (program_text data) (start h)))
    <= INR (feed_count (program_text data)) * (/ 2 / 10 ^ 5 + / 10 ^ 9).
Proof.
  intros home data g g' h H H' Hq Hm.
  pose proof (feed_within_total _ _ _ _ _ (relative_feed_B64 _ _ _ _ h H H' Hq Hm)) as Hb.
  cbn [start extruder] in Hb. rewrite !Rminus_0_r in Hb. exact Hb.
Qed.

(** ** Translation *)

(** how far axis [a] is still to be shifted *)
Definition fstill (st : tstate (A:=B64)) (a : axis) : option (num B64) :=
  match a with X => tr_x st | Y => tr_y st | Z => None end.

(** what the arithmetic of a line may lose *)
Definition loss : R := / 2000000000.

Lemma shifted_fval : forall t (v : num B64) r, modest_shift t -> holds r v ->
  fin (shifted t v) /\ Rabs (fval (shifted t v) - (r + famount t)) <= loss.
Proof.
  intros t v r Ht (V1 & V2 & V3). cbn [pow] in V1. assert (V : Rabs r <= 1000000) by lra. unfold loss.
  pose proof (Rabs_le_both _ _ (rnd_nearer r V)) as Nv. rewrite <- V3 in Nv. pose proof (Rabs_le_both _ _ V) as Bv.
  destruct t as [x|]; cbn [shifted famount].
  - destruct Ht as [Fx Hx]. cbn [pow] in Hx. assert (Hx' : Rabs (fval x) <= 1000000) by lra.
    pose proof (Rabs_le_both _ _ Hx') as Bx.
    destruct (n_eqb x n0) eqn:Ex.
    + split; [exact V2|]. assert (F0 : fin (n0 (A:=B64))) by (split; reflexivity).
      apply (feqb_val x n0 Fx F0) in Ex. change (fval n0) with 0 in Ex. rewrite Ex. apply Rabs_le. lra.
    + change (n_add (a:=B64) v x) with (fadd v x).
      assert (Hs : Rabs (fval v + fval x) <= 2100000) by (apply Rabs_le; lra).
      destruct (fadd_val v x V2 Fx) as [F1 F2]; [apply million_big; lra|]. split; [exact F1|].
      rewrite F2. pose proof (Rabs_le_both _ _ (rnd_between _ Hs)) as N. apply Rabs_le. lra.
  - split; [exact V2|]. apply Rabs_le. lra.
Qed.

Lemma shown3 : forall x r, fin x -> Rabs (fval x - r) <= loss -> Rabs (shown 3 x - r) <= / 2000 + loss.
Proof.
  intros x r F H. pose proof (Rabs_le_both _ _ (shown_near 3 x F)) as S. pose proof (Rabs_le_both _ _ H) as N.
  apply Rabs_le. cbn [pow] in S. lra.
Qed.
Lemma holds_loss : forall v x, holds v x -> fin x /\ Rabs (fval x - v) <= loss.
Proof.
  intros v x (H1 & H2 & H3). split; [exact H2|]. cbn [pow] in H1. rewrite H3. unfold loss.
  pose proof (Rabs_le_both _ _ (rnd_nearer v ltac:(lra))) as N. apply Rabs_le. lra.
Qed.
Lemma shown3_holds : forall v x, holds v x -> Rabs (shown 3 x - v) <= / 2000 + loss.
Proof. intros v x H. destruct (holds_loss v x H). apply shown3; assumption. Qed.
Lemma shown5_holds : forall v x, holds v x -> Rabs (shown 5 x - v) <= / 200000 + loss.
Proof.
  intros v x H. destruct (holds_loss v x H) as [F N]. pose proof (Rabs_le_both _ _ (shown_near 5 x F)) as S.
  apply Rabs_le_both in N. apply Rabs_le. cbn [pow] in S. lra.
Qed.
Lemma loss_pos : 0 <= loss. Proof. unfold loss. lra. Qed.

(** where the code freads a word, and what comes out of shifting it *)
Lemma held_shift : forall t o (x : option (num B64)), modest_shift t -> held o x ->
  (forall y, option_map (shifted t) x = Some y -> fin y) /\
  near (/ 2000 + loss) (option_map (shown 3) (option_map (shifted t) x)) (option_map (fun v => v + famount t) o).
Proof.
  intros t [v|] [x|] Ht H; cbn in H; try contradiction; cbn [option_map near].
  - destruct (shifted_fval t x v Ht H) as [F N]. split; [intros y Hy; injection Hy as <-; exact F|]. apply shown3; assumption.
  - split; [discriminate|exact I].
Qed.

(** what becomes of an absolute move *)
Lemma ftr_move : forall s (l : line B64) st w e f, freads s l -> op_of s = Move w e f ->
  modest_shift (tr_x st) -> modest_shift (tr_y st) -> tr_absolute st = Some true ->
  tr_next st l = st /\
  exists w' e' f', op_of (raw (answer tr_opcode st l)) = Move w' e' f' /\
    (forall a, near (/ 2000 + loss) (w' a) (option_map (fun v => v + famount (fstill st a)) (w a))) /\
    near (/ 200000 + loss) e' e.
Proof.
  intros s l st w e f Hr Ho Mx My Ht. pose proof (freads_op s l Hr) as Hk. rewrite Ho in Hk.
  destruct Hk as (Hm & Hx & Hy & Hz & He & Hf & Hfin & c & Hc & Hgc & Hmc). pose proof loss_pos as Lp.
  unfold tr_next, answer, tr_opcode. rewrite cmd_in_motion, Hm, Ht. cbn [fst snd].
  split; [reflexivity|].
  destruct (shift_two (tr_x st) (tr_y st) l) as (S1 & S2 & S3 & S4 & S5 & S6 & S7). cbv zeta in *.
  set (l' := shift_word LY (tr_y st) (shift_word LX (tr_x st) l)) in *.
  destruct (held_shift _ _ _ Mx Hx) as [Fx Nx]. destruct (held_shift _ _ _ My Hy) as [Fy Ny].
  assert (Hz' : l_z l' = l_z l) by (apply (S6 LZ); discriminate).
  assert (He' : l_e l' = l_e l) by (apply (S6 LE); discriminate).
  destruct S7 as [S7|S7].
  - rewrite S7. destruct Hr as (Hraw & _). rewrite Hraw, Ho. eexists _, _, _. split; [reflexivity|].
    assert (Hself : forall d (o : option R), 0 <= d -> near d o o).
    { intros d [x|] Hd; cbn; [|exact I]. replace (x - x) with 0 by lra. rewrite Rabs_R0. exact Hd. }
    split; [|apply Hself; lra].
    intros a. rewrite S7 in S4, S5.
    assert (Habs : forall t o (x : option (num B64)), modest_shift t -> held o x -> x = option_map (shifted t) x ->
      near (/ 2000 + loss) o (option_map (fun v => v + famount t) o)).
    { intros t [v|] [x|] Mt Hh Hs; cbn in Hh; try contradiction; cbn [option_map near]; [|exact I].
      cbn in Hs. injection Hs as Hs. destruct (shifted_fval t x v Mt Hh) as [_ N]. rewrite <- Hs in N.
      destruct (holds_loss v x Hh) as [_ N2]. apply Rabs_le_both in N. apply Rabs_le_both in N2. apply Rabs_le.
      unfold loss in *. lra. }
    destruct a; cbn [fstill].
    + apply (Habs _ _ _ Mx Hx S4).
    + apply (Habs _ _ _ My Hy S5).
    + replace (option_map (fun v => v + famount None) (w Z)) with (w Z).
      * apply Hself. lra.
      * destruct (w Z); [cbn; f_equal; lra|reflexivity].
  - rewrite S7, Hc.
    assert (Ha' : all_fin (largs l')).
    { intros k y Hy'. destruct (letter_eq_dec k LX) as [->|NX].
      - apply Fx. rewrite <- S4. exact Hy'.
      - destruct (letter_eq_dec k LY) as [->|NY].
        + apply Fy. rewrite <- S5. exact Hy'.
        + rewrite (S6 k NX NY) in Hy'. apply (Hfin k y Hy'). }
    destruct (op_move_B64 c (largs l') Hgc Ha' Hmc) as (w' & e' & f' & Ho' & Hw' & Hee & _).
    exists w', e', f'. split; [exact Ho'|]. split.
    + intros a. rewrite Hw'. destruct a; cbn [fstill].
      * change (a_x (largs l')) with (l_x l'). rewrite S4. exact Nx.
      * change (a_y (largs l')) with (l_y l'). rewrite S5. exact Ny.
      * change (a_z (largs l')) with (l_z l'). rewrite Hz'.
        destruct (l_z l) as [v|], (w Z) as [u|]; try contradiction; cbn [option_map near famount]; [|exact I].
        rewrite Rplus_0_r. apply shown3_holds. exact Hz.
    + rewrite Hee. change (a_e (largs l')) with (l_e l'). rewrite He'.
      destruct (l_e l) as [v|], e as [u|]; try contradiction; cbn [option_map near]; [|exact I]. apply shown5_holds. exact He.
Qed.

(** what becomes of a G92 *)
Definition got (o : option R) (x : option (num B64)) : Prop :=
  match o, x with
  | Some v, Some f => fin f /\ Rabs (fval f - v) <= loss
  | None, None => True
  | _, _ => False
  end.

Lemma got_shown : forall o x, got o x -> near (/ 2000 + loss) (option_map (shown 3) x) o.
Proof.
  intros [v|] [x|] H; cbn in *; try contradiction; [|exact I]. destruct H as [F N]. apply shown3; assumption.
Qed.

Lemma got_opp : forall t, modest_shift t -> got (Some (0 - famount t)) (Some (shift_opp t)).
Proof.
  intros [x|] H; cbn [got famount shift_opp].
  - destruct H as [[V F] _]. change (n_opp (a:=B64) x) with (SpecFloat.SFopp x).
    assert (Hv : fin (SpecFloat.SFopp x) /\ fval (SpecFloat.SFopp x) = - fval x).
    { destruct x as [b|b| |b m z]; try discriminate F.
      - split; [split; reflexivity|]. unfold fval. cbn. lra.
      - split; [split; assumption|]. unfold fval. cbn. unfold F2R. cbn. destruct b; cbn; [|rewrite <- Ropp_mult_distr_l_reverse; f_equal];
          rewrite <- ?opp_IZR; try reflexivity. change (Z.neg m) with (- Z.pos m)%Z. rewrite opp_IZR. ring. }
    destruct Hv as [F' V']. split; [exact F'|]. rewrite V'. replace (- fval x - (0 - fval x)) with 0 by lra. rewrite Rabs_R0. apply loss_pos.
  - split; [split; reflexivity|]. change (fval n0) with 0. replace (0 - (0 - 0)) with 0 by lra. rewrite Rabs_R0. apply loss_pos.
Qed.

Lemma got_sub : forall t v x, modest_shift t -> holds v x -> got (Some (v - famount t)) (Some (shift_sub x t)).
Proof.
  intros t v x Ht H. cbn [got]. destruct t as [y|]; cbn [famount shift_sub].
  - destruct H as (V1 & V2 & V3). destruct Ht as [Fy Hy]. cbn [pow] in V1, Hy.
    pose proof (Rabs_le_both _ _ (rnd_nearer v ltac:(lra))) as Nv. rewrite <- V3 in Nv.
    assert (Hy' : Rabs (fval y) <= 1000000) by lra. assert (V : Rabs v <= 1000000) by lra.
    pose proof (Rabs_le_both _ _ V) as Bv. pose proof (Rabs_le_both _ _ Hy') as By.
    assert (Hs : Rabs (fval x - fval y) <= 2100000) by (apply Rabs_le; lra).
    destruct (fsub_val x y V2 Fy) as [F1 F2]; [apply million_big; lra|]. change (n_sub (a:=B64) x y) with (fsub x y).
    split; [exact F1|]. rewrite F2. pose proof (Rabs_le_both _ _ (rnd_between _ Hs)) as N. unfold loss. apply Rabs_le. lra.
  - rewrite Rminus_0_r. apply holds_loss, H.
Qed.

Lemma ftr_set : forall s (l : line B64) st w e, freads s l -> op_of s = SetPosition w e ->
  modest_shift (tr_x st) -> modest_shift (tr_y st) ->
  tr_absolute (tr_next st l) = tr_absolute st /\
  (forall a, fstill (tr_next st l) a = if resets w a then None else fstill st a) /\
  exists w' e', op_of (raw (answer tr_opcode st l)) = SetPosition w' e' /\ near (/ 200000 + loss) e' e /\
    forall a, near (/ 2000 + loss) (w' a)
      (if resets w a then Some ((match w a with Some v => v | None => 0 end) - famount (fstill st a)) else None).
Proof.
  intros s l st w e Hr Ho Mx My. pose proof (freads_op s l Hr) as Hk. rewrite Ho in Hk.
  destruct Hk as (Hm & H92 & Hx & Hy & Hz & He & Hfin).
  destruct (tr_next_fields st l) as (F1 & F2 & F3).
  rewrite (is_command_eq _ "G90" _ H92), (is_command_eq _ "G91" _ H92) in F1. split; [exact F1|].
  assert (Hres : forall a, a <> Z -> rebases (axis_arg a) l = resets w a).
  { intros a Ha. unfold rebases, resets. rewrite H92. unfold named.
    destruct a; [| |congruence]; cbn [axis_arg get_arg];
      change (a_x (largs l)) with (l_x l); change (a_y (largs l)) with (l_y l);
      destruct (l_x l), (l_y l), (l_z l), (w X), (w Y), (w Z); try contradiction; reflexivity. }
  split.
  { intros a. destruct a; cbn [fstill].
    - rewrite F2. rewrite <- (Hres X) by discriminate. reflexivity.
    - rewrite F3. rewrite <- (Hres Y) by discriminate. reflexivity.
    - destruct (resets w Z); reflexivity. }
  assert (Hcmd : command l = Some "G92"%string).
  { unfold is_command in H92. destruct (command l); [|discriminate H92]. apply String.eqb_eq in H92. now subst. }
  unfold answer, tr_opcode. rewrite !cmd_is_command, cmd_in_motion, Hm, H92.
  rewrite (is_command_eq _ "G90" _ H92), (is_command_eq _ "G91" _ H92).
  change (String.eqb "G92" "G90") with false. change (String.eqb "G92" "G91") with false. cbv iota.
  assert (Hgen : forall l2 : line B64, command l2 = Some "G92"%string ->
    (forall k, k <> LX -> k <> LY -> get_arg k (largs l2) = get_arg k (largs l)) ->
    (forall a, a <> Z -> got
       (if resets w a then Some ((match w a with Some v => v | None => 0 end) - famount (fstill st a)) else None)
       (get_arg (axis_arg a) (largs l2))) ->
    exists w' e', op_of (raw (unsplit l2)) = SetPosition w' e' /\ near (/ 200000 + loss) e' e /\
    forall a, near (/ 2000 + loss) (w' a)
      (if resets w a then Some ((match w a with Some v => v | None => 0 end) - famount (fstill st a)) else None)).
  { intros l2 C2 K2 XY. cbn [unsplit raw set_raw]. rewrite C2.
    assert (Ha : all_fin (largs l2)).
    { assert (Hg : forall a y, a <> Z -> get_arg (axis_arg a) (largs l2) = Some y -> fin y).
      { intros a y Hne Hy2. specialize (XY a Hne). rewrite Hy2 in XY. destruct (resets w a); [apply XY|destruct XY]. }
      intros k y Hk. destruct (letter_eq_dec k LX) as [->|NX]; [apply (Hg X y ltac:(discriminate) Hk)|].
      destruct (letter_eq_dec k LY) as [->|NY]; [apply (Hg Y y ltac:(discriminate) Hk)|].
      rewrite (K2 k NX NY) in Hk. apply (Hfin k y Hk). }
    destruct (op_92_B64 (largs l2) Ha) as (w' & e' & Ho' & Hw' & Hee).
    exists w', e'. split; [exact Ho'|]. split.
    - rewrite Hee. pose proof (K2 LE ltac:(discriminate) ltac:(discriminate)) as KE. cbn [get_arg] in KE. rewrite KE.
      change (a_e (largs l)) with (l_e l).
      destruct (l_e l) as [v|], e as [u|]; try contradiction; cbn [option_map near]; [|exact I]. apply shown5_holds, He.
    - intros a. rewrite Hw'. destruct a.
      + apply got_shown. apply (XY X). discriminate.
      + apply got_shown. apply (XY Y). discriminate.
      + pose proof (K2 LZ ltac:(discriminate) ltac:(discriminate)) as KZ. cbn [get_arg] in KZ. rewrite KZ.
        change (a_z (largs l)) with (l_z l). unfold resets, named. cbn [fstill famount andb orb].
        destruct (l_z l) as [v|], (w Z) as [u|]; try contradiction; cbn; [|exact I]. rewrite Rminus_0_r. apply shown3_holds, Hz. }
  unfold no_xyz.
  destruct (l_x l) as [vx|] eqn:Lx; destruct (l_y l) as [vy|] eqn:Ly; destruct (l_z l) as [vz|] eqn:Lz;
    destruct (w X) as [ux|] eqn:Wx; try contradiction; destruct (w Y) as [uy|] eqn:Wy; try contradiction;
    destruct (w Z) as [uz|] eqn:Wz; try contradiction;
    cbn [is_some orb negb snd]; apply Hgen; try exact Hcmd;
    try (intros []; intros; try congruence; reflexivity);
    intros a Ha; destruct a; try congruence; unfold resets, named; rewrite ?Wx, ?Wy, ?Wz;
    cbn [axis_arg get_arg set_arg set_args put_arg largs a_x a_y orb negb andb fstill];
    change (a_x (largs l)) with (l_x l); change (a_y (largs l)) with (l_y l); rewrite ?Lx, ?Ly;
    first [exact I|apply got_opp; assumption|apply got_sub; assumption].
Qed.

(** all other lines *)
Lemma ftr_other : forall s (l : line B64) st, freads s l ->
  match op_of s with Move _ _ _ | SetPosition _ _ => False | _ => True end ->
  raw (answer tr_opcode st l) = s /\
  (forall a, fstill (tr_next st l) a = fstill st a) /\
  tr_absolute (tr_next st l) = match op_of s with Absolute => Some true | Relative => Some false
                               | _ => tr_absolute st end.
Proof.
  intros s l st Hr Ho. pose proof (freads_op s l Hr) as Hk. destruct (tr_next_fields st l) as (F1 & F2 & F3).
  assert (Hm : is_motion l = false /\ is_command "G92" l = false).
  { destruct (op_of s); try contradiction; try (destruct Hk as (K1 & K2 & _); auto);
      split; first [rewrite (is_command_motion _ _ Hk); reflexivity|rewrite (is_command_eq _ "G92" _ Hk); reflexivity]. }
  destruct Hm as [Hm H92]. destruct Hr as (Hraw & _).
  split; [|split].
  - unfold answer, tr_opcode. rewrite !cmd_is_command, cmd_in_motion, Hm, H92.
    destruct (is_command "G90" l); [exact Hraw|]. destruct (is_command "G91" l); exact Hraw.
  - unfold rebases in F2, F3. rewrite H92 in F2, F3. cbn in F2, F3. intros []; cbn [fstill]; auto.
  - rewrite F1. destruct (op_of s); try contradiction;
      try (destruct Hk as (_ & _ & _ & _ & K5 & K6); rewrite K5, K6; reflexivity).
    + rewrite Hk. reflexivity.
    + rewrite (is_command_eq _ "G90" _ Hk), Hk. reflexivity.
    + rewrite (is_command_eq _ "G90" _ Hk), (is_command_eq _ "G91" _ Hk). reflexivity.
    + rewrite (is_command_eq _ "G90" _ Hk), (is_command_eq _ "G91" _ Hk). reflexivity.
Qed.

(** the axis [a] of the machines [k] and [k'], when [a] is to be shifted by [t] *)
Definition faxis_inv (t : R) (a : axis) (p : t_phase) (o : option (num B64)) (k k' : machine) : Prop :=
  match p with
  | Homed => famount o = t /\ head k a = 0 /\ head k' a = 0 /\ origin k a = 0 /\ origin k' a = 0
  | Placed => famount o = t /\ origin k a = 0 /\ origin k' a = 0 /\
      Rabs (head k' a - (head k a + t)) <= / 2000 + loss
  | Based => famount o = 0 /\ head k' a = head k a /\ Rabs (origin k' a - (origin k a + t)) <= / 2000 + loss
  | BasedPlaced => famount o = 0 /\ Rabs (head k' a - (head k a + t)) <= / 1000 + 2 * loss /\
      Rabs (origin k' a - (origin k a + t)) <= / 2000 + loss
  end.

Definition ft_inv (t : axis -> R) (ps : axis -> t_phase) (st : tstate (A:=B64)) (k k' : machine) : Prop :=
  (forall a, modest_shift (fstill st a)) /\
  inches k = false /\ inches k' = false /\ relative k = false /\ relative k' = false /\
  (forall a, home k a = 0) /\ (forall a, home k' a = 0) /\
  forall a, faxis_inv (t a) a (ps a) (fstill st a) k k'.

Ltac fmodest := let a := fresh "a" in intros a;
  match goal with Hst : forall a, fstill _ a = _ |- _ => rewrite Hst end;
  first [match goal with I0 : forall a, modest_shift _ |- _ => apply I0 end|
         match goal with |- context [resets ?w a] => destruct (resets w a); [exact I|] end;
         match goal with I0 : forall a, modest_shift _ |- _ => apply I0 end].

Lemma ftr_step_sim : forall t s (l : line B64) ps qs st k k', freads s l -> t Z = 0 ->
  ft_inv t ps st k k' -> (forall a, t_step a (ps a) s = Some (qs a)) ->
  (tr_absolute st = Some true \/ (tr_absolute st = None /\ match op_of s with Move _ _ _ => False | _ => True end)) ->
  let s' := raw (answer tr_opcode st l) in
  ft_inv t qs (tr_next st l) (exec_line s k) (exec_line s' k').
Proof.
  intros t s l ps qs st k k' Hr Ht0 (I0 & I1 & I2 & I3 & I4 & I5 & I6 & I7) Hq Hmode s'. subst s'. unfold exec_line.
  assert (Hother : match op_of s with Move _ _ _ | SetPosition _ _ => False | _ => True end ->
    raw (answer tr_opcode st l) = s /\ (forall a, fstill (tr_next st l) a = fstill st a)).
  { intros H. destruct (ftr_other s l st Hr H) as (H1 & H2 & _). auto. }
  destruct (op_of s) as [w e f|w|w e| | | | | | |n|] eqn:Eop.
  - (* move *)
    destruct Hmode as [Hmode|[_ Hmode]]; [|destruct Hmode].
    destruct (ftr_move s l st w e f Hr Eop (I0 X) (I0 Y) Hmode) as (Hst & w' & e' & f' & Ho' & Hw & _).
    rewrite Ho', Hst. cbn [exec]. unfold ft_inv. cbn [inches relative home].
    split; [exact I0|].
    split; [exact I1|]. split; [exact I2|]. split; [exact I3|]. split; [exact I4|]. split; [exact I5|]. split; [exact I6|].
    intros a. specialize (I7 a). specialize (Hw a). specialize (Hq a). unfold t_step in Hq. rewrite Eop in Hq.
    unfold named in Hq. injection Hq as <-. unfold faxis_inv in *. cbn [head origin]. unfold mm. rewrite I1, I2, I3, I4.
    unfold near in Hw. destruct (w a) as [v|]; cbn [option_map] in Hw; destruct (w' a) as [v'|]; try contradiction.
    + destruct (ps a).
      * destruct I7 as (J1 & J2 & J3 & J4 & J5). repeat (split; [assumption|]). rewrite J4, J5, <- J1.
        replace (0 + v' - (0 + v + famount (fstill st a))) with (v' - (v + famount (fstill st a))) by lra. exact Hw.
      * destruct I7 as (J1 & J2 & J3 & J4). repeat (split; [assumption|]). rewrite J2, J3, <- J1.
        replace (0 + v' - (0 + v + famount (fstill st a))) with (v' - (v + famount (fstill st a))) by lra. exact Hw.
      * destruct I7 as (J1 & J2 & J3). split; [exact J1|]. split; [|exact J3].
        rewrite J1 in Hw. replace (/ 1000 + 2 * loss) with (/ 2000 + loss + (/ 2000 + loss)) by lra.
        apply (Rabs_add_le _ _ _ _ _ Hw J3). lra.
      * destruct I7 as (J1 & J2 & J3). split; [exact J1|]. split; [|exact J3].
        rewrite J1 in Hw. replace (/ 1000 + 2 * loss) with (/ 2000 + loss + (/ 2000 + loss)) by lra.
        apply (Rabs_add_le _ _ _ _ _ Hw J3). lra.
    + exact I7.
  - (* home *)
    destruct (Hother I) as [-> Hst]. rewrite Eop. cbn [exec]. unfold ft_inv. cbn [inches relative home].
    split; [fmodest|].
    split; [exact I1|]. split; [exact I2|]. split; [exact I3|]. split; [exact I4|]. split; [exact I5|]. split; [exact I6|].
    intros a. specialize (I7 a). specialize (Hq a). unfold t_step in Hq. rewrite Eop in Hq.
    rewrite Hst. unfold faxis_inv in *. cbn [head origin]. rewrite I5, I6.
    destruct (negb (named w X || named w Y || named w Z) || named w a).
    + destruct (ps a).
      * injection Hq as <-. destruct I7 as (J1 & _). repeat split. exact J1.
      * injection Hq as <-. destruct I7 as (J1 & _). repeat split. exact J1.
      * destruct a; try discriminate Hq. injection Hq as <-. rewrite Ht0. repeat split.
      * destruct a; try discriminate Hq. injection Hq as <-. rewrite Ht0. repeat split.
    + injection Hq as <-. exact I7.
  - (* set position *)
    destruct (ftr_set s l st w e Hr Eop (I0 X) (I0 Y)) as (_ & Hst & w' & e' & Ho' & _ & Hw).
    rewrite Ho'. cbn [exec]. unfold ft_inv. cbn [inches relative home].
    split; [fmodest|].
    split; [exact I1|]. split; [exact I2|]. split; [exact I3|]. split; [exact I4|]. split; [exact I5|]. split; [exact I6|].
    intros a.
    assert (Hb : bare w e = false).
    { specialize (Hq a). unfold t_step in Hq. rewrite Eop in Hq. destruct (bare w e); [discriminate Hq|reflexivity]. }
    assert (Hb' : bare w' e' = false).
    { unfold bare. assert (Hex : exists b, resets w b = true).
      { unfold resets. destruct (named w X) eqn:Nx; [exists X; now rewrite Nx|].
        destruct (named w Y) eqn:Ny; [exists Y; now rewrite Ny|].
        destruct (named w Z) eqn:Nz; [exists Z; now rewrite Nz|]. exists X. rewrite Nx. reflexivity. }
      destruct Hex as [b Hb1]. specialize (Hw b). rewrite Hb1 in Hw.
      assert (Hn : named w' b = true).
      { unfold named. destruct (w' b); [reflexivity|destruct Hw]. }
      destruct b; rewrite Hn; cbn; rewrite ?orb_true_r; reflexivity. }
    rewrite Hb, Hb'. specialize (I7 a). specialize (Hq a). unfold t_step in Hq. rewrite Eop, Hb in Hq.
    specialize (Hst a). specialize (Hw a). rewrite Hst. unfold faxis_inv in *. cbn [head origin]. unfold mm. rewrite I1, I2.
    destruct (resets w a) eqn:Er.
    + destruct (ps a) eqn:Ep; try discriminate Hq. injection Hq as <-.
      destruct I7 as (J1 & J2 & J3 & J4 & J5). unfold near in Hw. destruct (w' a) as [v'|]; [|destruct Hw].
      split; [reflexivity|]. split; [congruence|].
      destruct (w a) as [v|].
      * rewrite J2, J3. rewrite <- Rabs_Ropp. rewrite J1 in Hw.
        replace (- (0 - v' - (0 - v + t a))) with (v' - (v - t a)) by lra. exact Hw.
      * rewrite J3, J4. rewrite <- Rabs_Ropp. rewrite J1 in Hw.
        replace (- (0 - v' - (0 + t a))) with (v' - (0 - t a)) by lra. exact Hw.
    + injection Hq as <-.
      assert (Hwa : w a = None).
      { unfold resets, named in Er. apply orb_false_elim in Er as [Er _]. destruct (w a); [discriminate Er|reflexivity]. }
      unfold near in Hw. destruct (w' a); [destruct Hw|]. rewrite Hwa. exact I7.
  - specialize (Hq X). unfold t_step in Hq. rewrite Eop in Hq. discriminate Hq.
  - destruct (Hother I) as [-> Hst]. rewrite Eop. cbn [exec]. unfold ft_inv. cbn [inches relative home].
    split; [fmodest|]. split; [reflexivity|]. split; [reflexivity|]. split; [exact I3|]. split; [exact I4|]. split; [exact I5|]. split; [exact I6|].
    intros a. rewrite Hst. specialize (Hq a). unfold t_step in Hq. rewrite Eop in Hq. injection Hq as <-. exact (I7 a).
  - destruct (Hother I) as [-> Hst]. rewrite Eop. cbn [exec]. unfold ft_inv. cbn [inches relative home].
    split; [fmodest|]. split; [exact I1|]. split; [exact I2|]. split; [reflexivity|]. split; [reflexivity|]. split; [exact I5|]. split; [exact I6|].
    intros a. rewrite Hst. specialize (Hq a). unfold t_step in Hq. rewrite Eop in Hq. injection Hq as <-. exact (I7 a).
  - specialize (Hq X). unfold t_step in Hq. rewrite Eop in Hq. discriminate Hq.
  - destruct (Hother I) as [-> Hst]. rewrite Eop. cbn [exec]. unfold ft_inv. cbn [inches relative home].
    split; [fmodest|].
    split; [exact I1|]. split; [exact I2|]. split; [exact I3|]. split; [exact I4|]. split; [exact I5|]. split; [exact I6|].
    intros a. rewrite Hst. specialize (Hq a). unfold t_step in Hq. rewrite Eop in Hq. injection Hq as <-. exact (I7 a).
  - destruct (Hother I) as [-> Hst]. rewrite Eop. cbn [exec]. unfold ft_inv. cbn [inches relative home].
    split; [fmodest|].
    split; [exact I1|]. split; [exact I2|]. split; [exact I3|]. split; [exact I4|]. split; [exact I5|]. split; [exact I6|].
    intros a. rewrite Hst. specialize (Hq a). unfold t_step in Hq. rewrite Eop in Hq. injection Hq as <-. exact (I7 a).
  - destruct (Hother I) as [-> Hst]. rewrite Eop. cbn [exec]. unfold ft_inv. 
    split; [fmodest|].
    split; [exact I1|]. split; [exact I2|]. split; [exact I3|]. split; [exact I4|]. split; [exact I5|]. split; [exact I6|].
    intros a. rewrite Hst. specialize (Hq a). unfold t_step in Hq. rewrite Eop in Hq. injection Hq as <-. exact (I7 a).
  - destruct (Hother I) as [-> Hst]. rewrite Eop. cbn [exec]. unfold ft_inv. 
    split; [fmodest|].
    split; [exact I1|]. split; [exact I2|]. split; [exact I3|]. split; [exact I4|]. split; [exact I5|]. split; [exact I6|].
    intros a. rewrite Hst. specialize (Hq a). unfold t_step in Hq. rewrite Eop in Hq. injection Hq as <-. exact (I7 a).
Qed.

Lemma ft_inv_head : forall t ps st k k' a, ft_inv t ps st k k' ->
  Rabs (head k' a - (head k a + (if moved (ps a) then t a else 0))) <= / 1000 + 2 * loss.
Proof.
  intros t ps st k k' a (_ & _ & _ & _ & _ & _ & _ & H). specialize (H a). pose proof loss_pos. unfold faxis_inv in H.
  destruct (ps a); cbn [moved].
  - destruct H as (_ & -> & -> & _). replace (0 - (0 + 0)) with 0 by lra. rewrite Rabs_R0. lra.
  - destruct H as (_ & _ & _ & H). lra.
  - destruct H as (_ & -> & _). match goal with |- Rabs ?x <= _ => replace x with 0 by lra end. rewrite Rabs_R0. lra.
  - apply H.
Qed.

Lemma ftr_run_sim : forall t, t Z = 0 -> forall ss (ls : list (line B64)), Forall2 freads ss ls -> forall ps st k k',
  ft_inv t ps st k k' -> (forall a, t_run a (ps a) ss <> None) ->
  (tr_absolute st = Some true \/ (tr_absolute st = None /\ declared ss = true)) ->
  forall i a, exists p, t_run a (ps a) (firstn i ss) = Some p /\
    Rabs (head (run (firstn i (map raw (answers tr_opcode st ls))) k') a -
          (head (run (firstn i ss) k) a + (if moved p then t a else 0))) <= / 1000 + 2 * loss.
Proof.
  intros t Ht0 ss ls H. induction H as [|s l ss ls Hr _ IH]; intros ps st k k' Hi Hq Hm i a.
  - exists (ps a). destruct i; cbn [firstn t_run]; (split; [reflexivity|]); cbn; apply (ft_inv_head _ _ _ _ _ _ Hi).
  - destruct i as [|i].
    + exists (ps a). cbn [firstn t_run]. split; [reflexivity|]. apply (ft_inv_head _ _ _ _ _ _ Hi).
    + assert (Hqs : exists qs, forall b, t_step b (ps b) s = Some (qs b)).
      { assert (Hb : forall b, exists q, t_step b (ps b) s = Some q).
        { intros b. specialize (Hq b). cbn [t_run] in Hq. destruct (t_step b (ps b) s) as [q|]; [eauto|congruence]. }
        destruct (Hb X) as [qx Hx], (Hb Y) as [qy Hy], (Hb Z) as [qz Hz].
        exists (fun b => match b with X => qx | Y => qy | Z => qz end). intros []; assumption. }
      destruct Hqs as [qs Hqs].
      assert (Hm1 : tr_absolute st = Some true \/
        (tr_absolute st = None /\ match op_of s with Move _ _ _ => False | _ => True end)).
      { destruct Hm as [Hm|[Hm Hd]]; [now left|right]. split; [exact Hm|]. cbn [declared] in Hd.
        destruct (op_of s); try exact I. discriminate Hd. }
      pose proof (ftr_step_sim t s l ps qs st k k' Hr Ht0 Hi Hqs Hm1) as Hi'. cbv zeta in Hi'.
      assert (Hq' : forall b, t_run b (qs b) ss <> None).
      { intros b. specialize (Hq b). cbn [t_run] in Hq. rewrite Hqs in Hq. exact Hq. }
      assert (Hm' : tr_absolute (tr_next st l) = Some true \/ (tr_absolute (tr_next st l) = None /\ declared ss = true)).
      { pose proof Hi as (I0 & _). destruct (op_of s) as [w e f|w|w e| | | | | | |n|] eqn:Eop.
        - destruct Hm1 as [Hm1|[_ Hm1]]; [|destruct Hm1].
          destruct (ftr_move s l st w e f Hr Eop (I0 X) (I0 Y) Hm1) as (-> & _). now left.
        - destruct (ftr_other s l st Hr) as (_ & _ & Ha); [rewrite Eop; exact I|]. rewrite Ha, Eop.
          cbn [declared] in Hm. rewrite Eop in Hm. exact Hm.
        - destruct (ftr_set s l st w e Hr Eop (I0 X) (I0 Y)) as (-> & _). cbn [declared] in Hm. rewrite Eop in Hm. exact Hm.
        - specialize (Hqs X). unfold t_step in Hqs. rewrite Eop in Hqs. discriminate Hqs.
        - destruct (ftr_other s l st Hr) as (_ & _ & Ha); [rewrite Eop; exact I|]. rewrite Ha, Eop.
          cbn [declared] in Hm. rewrite Eop in Hm. exact Hm.
        - destruct (ftr_other s l st Hr) as (_ & _ & Ha); [rewrite Eop; exact I|]. rewrite Ha, Eop. now left.
        - specialize (Hqs X). unfold t_step in Hqs. rewrite Eop in Hqs. discriminate Hqs.
        - destruct (ftr_other s l st Hr) as (_ & _ & Ha); [rewrite Eop; exact I|]. rewrite Ha, Eop.
          cbn [declared] in Hm. rewrite Eop in Hm. exact Hm.
        - destruct (ftr_other s l st Hr) as (_ & _ & Ha); [rewrite Eop; exact I|]. rewrite Ha, Eop.
          cbn [declared] in Hm. rewrite Eop in Hm. exact Hm.
        - destruct (ftr_other s l st Hr) as (_ & _ & Ha); [rewrite Eop; exact I|]. rewrite Ha, Eop.
          cbn [declared] in Hm. rewrite Eop in Hm. exact Hm.
        - destruct (ftr_other s l st Hr) as (_ & _ & Ha); [rewrite Eop; exact I|]. rewrite Ha, Eop.
          cbn [declared] in Hm. rewrite Eop in Hm. exact Hm. }
      destruct (IH qs _ _ _ Hi' Hq' Hm' i a) as (p & Hp & Hb). exists p.
      cbn [firstn t_run answers map]. rewrite Hqs. split; [exact Hp|].
      unfold run in *. cbn [fold_left]. exact Hb.
Qed.

Lemma shift_of_modest : forall o, modest_shift o -> modest_shift (Some (shift_of o)) /\ fval (shift_of o) = famount o.
Proof.
  intros [x|] H; cbn [shift_of].
  - destruct (n_eqb x n0) eqn:Ex; [|auto]. assert (F0 : fin (n0 (A:=B64))) by (split; reflexivity).
    destruct H as [F N]. apply (feqb_val x n0 F F0) in Ex. split; [|symmetry; exact Ex].
    split; [exact F0|]. change (fval n0) with 0. rewrite Rabs_R0. apply pow_le. lra.
  - split; [|reflexivity]. split; [split; reflexivity|]. change (fval n0) with 0. rewrite Rabs_R0. apply pow_le. lra.
Qed.

Lemma translate_moves_B64 : forall home data x y (g g' : gcode B64), load_gen false home data = Ok g ->
  translate x y g = Ok g' -> declared (program_text data) = true ->
  (forall a, t_run a Homed (program_text data) <> None) ->
  Forall modest (program_text data) -> modest_shift x -> modest_shift y ->
  forall i a, exists p, t_run a Homed (firstn i (program_text data)) = Some p /\
    Rabs (head (run (firstn i (write g')) (start (fun _ => 0))) a -
          (head (run (firstn i (program_text data)) (start (fun _ => 0))) a +
           (if moved p then fshift_amount x y a else 0))) <= / 1000 + / 10 ^ 9.
Proof.
  intros home data x y g g' H H' Hd Hq Hm Mx My i a. destruct (translate_pure x y g g' H') as (Ha & _).
  unfold write. change (List.concat (map ly_lines (g_layers g'))) with (all_lines g'). rewrite Ha.
  replace (/ 1000 + / 10 ^ 9) with (/ 1000 + 2 * loss) by (unfold loss; cbn [pow]; lra).
  destruct (shift_of_modest x Mx) as [Mx1 Mx2]. destruct (shift_of_modest y My) as [My1 My2].
  apply (ftr_run_sim (fshift_amount x y) eq_refl _ _ (load_freads _ _ _ H (t_run_inches _ _ (Hq X)) Hm) (fun _ => Homed)).
  - rewrite tr_init_of. split; [intros []; [exact Mx1|exact My1|exact I]|].
    repeat (split; [first [reflexivity|intros b; reflexivity]|]).
    intros b. cbn [start head origin]. split; [|auto].
    destruct b; cbn [fstill tr_x tr_y famount fshift_amount]; [exact Mx2|exact My2|reflexivity].
  - exact Hq.
  - right. rewrite tr_init_of. auto.
Qed.

(** *** the extruder during a translation *)

Lemma ftr_run_feed : forall ss (ls : list (line B64)), Forall2 freads ss ls -> Forall e_plain ss -> forall st k k',
  (forall a, modest_shift (fstill st a)) ->
  (tr_absolute st = Some true \/ tr_absolute st = None) ->
  inches k = false -> inches k' = false -> relative_e k = false -> relative_e k' = false ->
  extruder_origin k' = extruder_origin k -> Rabs (extruder k' - extruder k) <= / 200000 + loss ->
  forall i, Rabs (extruder (run (firstn i (map raw (answers tr_opcode st ls))) k') -
                  extruder (run (firstn i ss) k)) <= / 200000 + loss.
Proof.
  intros ss ls H. induction H as [|s l ss ls Hr _ IH]; intros Hp st k k' M0 Hm I1 I2 I3 I4 I5 I6 i.
  - destruct i; exact I6.
  - destruct i as [|i]; [exact I6|]. cbn [firstn answers map]. unfold run in *. cbn [fold_left].
    inversion Hp as [|? ? Hs Hps]; subst. unfold e_plain in Hs. pose proof loss_pos as Lp.
    fold (tr_next st l).
    assert (M1 : forall a, modest_shift (fstill (tr_next st l) a)).
    { destruct (tr_next_fields st l) as (_ & F2 & F3). intros []; cbn [fstill].
      - rewrite F2. destruct (rebases LX l); [exact I|apply (M0 X)].
      - rewrite F3. destruct (rebases LY l); [exact I|apply (M0 Y)].
      - exact I. }
    assert (Hsame : (raw (answer tr_opcode st l) = s /\
        (tr_absolute (tr_next st l) = Some true \/ tr_absolute (tr_next st l) = None)) \/
      (tr_absolute (tr_next st l) = Some true /\ exists w e f w' e' f', op_of s = Move w e f /\
         op_of (raw (answer tr_opcode st l)) = Move w' e' f' /\ near (/ 200000 + loss) e' e)).
    { destruct (op_of s) as [w e f|w|w e| | | | | | |n|] eqn:Eop; try contradiction.
      - destruct Hm as [Hm|Hm].
        + right. destruct (ftr_move s l st w e f Hr Eop (M0 X) (M0 Y) Hm) as (Hst & w' & e' & f' & Ho' & _ & He').
          rewrite Hst. split; [exact Hm|]. exists w, e, f, w', e', f'. auto.
        + left. pose proof (freads_op s l Hr) as Hk. rewrite Eop in Hk. destruct Hk as (Hmo & _).
          unfold answer, tr_next, tr_opcode. rewrite cmd_in_motion, Hmo, Hm. cbn [fst snd].
          destruct Hr as (Hraw & _). auto.
      - left. destruct (ftr_other s l st Hr) as (R1 & _ & Ha); [rewrite Eop; exact I|]. rewrite Ha, Eop. auto.
      - left. destruct (ftr_other s l st Hr) as (R1 & _ & Ha); [rewrite Eop; exact I|]. rewrite Ha, Eop. auto.
      - left. destruct (ftr_other s l st Hr) as (R1 & _ & Ha); [rewrite Eop; exact I|]. rewrite Ha, Eop. auto.
      - left. destruct (ftr_other s l st Hr) as (R1 & _ & Ha); [rewrite Eop; exact I|]. rewrite Ha, Eop. auto.
      - left. destruct (ftr_other s l st Hr) as (R1 & _ & Ha); [rewrite Eop; exact I|]. rewrite Ha, Eop. auto.
      - left. destruct (ftr_other s l st Hr) as (R1 & _ & Ha); [rewrite Eop; exact I|]. rewrite Ha, Eop. auto. }
    destruct Hsame as [[Hraw Hm']|(Hm' & w & e & f & w' & e' & f' & Eop & Ho' & He')].
    + rewrite Hraw.
      assert (Hex : inches (exec_line s k) = false /\ inches (exec_line s k') = false /\
        relative_e (exec_line s k) = false /\ relative_e (exec_line s k') = false /\
        extruder_origin (exec_line s k') = extruder_origin (exec_line s k) /\
        Rabs (extruder (exec_line s k') - extruder (exec_line s k)) <= / 200000 + loss).
      { unfold exec_line. destruct (op_of s) as [w e f|w|w e| | | | | | |n|] eqn:Eop; try contradiction;
          cbn [exec inches relative_e extruder_origin extruder]; repeat (split; [first [assumption|reflexivity]|]);
          try exact I6.
        unfold mm. rewrite I1, I2, I3, I4, I5. destruct e as [v|]; [|exact I6].
        match goal with |- Rabs ?x <= _ => replace x with 0 by lra end. rewrite Rabs_R0. lra. }
      destruct Hex as (X1 & X2 & X3 & X4 & X5 & X6). apply IH; assumption.
    + apply IH; try assumption; unfold exec_line; rewrite ?Eop, ?Ho';
        cbn [exec inches relative_e extruder_origin extruder]; try assumption; [now left|].
      unfold mm. rewrite I1, I2, I3, I4, I5. unfold near in He'.
      destruct e as [v|], e' as [v'|]; try contradiction; [|exact I6].
      replace (extruder_origin k + v' - (extruder_origin k + v)) with (v' - v) by lra. exact He'.
Qed.

Lemma translate_feeds_B64 : forall home data x y (g g' : gcode B64) h, load_gen false home data = Ok g ->
  translate x y g = Ok g' -> Forall e_plain (program_text data) ->
  Forall modest (program_text data) -> modest_shift x -> modest_shift y ->
  forall i, Rabs (extruder (run (firstn i (write g')) (start h)) -
                  extruder (run (firstn i (program_text data)) (start h))) <= / 200000 + / 10 ^ 9.
Proof.
  intros home data x y g g' h H H' Hp Hm Mx My i. destruct (translate_pure x y g g' H') as (Ha & _).
  unfold write. change (List.concat (map ly_lines (g_layers g'))) with (all_lines g'). rewrite Ha.
  assert (Hin : Forall (fun s => op_of s <> Inches) (program_text data)).
  { eapply Forall_impl; [|exact Hp]. intros s Hs Ho. unfold e_plain in Hs. rewrite Ho in Hs. exact Hs. }
  apply Rle_trans with (/ 200000 + loss); [|unfold loss; cbn [pow]; lra].
  apply (ftr_run_feed _ _ (load_freads _ _ _ H Hin Hm) Hp); try reflexivity.
  - rewrite tr_init_of. intros []; [apply (shift_of_modest x Mx)|apply (shift_of_modest y My)|exact I].
  - right. rewrite tr_init_of. reflexivity.
  - cbn. replace (0 - 0) with 0 by lra. rewrite Rabs_R0. pose proof loss_pos. lra.
Qed.

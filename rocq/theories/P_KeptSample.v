(** * P_KeptSample: programs for Props_Kept *)
From Coq Require Import List Ascii String ZArith NArith QArith Bool Lia Reals Qreals Lra FunctionalExtensionality.
From Verif Require Import PyBase Arith ArithQ ArithR ArithB64 Gcoder Filters SpecText SpecLoad SpecMachine SpecMeasure SpecFilter SpecMod SpecBinary64 SpecBox SpecLayersKept Samples.
From Verif Require Import P_Load P_Wf P_Filter P_MachineRefuted P_FilterRefuted P_FilterMotion P_Machine P_FloatTempcal P_ComposeSample P_BoxSample P_Reload.
Import ListNotations.
Local Open Scope list_scope.
Local Open Scope R_scope.

(** ** Words with few decimals *)

Definition short_text (d : nat) (v : string) : bool :=
  match py_float (A:=QA) v with
  | Some q => (Qnum q * 10 ^ Z.of_nat d mod Zpos (Qden q) =? 0)%Z
  | None => true
  end.
Definition shortb (d : nat) (c s : string) : bool := forallb (fun w => negb (String.eqb (fst w) c) || short_text d (snd w)) (words s).

Lemma shortb_ok : forall d c s, shortb d c s = true -> short_word d c s.
Proof.
  intros d c s H v Hv. unfold shortb in H. rewrite forallb_forall in H. revert Hv.
  induction (words s) as [|[e w] ws IH]; cbn [number_of]; [discriminate|].
  destruct (number_of c ws) as [x|] eqn:En.
  - intros Hv. apply IH; [|exact Hv]. intros t Ht. apply H. right. exact Ht.
  - destruct (String.eqb e c) eqn:Ee; [|discriminate]. destruct (negb (is_empty w)); [|discriminate]. intros Hv. cbn [andb] in Hv.
    specialize (H (e, w) (or_introl eq_refl)). cbn [fst snd] in H. rewrite Ee in H. cbn [negb orb] in H. unfold short_text in H.
    pose proof (py_float_val exactQ w) as Hw. destruct (py_float (A:=QA) w) as [q|]; cbn [option_map] in Hw; [|congruence].
    rewrite Hv in Hw. injection Hw as Hw. rewrite <- Hw. cbn [val exactQ]. apply Z.eqb_eq in H.
    assert (Hq : (0 < Zpos (Qden q))%Z) by reflexivity.
    exists (Qnum q * 10 ^ Z.of_nat d / Zpos (Qden q))%Z.
    pose proof (Z.div_mod (Qnum q * 10 ^ Z.of_nat d) (Zpos (Qden q)) ltac:(lia)) as Hd. rewrite H, Z.add_0_r in Hd.
    apply (f_equal IZR) in Hd. rewrite !mult_IZR in Hd. replace (IZR (10 ^ Z.of_nat d)) with (10 ^ d) in Hd by apply pow_IZR.
    assert (Hp : 0 < 10 ^ d) by (apply pow_lt; lra). assert (Hr : 0 < IZR (Zpos (Qden q))) by (apply (IZR_lt 0); reflexivity).
    unfold Q2R. apply Rmult_eq_reg_r with (IZR (Zpos (Qden q)) * 10 ^ d); [|apply Rgt_not_eq, Rmult_lt_0_compat; assumption].
    field_simplify; [|lra|lra]. lra.
Qed.

Lemma short_all : forall d c ss, forallb (shortb d c) ss = true -> Forall (short_word d c) ss.
Proof. intros d c ss H. apply Forall_forall. intros s Hs. apply shortb_ok. rewrite forallb_forall in H. apply H, Hs. Qed.

(** ** The corner over the reals *)

Lemma corner_shape : metric (program_text corner) /\ e_ready (program_text corner) = true /\
  Forall (fun s => feed_ok s = true) (program_text corner) /\
  Forall (short_word 3 "z") (program_text corner) /\ Forall (short_word 5 "e") (program_text corner) /\
  Forall no_rebase_e (program_text corner) /\ sharp (program_text corner) (start (home_of exactR home0)).
Proof.
  split; [repeat (constructor; [discriminate|]); constructor|]. split; [vm_compute; reflexivity|].
  split; [repeat (constructor; [vm_compute; reflexivity|]); constructor|].
  split; [apply short_all; vm_compute; reflexivity|]. split; [apply short_all; vm_compute; reflexivity|].
  split; [repeat (constructor; [exact I|]); constructor|].
  replace (home_of exactR home0) with (fun _ : axis => 0); [exact corner_sharp|].
  apply FunctionalExtensionality.functional_extensionality. intros []; symmetry; apply (val_n0 exactR).
Qed.

Lemma corner_real : exists g g1 h g2 k : gcode RA, load_gen (A:=RA) false home0 corner = Ok g /\
  translate (A:=RA) (Some 7) (Some 9) g = Ok g1 /\ load_gen false home0 (write g1) = Ok h /\
  to_relative_extrusion g = Ok g2 /\ load_gen false home0 (write g2) = Ok k.
Proof.
  destruct corner_shape as (_ & _ & Hf & _).
  destruct (load_well_formed exactR false home0 corner) as [g Hg].
  { repeat constructor; vm_compute; reflexivity. }
  destruct (translate_total (A:=RA) (Some 7) (Some 9) g) as [g1 H1]. destruct (relative_total g) as [g2 H2].
  destruct (translate_reload exactR false home0 home0 corner _ _ g g1 Hg Hf H1) as [h Hh].
  destruct (relative_reload exactR false home0 home0 corner g g2 Hg Hf H2) as [k Hk].
  exists g, g1, h, g2, k. auto.
Qed.

(** ** The cube in doubles *)

Lemma cube_shape : metric (program_text cube) /\ Forall modest (program_text cube) /\
  Forall (fun s => feed_ok s = true) (program_text cube) /\
  Forall (short_word 3 "z") (program_text cube) /\ Forall (short_word 5 "e") (program_text cube).
Proof.
  split; [repeat (constructor; [discriminate|]); constructor|]. split; [apply modest_all; vm_compute; reflexivity|].
  split; [apply Forall_forall, forallb_forall; vm_compute; reflexivity|].
  split; apply short_all; vm_compute; reflexivity.
Qed.

(** ** Refutations *)

(** the height is written in full on one line and with three decimals on the next *)
Definition fine : list string := ["G90"; "M82"; "G1 Z0.2004 F300"; "G1 X10 Y10 Z0.2004 E1"]%string.

Lemma fine_refuted : exists g g1 h g2 k : gcode B64, load_gen false home0 fine = Ok g /\
  translate (some_num 5) None g = Ok g1 /\ load_gen false home0 (write g1) = Ok h /\
  to_relative_extrusion g = Ok g2 /\ load_gen false home0 (write g2) = Ok k /\
  (List.length (g_layers g) < List.length (g_layers h))%nat /\ (List.length (g_layers g) < List.length (g_layers k))%nat.
Proof.
  exists (loadF fine), (movedby (some_num 5) None (loadF fine)), (again (movedby (some_num 5) None (loadF fine))),
    (fed (loadF fine)), (again (fed (loadF fine))).
  split; [apply loadF_ok; vm_compute; reflexivity|].
  split; [apply is_ok_get; vm_compute; reflexivity|].
  split; [apply is_ok_get; vm_compute; reflexivity|].
  split; [apply is_ok_get; vm_compute; reflexivity|].
  split; [apply is_ok_get; vm_compute; reflexivity|].
  split; apply Nat.ltb_lt; vm_compute; reflexivity.
Qed.

(** a negative feed rate that rounding makes the opposite of the next one *)
Definition backward : list string := ["G90"; "M82"; "G1 X10 E1 F-60.0004"; "G1 X20 E2 F60"]%string.

Definition divides_zero {A : Type} (r : res A) : bool := match r with Err ZeroDivisionError => true | _ => false end.
Lemma divides_zero_ok : forall (A : Type) (r : res A), divides_zero r = true -> r = Err ZeroDivisionError.
Proof. intros A [x|[]] H; try discriminate H. reflexivity. Qed.

Lemma backward_refuted : exists g g1 g2 : gcode B64, load_gen false home0 backward = Ok g /\
  translate (some_num 5) None g = Ok g1 /\ load_gen (A:=B64) false home0 (write g1) = Err ZeroDivisionError /\
  to_relative_extrusion g = Ok g2 /\ load_gen (A:=B64) false home0 (write g2) = Err ZeroDivisionError.
Proof.
  exists (loadF backward), (movedby (some_num 5) None (loadF backward)), (fed (loadF backward)).
  split; [apply loadF_ok; vm_compute; reflexivity|].
  split; [apply is_ok_get; vm_compute; reflexivity|].
  split; [apply divides_zero_ok; vm_compute; reflexivity|].
  split; [apply is_ok_get; vm_compute; reflexivity|].
  apply divides_zero_ok; vm_compute; reflexivity.
Qed.

Lemma cubeF_moved : exists g1 h : gcode B64, translate (some_num 10) (some_num 20) cubeF = Ok g1 /\ load_gen false home0 (write g1) = Ok h.
Proof.
  exists (movedby (some_num 10) (some_num 20) cubeF), (again (movedby (some_num 10) (some_num 20) cubeF)).
  exact (conj (proj1 cubeF_session) (proj1 (proj2 cubeF_session))).
Qed.

Lemma kept_feeds : Forall (fun s => feed_ok s = true) (program_text corner) /\ Forall (fun s => feed_ok s = true) (program_text cube) /\
  modest_shift (some_num 10) /\ modest_shift (some_num 20).
Proof.
  split; [apply corner_shape|]. split; [apply cube_shape|]. split; apply modest_shift_num; vm_compute; reflexivity.
Qed.

Lemma cubeF_fed : exists g1 h : gcode B64, to_relative_extrusion cubeF = Ok g1 /\ load_gen false home0 (write g1) = Ok h.
Proof.
  destruct (relative_total cubeF) as [g1 H1]. destruct cube_shape as (Hm & Hmo & Hf & _).
  destruct (relative_reload_B64 false home0 home0 cube cubeF g1 cubeF_loaded Hf Hm Hmo H1) as [h Hh]. exists g1, h. exact (conj H1 Hh).
Qed.

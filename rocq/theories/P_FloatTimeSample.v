(** * P_FloatTimeSample: programs for Props_FloatTime *)
From Coq Require Import List Ascii String ZArith NArith QArith Bool Lia Reals Lra Floats.SpecFloat.
From Verif Require Import PyBase Arith ArithQ ArithR ArithB64 Gcoder SpecText SpecLoad SpecMachine SpecMeasure SpecBinary64 SpecFloatTime Samples.
From Verif Require Import P_Load P_Machine P_FloatTempcal.
Import ListNotations.
Local Open Scope list_scope.
Local Open Scope R_scope.

Definition number_in (lo hi : num QA) (zero : bool) (v : string) : bool :=
  match py_float (A:=QA) v with
  | Some q => (n_leb lo q && n_leb q hi) || (zero && n_eqb q n0)
  | None => true
  end.

Lemma number_in_ok : forall lo hi zero v r, number_in lo hi zero v = true -> py_float (A:=RA) v = Some r ->
  val exactQ lo <= r <= val exactQ hi \/ r = 0.
Proof.
  intros lo hi zero v r H Hr. unfold number_in in H. pose proof (py_float_val exactQ v) as Hw.
  destruct (py_float (A:=QA) v) as [q|]; cbn [option_map] in Hw; [|congruence].
  rewrite Hr in Hw. injection Hw as Hw. subst r. apply orb_prop in H as [H|H].
  - left. apply andb_prop in H as [H1 H2]. apply (val_leb QA exactQ) in H1, H2. split; assumption.
  - right. apply andb_prop in H as [_ H]. apply (val_eqb QA exactQ) in H. transitivity (val exactQ n0); [exact H|apply (P_Wf.val_n0 exactQ)].
Qed.

Definition million : num QA := lit 1000000 0.
Definition millionth : num QA := lit 1 6.
Lemma million_val : val exactQ million = 10 ^ 6.
Proof. unfold million. rewrite P_Wf.val_lit. cbn. lra. Qed.
Lemma millionth_val : val exactQ millionth = / 10 ^ 6.
Proof. unfold millionth. rewrite P_Wf.val_lit. cbn. lra. Qed.

Definition timingb (s : string) : bool :=
  modestb s && negb (match command_name s with Some c => String.eqb c "G20" | None => false end) &&
  forallb (fun w => negb (String.eqb (fst w) "f") || number_in millionth million true (snd w)) (words s) &&
  match find_code "P" s with Some p => number_in n0 million false p | None => true end.

Lemma timingb_ok : forall s, timingb s = true -> op_of s <> Inches -> modest_timing s.
Proof.
  intros s H Hi. unfold timingb in H. apply andb_prop in H as [H H4]. apply andb_prop in H as [H H3].
  apply andb_prop in H as [H1 _]. split; [apply modestb_ok, H1|]. split; [exact Hi|]. split.
  - intros v Hv. rewrite forallb_forall in H3. revert Hv.
    induction (words s) as [|[c w] ws IH]; cbn [number_of]; [discriminate|].
    destruct (number_of "f" ws) as [x|] eqn:En.
    + intros Hv. apply IH; [|exact Hv]. intros t Ht. apply H3. right. exact Ht.
    + destruct (String.eqb c "f" && negb (is_empty w)) eqn:Ec; [|discriminate]. intros Hv.
      apply andb_prop in Ec as [Ec _]. specialize (H3 (c, w) (or_introl eq_refl)). cbn [fst snd] in H3. rewrite Ec in H3.
      cbn [negb orb] in H3. destruct (number_in_ok _ _ _ _ _ H3 Hv) as [K|K]; [right|left; exact K].
      rewrite millionth_val in K. apply K.
  - unfold modest_dwell. destruct (find_code "P" s) as [p|]; [|exact I]. intros v Hv.
    destruct (number_in_ok _ _ _ _ _ H4 Hv) as [K| ->].
    + rewrite (P_Wf.val_n0 exactQ), million_val in K. exact K.
    + split; [lra|]. apply pow_le. lra.
Qed.

(** a print with a pause, a Z hop and a retraction *)
Definition paused : list string :=
  ["; sample"; "G28"; "G90"; "M82"; "G92 E0"; "G1 Z0.3 F1200"; "G1 X10 Y10 E1 F1800"; "G4 P250"; "G1 X20 Y10 E2.5";
   "G1 E1.5 F2400"; "G1 Z0.6"; "G1 E2.5"; "G1 X20 Y20 E4 F900.5"; "M104 S200"; "G1 X10 Y20 E5"; "G4 P0"; "G1 X0 F0"]%string.
Definition pausedF : gcode B64 := get empty_program (load_gen (A:=B64) false home0 paused).
Lemma pausedF_loaded : load_gen (A:=B64) false home0 paused = Ok pausedF.
Proof. apply is_ok_get. vm_compute. reflexivity. Qed.

Lemma paused_timing : Forall modest_timing (program_text paused).
Proof.
  replace (program_text paused) with paused by (vm_compute; reflexivity).
  repeat (constructor; [apply timingb_ok; [vm_compute; reflexivity|vm_compute; discriminate]|]). constructor.
Qed.

Lemma pausedF_takes_time : SFltb (n0 (A:=B64)) (g_total pausedF) = true /\ List.length (g_layers pausedF) = 4%nat.
Proof. split; vm_compute; reflexivity. Qed.

(** a feed rate so small that the time is beyond the doubles *)
Definition crawl : list string :=
  ["G1 Z0.3 F1200"; ("G1 X10 E1 F0." ++ string_of_list_ascii (repeat "0"%char 310) ++ "1")%string;
   "G1 Z0.6 F1200"; "G1 X20 E2"]%string.
Definition crawlF : gcode B64 := get empty_program (load_gen (A:=B64) false home0 crawl).

Definition nanb (x : num B64) : bool := match x with S754_nan => true | _ => false end.

Lemma crawl_refuted : exists data (g : gcode B64),
  Forall (fun s => feed_ok s = true /\ dwell_nonneg s) (program_text data) /\
  load_gen false home0 data = Ok g /\ exists y, In y (g_layers g) /\ ly_dur y = S754_nan.
Proof.
  exists crawl, crawlF. split; [|split].
  - repeat (constructor; [split; [vm_compute; reflexivity|vm_compute; first [exact I|reflexivity]]|]). constructor.
  - apply is_ok_get. vm_compute. reflexivity.
  - assert (H : existsb (fun y => nanb (ly_dur y)) (g_layers crawlF) = true) by (vm_compute; reflexivity).
    apply existsb_exists in H as (y & H1 & H2). exists y. split; [exact H1|]. unfold nanb in H2.
    destruct (ly_dur y); try discriminate H2. reflexivity.
Qed.

(** * P_Summary: lemmas about the report *)
From Coq Require Import List Ascii String ZArith NArith Bool Lia Reals Lra.
From Verif Require Import PyBase Arith ArithR ArithB64 Gcoder Summary SpecBinary64 SpecSummary P_Format P_Machine P_Float P_FloatText.
Import ListNotations.

Lemma counts_N : forall n, counts (N_to_string n) n.
Proof.
  intros n. split; [|split].
  - intros E. pose proof (N_to_string_nonempty n) as H. rewrite E in H. discriminate H.
  - apply N_to_string_digits.
  - unfold digits_val. rewrite N_to_string_val. lia.
Qed.

Lemma counts_2 : forall n, (n < 60)%N -> counts (digits_fixed 2 n) n.
Proof.
  intros n H. split; [|split].
  - intros E. pose proof (digits_fixed_length 2 n) as L. rewrite E in L. discriminate L.
  - apply digits_fixed_all.
  - unfold digits_val. rewrite digits_val_fixed. change (pow10 2) with 100%N. rewrite N.mod_small by lia. lia.
Qed.

Lemma duration_spells : forall n, spells (duration_text (Z.of_N n)) n.
Proof.
  intros n. unfold duration_text.
  replace (Z.of_N n / 86400)%Z with (Z.of_N (n / 86400)) by (rewrite N2Z.inj_div; reflexivity).
  replace (Z.to_N (Z.of_N n mod 86400)) with (n mod 86400)%N.
  2:{ rewrite <- (N2Z.id (n mod 86400)), N2Z.inj_mod. reflexivity. }
  set (r := (n mod 86400)%N). assert (Hr : (r < 86400)%N) by (apply N.mod_lt; lia).
  exists (n / 86400)%N, (r / 3600)%N, (r / 60 mod 60)%N, (r mod 60)%N,
    (N_to_string (n / 86400)), (N_to_string (r / 3600)), (digits_fixed 2 (r / 60 mod 60)), (digits_fixed 2 (r mod 60)).
  assert (H1 : (r / 60 mod 60 < 60)%N) by (apply N.mod_lt; lia).
  assert (H2 : (r mod 60 < 60)%N) by (apply N.mod_lt; lia).
  split; [apply counts_N|]. split; [apply counts_N|]. split; [apply counts_2, H1|]. split; [apply counts_2, H2|].
  split; [apply digits_fixed_length|]. split; [apply digits_fixed_length|].
  split; [apply N.div_lt_upper_bound; lia|]. split; [exact H1|]. split; [exact H2|]. split.
  - pose proof (N.div_mod n 86400 ltac:(lia)) as E0. fold r in E0.
    pose proof (N.div_mod r 60 ltac:(lia)) as E1. pose proof (N.div_mod (r / 60) 60 ltac:(lia)) as E2.
    rewrite N.div_div in E2 by lia. change (60 * 60)%N with 3600%N in E2. lia.
  - match goal with |- (?a ++ ?r)%string = (?b ++ ?r)%string => assert (Hab : a = b); [|rewrite Hab; reflexivity] end.
    generalize (n / 86400)%N as q. intros q. destruct (N.eq_dec q 0) as [E0|E0].
    + rewrite E0. reflexivity.
    + replace (Z.eqb (Z.of_N q) 0) with false by (symmetry; apply Z.eqb_neq; lia).
      replace (N.eqb q 0) with false by (symmetry; apply N.eqb_neq; lia).
      replace (Z.ltb (Z.of_N q) 0) with false by (symmetry; apply Z.ltb_ge; lia).
      replace (Z.abs_N (Z.of_N q)) with q%N by lia.
      replace (Z.abs (Z.of_N q)) with (Z.of_N q) by lia.
      replace (Z.eqb (Z.of_N q) 1) with (N.eqb q 1).
      2:{ destruct (N.eqb_spec q 1) as [E1|E1]; symmetry; [rewrite E1; reflexivity|apply Z.eqb_neq; lia]. }
      destruct (N.eqb q 1); reflexivity.
Qed.

Section Report.
Context {A : arith}.
Variable v : num A -> R.
Variable good : num A -> Prop.
Hypothesis Hs : forall x, good x -> shows 2 (fmt 2 x) (v x).

Lemma summary_reports : forall (g : gcode A) n, g_duration g = Z.of_N n ->
  Forall good [g_xmin g; g_xmax g; g_width g; g_ymin g; g_ymax g; g_depth g; g_zmin g; g_zmax g; g_height g; g_filament g] ->
  reports (summary g)
    (Measures (v (g_xmin g)) (v (g_xmax g)) (v (g_width g)) (v (g_ymin g)) (v (g_ymax g)) (v (g_depth g))
       (v (g_zmin g)) (v (g_zmax g)) (v (g_height g)) (v (g_filament g)) (N.of_nat (List.length (g_zs g))) n).
Proof.
  intros g n Hn Hg. repeat (apply Forall_cons_iff in Hg as [? Hg]).
  eexists _, _, _, _, _, _. split; [reflexivity|]. cbn [r_xmin r_xmax r_width r_ymin r_ymax r_depth r_zmin r_zmax r_height r_filament r_layers r_seconds].
  split; [eexists _, _, _; repeat (split; [apply Hs; assumption|]); reflexivity|].
  split; [eexists _, _, _; repeat (split; [apply Hs; assumption|]); reflexivity|].
  split; [eexists _, _, _; repeat (split; [apply Hs; assumption|]); reflexivity|].
  split; [apply Hs; assumption|]. split; [apply counts_N|]. rewrite Hn. apply duration_spells.
Qed.
End Report.

Lemma summary_exact : forall (A : arith) (E : exact A) (g : gcode A) n, g_duration g = Z.of_N n ->
  let v := val E in
  reports (summary g)
    (Measures (v (g_xmin g)) (v (g_xmax g)) (v (g_xmax g) - v (g_xmin g))
       (v (g_ymin g)) (v (g_ymax g)) (v (g_ymax g) - v (g_ymin g))
       (v (g_zmin g)) (v (g_zmax g)) (v (g_zmax g) - v (g_zmin g))
       (v (g_filament g)) (N.of_nat (List.length (g_zs g))) n).
Proof.
  intros A E g n Hn v.
  replace (v (g_xmax g) - v (g_xmin g))%R with (v (g_width g)) by (unfold g_width, v; apply (val_sub A E)).
  replace (v (g_ymax g) - v (g_ymin g))%R with (v (g_depth g)) by (unfold g_depth, v; apply (val_sub A E)).
  replace (v (g_zmax g) - v (g_zmin g))%R with (v (g_height g)) by (unfold g_height, v; apply (val_sub A E)).
  apply (summary_reports v (fun _ => True)); [|exact Hn|].
  - intros x _. pose proof (py_round_err E 2 x) as He. unfold py_round in He.
    destruct (val_dec A E 2 x) as (neg & m & H & _). rewrite H in He.
    exists (val E (n_of_dec neg m 2)). split; [|exact He].
    rewrite <- (py_float_val E), (fmt_float 1 x neg m H). reflexivity.
  - repeat constructor.
Qed.

Lemma summary_B64 : forall (g : gcode B64) n, g_duration g = Z.of_N n ->
  Forall fin [g_xmin g; g_xmax g; g_width g; g_ymin g; g_ymax g; g_depth g; g_zmin g; g_zmax g; g_height g; g_filament g] ->
  reports (summary g)
    (Measures (fval (g_xmin g)) (fval (g_xmax g)) (fval (g_width g)) (fval (g_ymin g)) (fval (g_ymax g)) (fval (g_depth g))
       (fval (g_zmin g)) (fval (g_zmax g)) (fval (g_height g)) (fval (g_filament g)) (N.of_nat (List.length (g_zs g))) n).
Proof.
  intros g n Hn Hg. apply (summary_reports fval fin); [|exact Hn|exact Hg].
  intros x Hx. pose proof (shown_near 2 x Hx) as He. unfold shown in He.
  destruct (f_dec_val 2 x Hx) as (neg & m & H & _). change (n_dec 2 x) with (f_dec 2 x) in He. rewrite H in He.
  exists (dval neg m 2). split; [|exact He].
  rewrite (fmt_float_as B64 RA 1 x neg m H). reflexivity.
Qed.

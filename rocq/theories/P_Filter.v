(** * P_Filter: filter passes, line by line (C27, C29, C31, C32, C34) *)
From Coq Require Import List Ascii String ZArith NArith Bool Lia Reals.
From Verif Require Import PyBase Arith Gcoder Filters SpecText SpecLoad SpecMachine SpecFilter.
From Verif Require Import P_Load P_Text.
Import ListNotations.
Local Open Scope list_scope.

Section Generic.
Context {A : arith}.

Lemma chop_concat : forall T (bs : list (list T)), chop (map (@List.length T) bs) (List.concat bs) = bs.
Proof.
  intros T bs. induction bs as [|b bs IH]; cbn [map chop List.concat]; [reflexivity|].
  rewrite firstn_app, Nat.sub_diag, firstn_all. cbn [firstn]. rewrite app_nil_r.
  rewrite skipn_app, Nat.sub_diag, skipn_all. cbn [skipn app]. now rewrite IH.
Qed.

Section Loop.
Context {St : Type}.
Variable f : St -> line A -> res (St * fresult (A:=A)).

Lemma rewrites_app : forall a s outs s1, rewrites f s a outs s1 ->
  forall b outs2 s2, rewrites f s1 b outs2 s2 -> rewrites f s (a ++ b) (outs ++ outs2) s2.
Proof.
  intros a s outs s1 H. induction H as [s|s l s1 r ls outs s2 Hf Hr IH]; intros b outs2 s3 H2; cbn.
  - exact H2.
  - econstructor; [exact Hf|apply IH, H2].
Qed.

Lemma rewrites_length : forall s ls outs s', rewrites f s ls outs s' ->
  List.length outs = List.length ls.
Proof. intros s ls outs s' H. induction H; cbn; congruence. Qed.

Lemma rewrites_none : forall s ls outs s', rewrites f s ls outs s' ->
  (forall s0 l s1 r, In l ls -> f s0 l = Ok (s1, r) -> replacement l r = [l]) ->
  List.concat outs = ls.
Proof.
  intros s ls outs s' H. induction H as [s|s l s1 r ls outs s2 Hf Hr IH]; intros Hn; [reflexivity|].
  cbn [List.concat]. rewrite (Hn s l s1 r (or_introl eq_refl) Hf). cbn. f_equal.
  apply IH. intros s0 l0 s3 r0 Hin. apply Hn. now right.
Qed.

(** parse_lines, with the list built so far; [dirty] false means nothing was replaced *)
Lemma parse_lines_ok : forall ls s new dirty s' new' dirty',
  parse_lines f s new dirty ls = Ok (s', new', dirty') ->
  exists outs, rewrites f s ls outs s' /\ new' = new ++ List.concat outs /\
    (dirty' = false -> dirty = false /\ List.concat outs = ls).
Proof.
  induction ls as [|l ls IH]; intros s new dirty s' new' dirty' H; cbn [parse_lines] in H.
  - injection H as <- <- <-. exists []. split; [constructor|]. cbn. rewrite app_nil_r. auto.
  - destruct (f s l) as [[s1 r]|e] eqn:Ef; cbn [bind] in H; [|discriminate H].
    assert (Hcase : exists d, parse_lines f s1 (new ++ replacement l r) d ls = Ok (s', new', dirty') /\
      (d = false -> dirty = false /\ replacement l r = [l])).
    { destruct r as [|x|xs]; [exists dirty|exists true|exists true]; (split; [exact H|]);
        intros Hd; [auto|discriminate Hd|discriminate Hd]. }
    destruct Hcase as (d & H1 & Hd). destruct (IH _ _ _ _ _ _ H1) as (outs & Hr & Hn & Hc).
    exists (replacement l r :: outs). split; [econstructor; eassumption|].
    cbn [List.concat]. rewrite Hn, app_assoc. split; [reflexivity|]. intros Hd'.
    destruct (Hc Hd') as [Hc1 Hc2]. destruct (Hd Hc1) as [Hd1 Hd2]. rewrite Hd2, Hc2. auto.
Qed.

Lemma parse_lines_err : forall ls s new dirty e, parse_lines f s new dirty ls = Err e ->
  exists pre l post outs s1, ls = pre ++ l :: post /\ rewrites f s pre outs s1 /\ f s1 l = Err e.
Proof.
  induction ls as [|l ls IH]; intros s new dirty e H; cbn [parse_lines] in H; [discriminate H|].
  destruct (f s l) as [[s1 r]|e1] eqn:Ef; cbn [bind] in H.
  - assert (Hcase : exists n d, parse_lines f s1 n d ls = Err e) by (destruct r; eauto).
    destruct Hcase as (n & d & H1). destruct (IH _ _ _ _ H1) as (pre & l0 & post & outs & s2 & -> & Hr & He).
    exists (l :: pre), l0, post, (replacement l r :: outs), s2.
    split; [reflexivity|]. split; [econstructor; eassumption|exact He].
  - injection H as <-. exists [], l, ls, [], s. split; [reflexivity|]. split; [constructor|exact Ef].
Qed.

Lemma parse_layer_ok : forall s y s' y', parse_layer f s y = Ok (s', y') ->
  exists outs, rewrites f s (ly_lines y) outs s' /\ ly_lines y' = List.concat outs /\
    ly_z y' = ly_z y /\ ly_dur y' = ly_dur y.
Proof.
  intros s y s' y' H. unfold parse_layer in H.
  destruct (parse_lines f s [] false (ly_lines y)) as [[[s1 new] dirty]|e] eqn:E; cbn [bind] in H; [|discriminate H].
  injection H as <- <-. destruct (parse_lines_ok _ _ _ _ _ _ _ E) as (outs & Hr & Hn & Hc).
  exists outs. split; [exact Hr|]. destruct dirty; cbn.
  - rewrite Hn. repeat split.
  - destruct (Hc eq_refl) as [_ Hc']. rewrite Hc'. repeat split.
Qed.

Lemma parse_layers_ok : forall ys s s' ys', parse_layers f s ys = Ok (s', ys') ->
  exists outs, rewrites f s (List.concat (map ly_lines ys)) outs s' /\
    map ly_lines ys' = map (@List.concat _) (chop (map (@List.length _) (map ly_lines ys)) outs) /\
    map ly_z ys' = map ly_z ys /\ map ly_dur ys' = map ly_dur ys.
Proof.
  induction ys as [|y ys IH]; intros s s' ys' H; cbn [parse_layers] in H.
  - injection H as <- <-. exists []. split; [constructor|]. repeat split.
  - destruct (parse_layer f s y) as [[s1 y1]|e] eqn:E1; cbn [bind] in H; [|discriminate H].
    destruct (parse_layers f s1 ys) as [[s2 ys2]|e] eqn:E2; cbn [bind] in H; [|discriminate H].
    injection H as <- <-.
    destruct (parse_layer_ok _ _ _ _ E1) as (o1 & Hr1 & Hl1 & Hz1 & Hd1).
    destruct (IH _ _ _ E2) as (o2 & Hr2 & Hl2 & Hz2 & Hd2).
    exists (o1 ++ o2). cbn [map List.concat chop]. split; [eapply rewrites_app; eassumption|].
    pose proof (rewrites_length _ _ _ _ Hr1) as Hlen.
    rewrite <- Hlen, firstn_app, Nat.sub_diag, firstn_all. cbn [firstn]. rewrite app_nil_r.
    rewrite skipn_app, Nat.sub_diag, skipn_all. cbn [skipn app].
    rewrite Hl1, Hl2, Hz1, Hz2, Hd1, Hd2. repeat split.
Qed.

Lemma parse_layers_err : forall ys s e, parse_layers f s ys = Err e ->
  exists pre l post outs s1, List.concat (map ly_lines ys) = pre ++ l :: post /\
    rewrites f s pre outs s1 /\ f s1 l = Err e.
Proof.
  induction ys as [|y ys IH]; intros s e H; cbn [parse_layers] in H; [discriminate H|].
  destruct (parse_layer f s y) as [[s1 y1]|e1] eqn:E1; cbn [bind] in H.
  - destruct (parse_layers f s1 ys) as [[s2 ys2]|e2] eqn:E2; cbn [bind] in H; [discriminate H|].
    injection H as <-. destruct (IH _ _ E2) as (pre & l & post & outs & s3 & He & Hr & Hf).
    destruct (parse_layer_ok _ _ _ _ E1) as (o1 & Hr1 & _).
    exists (ly_lines y ++ pre), l, post, (o1 ++ outs), s3. cbn [map List.concat].
    rewrite He, app_assoc. split; [reflexivity|]. split; [eapply rewrites_app; eassumption|exact Hf].
  - injection H as <-. unfold parse_layer in E1.
    destruct (parse_lines f s [] false (ly_lines y)) as [[[s1 new] dirty]|e2] eqn:E; cbn [bind] in E1; [discriminate E1|].
    injection E1 as <-. destruct (parse_lines_err _ _ _ _ _ E) as (pre & l & post & outs & s1 & He & Hr & Hf).
    exists pre, l, (post ++ List.concat (map ly_lines ys)), outs, s1. cbn [map List.concat].
    rewrite He, <- app_assoc. split; [reflexivity|]. split; assumption.
Qed.

Lemma set_layers_frame : forall (g : gcode A) ys, map ly_z ys = map ly_z (g_layers g) ->
  map ly_dur ys = map ly_dur (g_layers g) -> same_frame g (set_layers ys g).
Proof. intros g ys H1 H2. unfold same_frame. cbn. repeat (split; [first [assumption|reflexivity]|]). reflexivity. Qed.

Lemma filter_ok : forall s g s' g', filter_gcode f s g = Ok (s', g') ->
  exists outs, rewrites f s (all_lines g) outs s' /\
    blocks g' = map (@List.concat _) (chop (map (@List.length _) (blocks g)) outs) /\
    same_frame g g'.
Proof.
  intros s g s' g' H. unfold filter_gcode in H.
  destruct (parse_layers f s (g_layers g)) as [[s1 ys]|e] eqn:E; cbn [bind] in H; [|discriminate H].
  injection H as <- <-. destruct (parse_layers_ok _ _ _ _ E) as (outs & Hr & Hb & Hz & Hd).
  exists outs. split; [exact Hr|]. split; [exact Hb|]. apply set_layers_frame; assumption.
Qed.

Lemma filter_err : forall s g e, filter_gcode f s g = Err e ->
  exists pre l post outs s1, all_lines g = pre ++ l :: post /\ rewrites f s pre outs s1 /\ f s1 l = Err e.
Proof.
  intros s g e H. unfold filter_gcode in H.
  destruct (parse_layers f s (g_layers g)) as [[s1 ys]|e1] eqn:E; cbn [bind] in H; [discriminate H|].
  injection H as <-. apply (parse_layers_err _ _ _ E).
Qed.

End Loop.

(** ** Filters that answer every line with at most one line *)

Section OneToOne.
Context {St : Type}.
Variable f : St -> line A -> St * fresult (A:=A).
Hypothesis one : forall s l, match snd (f s l) with FList _ => False | _ => True end.

Definition answer (s : St) (l : line A) : line A :=
  match snd (f s l) with FLine x => x | _ => l end.

Fixpoint answers (s : St) (ls : list (line A)) : list (line A) :=
  match ls with
  | [] => []
  | l :: t => answer s l :: answers (fst (f s l)) t
  end.

Lemma replacement_answer : forall s l, replacement l (snd (f s l)) = [answer s l].
Proof. intros s l. unfold answer. pose proof (one s l) as H. destruct (snd (f s l)); [reflexivity|reflexivity|destruct H]. Qed.

Lemma rewrites_answers : forall s ls outs s',
  rewrites (fun s l => Ok (f s l)) s ls outs s' -> outs = map (fun l => [l]) (answers s ls).
Proof.
  intros s ls outs s' H. induction H as [s|s l s1 r ls outs s2 Hf Hr IH]; [reflexivity|].
  injection Hf as Hf. cbn [answers map]. rewrite Hf. cbn [fst]. rewrite <- IH.
  rewrite <- replacement_answer, Hf. reflexivity.
Qed.

Lemma answers_length : forall ls s, List.length (answers s ls) = List.length ls.
Proof. induction ls as [|l ls IH]; intros s; cbn; [reflexivity|]. now rewrite IH. Qed.

Lemma pure_never_fails : forall s g, exists s' g', filter_gcode (fun s l => Ok (f s l)) s g = Ok (s', g').
Proof.
  intros s g. destruct (filter_gcode (fun s l => Ok (f s l)) s g) as [[s' g']|e] eqn:H; [eauto|].
  apply filter_err in H as (pre & l & post & outs & s1 & _ & _ & He). discriminate He.
Qed.

Lemma chop_singletons : forall T (ns : list nat) (xs : list T),
  map (@List.concat _) (chop ns (map (fun x => [x]) xs)) = chop ns xs.
Proof.
  intros T ns. induction ns as [|n ns IH]; intros xs; cbn [chop map]; [reflexivity|].
  rewrite firstn_map, skipn_map, IH. f_equal.
  clear IH. revert n. induction xs as [|x xs IHx]; intros [|n]; cbn [firstn map List.concat]; try reflexivity.
  rewrite IHx. reflexivity.
Qed.

Lemma concat_chop : forall T (ns : list nat) (xs : list T), list_sum ns = List.length xs ->
  List.concat (chop ns xs) = xs.
Proof.
  intros T ns. induction ns as [|n ns IH]; intros xs H; cbn [chop List.concat].
  - destruct xs; [reflexivity|discriminate H].
  - cbn [list_sum fold_right] in H. fold (list_sum ns) in H.
    rewrite IH by (rewrite skipn_length; lia). apply firstn_skipn.
Qed.

Lemma list_sum_concat : forall T (bs : list (list T)),
  list_sum (map (@List.length T) bs) = List.length (List.concat bs).
Proof. intros T bs. induction bs as [|b bs IH]; cbn; [reflexivity|]. rewrite app_length. unfold list_sum in IH. lia. Qed.

Lemma pure_filter : forall s g s' g', filter_gcode (fun s l => Ok (f s l)) s g = Ok (s', g') ->
  all_lines g' = answers s (all_lines g) /\
  blocks g' = chop (map (@List.length _) (blocks g)) (all_lines g') /\
  same_frame g g'.
Proof.
  intros s g s' g' H. apply filter_ok in H as (outs & Hr & Hb & Hf).
  pose proof (rewrites_answers _ _ _ _ Hr) as Ho. subst outs. rewrite chop_singletons in Hb.
  assert (Ha : all_lines g' = answers s (all_lines g)).
  { unfold all_lines at 1. rewrite Hb. apply concat_chop.
    rewrite list_sum_concat, answers_length. reflexivity. }
  split; [exact Ha|]. split; [rewrite Ha; exact Hb|exact Hf].
Qed.

End OneToOne.

(** ** Relative extrusion *)

Lemma cmd_is_command : forall c (l : line A), cmd_is (command l) c = is_command c l.
Proof. intros c l. unfold cmd_is, is_command. destruct (command l); reflexivity. Qed.
Lemma cmd_in_motion : forall l : line A, cmd_in (command l) move_gcodes = is_motion l.
Proof. intros l. unfold cmd_in, is_motion. destruct (command l); reflexivity. Qed.

Lemma rel_one : forall s (l : line A), match snd (rel_opcode s l) with FList _ => False | _ => True end.
Proof.
  intros s l. unfold rel_opcode.
  destruct (cmd_is (command l) "M83"); [exact I|]. destruct (cmd_is (command l) "M82"); [exact I|].
  destruct (cmd_is (command l) "G92"); [exact I|].
  destruct (cmd_in (command l) move_gcodes && negb (r_relative s)); [|exact I].
  destruct (l_e l); exact I.
Qed.

Definition rel_next (s : rstate (A:=A)) (l : line A) : rstate := fst (rel_opcode s l).

Lemma is_command_eq : forall c d (l : line A), is_command c l = true -> is_command d l = String.eqb c d.
Proof.
  intros c d l H. unfold is_command in *. destruct (command l) as [x|]; [|discriminate H].
  apply String.eqb_eq in H. now subst.
Qed.
Lemma is_command_motion : forall c (l : line A), is_command c l = true ->
  is_motion l = str_mem c ["G0"; "G1"; "G2"; "G3"]%string.
Proof.
  intros c l H. unfold is_command, is_motion in *. destruct (command l) as [x|]; [|discriminate H].
  apply String.eqb_eq in H. now subst.
Qed.

Lemma rel_next_relative : forall s (l : line A),
  r_relative (rel_next s l) =
  (if is_command "M83" l then true else if is_command "M82" l then false else r_relative s).
Proof.
  intros s l. unfold rel_next, rel_opcode. rewrite !cmd_is_command, cmd_in_motion.
  destruct (is_command "M83" l); [reflexivity|]. destruct (is_command "M82" l); [reflexivity|].
  destruct (is_command "G92" l); cbn [fst].
  { destruct (l_e l); [reflexivity|]. destruct (no_xyz l); reflexivity. }
  destruct (is_motion l && negb (r_relative s)); [|reflexivity]. destruct (l_e l); reflexivity.
Qed.

Lemma no_xyz_match : forall (l : line A) (a b : num A),
  (if no_xyz l then a else b) = match l_x l, l_y l, l_z l with None, None, None => a | _, _, _ => b end.
Proof. intros l a b. unfold no_xyz. destruct (l_x l), (l_y l), (l_z l); reflexivity. Qed.

Fixpoint rel_state (s : rstate (A:=A)) (ls : list (line A)) : rstate :=
  match ls with [] => s | l :: t => rel_state (rel_next s l) t end.

Lemma rel_state_relative : forall ls s,
  r_relative (rel_state s ls) =
  fold_left (fun r l => if is_command "M83" l then true
                        else if is_command "M82" l then false else r) ls (r_relative s).
Proof.
  induction ls as [|l ls IH]; intros s; cbn [rel_state fold_left]; [reflexivity|].
  rewrite IH, rel_next_relative. reflexivity.
Qed.

Lemma rel_state_current : forall ls s,
  r_current (rel_state s ls) = e_after_from (r_relative s) (r_current s) ls.
Proof.
  induction ls as [|l ls IH]; intros s; cbn [rel_state e_after_from]; [reflexivity|].
  rewrite IH, rel_next_relative. unfold rel_next, rel_opcode. rewrite !cmd_is_command, cmd_in_motion.
  destruct (is_command "M83" l); [reflexivity|]. destruct (is_command "M82" l); [reflexivity|].
  destruct (is_command "G92" l); cbn [fst].
  { destruct (l_e l); [reflexivity|]. rewrite <- no_xyz_match. destruct (no_xyz l); reflexivity. }
  destruct (is_motion l && negb (r_relative s)); [|reflexivity]. destruct (l_e l); reflexivity.
Qed.

Lemma answers_nth : forall St (f : St -> line A -> St * fresult (A:=A)) ls s i l,
  nth_error ls i = Some l ->
  nth_error (answers f s ls) i =
    Some (answer f (fold_left (fun s l => fst (f s l)) (firstn i ls) s) l).
Proof.
  intros St f. induction ls as [|a ls IH]; intros s i l H; [destruct i; discriminate H|].
  destruct i as [|i]; cbn in H.
  - injection H as <-. reflexivity.
  - cbn [answers firstn fold_left]. apply (IH _ i l H).
Qed.

Lemma rel_state_fold : forall ls s, fold_left (fun s l => fst (rel_opcode s l)) ls s = rel_state s ls.
Proof. induction ls as [|l ls IH]; intros s; cbn; [reflexivity|]. apply IH. Qed.

Lemma raw_m83 : plain_command (A:=A) "M83" (raw_to_line "M83") /\
  command (raw_to_line (A:=A) "M83") = Some "M83"%string.
Proof. repeat split; reflexivity. Qed.

Lemma rel_answer_converted : forall before (l : line A),
  converted before l (answer rel_opcode (rel_state rel_init before) l).
Proof.
  intros before l. unfold converted, answer, rel_opcode. rewrite !cmd_is_command, cmd_in_motion.
  rewrite rel_state_relative, rel_state_current. cbn [r_relative r_current rel_init].
  fold (relative_after before). fold (e_after before).
  destruct (is_command "M83" l) eqn:H83.
  { rewrite (is_command_eq "M83" "M82" l H83). cbn [snd].
    rewrite (is_command_motion _ _ H83). reflexivity. }
  destruct (is_command "M82" l) eqn:H82; [exact raw_m83|].
  destruct (is_command "G92" l) eqn:H92.
  { rewrite (is_command_motion _ _ H92). reflexivity. }
  destruct (is_motion l && negb (relative_after before)); [|reflexivity].
  destruct (l_e l) as [e|] eqn:He; [|reflexivity]. cbn [snd].
  split; [reflexivity|]. split; [reflexivity|]. split; [reflexivity|].
  split. { intros k Hk. destruct k; try reflexivity. congruence. }
  repeat (split; [reflexivity|]). reflexivity.
Qed.

Lemma relative_total : forall g : gcode A, exists g', to_relative_extrusion g = Ok g'.
Proof.
  intros g. unfold to_relative_extrusion.
  destruct (pure_never_fails rel_opcode rel_init g) as (s' & g' & H). rewrite H. eexists; reflexivity.
Qed.

Lemma relative_pure : forall g g' : gcode A, to_relative_extrusion g = Ok g' ->
  all_lines g' = answers rel_opcode rel_init (all_lines g) /\
  blocks g' = chop (map (@List.length _) (blocks g)) (all_lines g') /\ same_frame g g'.
Proof.
  intros g g' H. unfold to_relative_extrusion in H.
  destruct (filter_gcode (fun s l => Ok (rel_opcode s l)) rel_init g) as [[s1 g1]|e] eqn:E; cbn [bind] in H; [|discriminate H].
  injection H as <-. apply (pure_filter rel_opcode rel_one _ _ _ _ E).
Qed.

Lemma relative_converted : forall g g' : gcode A, to_relative_extrusion g = Ok g' ->
  List.length (all_lines g') = List.length (all_lines g) /\
  (forall i l, nth_error (all_lines g) i = Some l -> exists l',
     nth_error (all_lines g') i = Some l' /\ converted (firstn i (all_lines g)) l l') /\
  map (@List.length _) (blocks g') = map (@List.length _) (blocks g) /\ same_frame g g'.
Proof.
  intros g g' H. destruct (relative_pure g g' H) as (Ha & Hb & Hf).
  assert (Hlen : List.length (all_lines g') = List.length (all_lines g)).
  { rewrite Ha. apply answers_length. }
  split; [exact Hlen|]. split; [|split; [|exact Hf]].
  - intros i l Hi. rewrite Ha, (answers_nth _ rel_opcode _ _ _ _ Hi), rel_state_fold.
    eexists. split; [reflexivity|]. apply rel_answer_converted.
  - rewrite Hb. assert (Hs : forall T (ns : list nat) (xs : list T), (list_sum ns <= List.length xs)%nat ->
      map (@List.length T) (chop ns xs) = ns).
    { intros T ns. induction ns as [|n ns IH]; intros xs Hx; cbn [chop map]; [reflexivity|].
      cbn [list_sum fold_right] in Hx. fold (list_sum ns) in Hx.
      rewrite IH by (rewrite skipn_length; lia). rewrite firstn_length_le by lia. reflexivity. }
    apply Hs. rewrite list_sum_concat, Hlen. unfold all_lines. lia.
Qed.

Lemma converted_no_m82 : forall before (l l' : line A), converted before l l' -> is_command "M82" l' = false.
Proof.
  intros before l l' H. unfold converted in H. destruct (is_command "M82" l) eqn:H82.
  - destruct H as [_ H]. unfold is_command. rewrite H. reflexivity.
  - destruct (is_motion l && negb (relative_after before)); [|subst; exact H82].
    destruct (l_e l); [|subst; exact H82]. destruct H as (H & _). unfold is_command in *. rewrite H. exact H82.
Qed.

Lemma nth_in : forall T (xs : list T) x, In x xs -> exists i, nth_error xs i = Some x.
Proof. intros T xs x H. apply In_nth_error, H. Qed.

Lemma relative_no_m82 : forall g g' : gcode A, to_relative_extrusion g = Ok g' ->
  forall l', In l' (all_lines g') -> is_command "M82" l' = false.
Proof.
  intros g g' H l' Hin. destruct (relative_converted g g' H) as (Hl & Hc & _).
  apply In_nth_error in Hin as [i Hi].
  assert (Hex : exists l, nth_error (all_lines g) i = Some l).
  { destruct (nth_error (all_lines g) i) as [l|] eqn:E; [eauto|].
    apply nth_error_None in E. apply nth_error_Some_lt in Hi || (assert (nth_error (all_lines g') i <> None) by congruence; apply nth_error_Some in H0). lia. }
  destruct Hex as [l Hl']. destruct (Hc i l Hl') as (l2 & Hl2 & Hcv). rewrite Hi in Hl2. injection Hl2 as <-.
  apply (converted_no_m82 _ _ _ Hcv).
Qed.

(** ** Idempotence *)

Lemma rewrites_pure : forall St (f : St -> line A -> St * fresult (A:=A)) ls s,
  exists outs s', rewrites (fun s l => Ok (f s l)) s ls outs s'.
Proof.
  intros St f. induction ls as [|l ls IH]; intros s; [exists [], s; constructor|].
  destruct (IH (fst (f s l))) as (outs & s' & H).
  exists (replacement l (snd (f s l)) :: outs), s'. econstructor; [|exact H].
  f_equal. destruct (f s l); reflexivity.
Qed.

(** a pass that answers None to all lines leaves the program alone *)
Lemma filter_quiet : forall St (f : St -> line A -> St * fresult (A:=A)) s (g : gcode A) s' g',
  filter_gcode (fun s l => Ok (f s l)) s g = Ok (s', g') ->
  (forall s l, match snd (f s l) with FList _ => False | _ => True end) ->
  answers f s (all_lines g) = all_lines g -> g' = g.
Proof.
  intros St f s g s' g' H Hone Ha.
  destruct (pure_filter f Hone _ _ _ _ H) as (H1 & H2 & H3).
  rewrite H1, Ha in H2. unfold all_lines in H2. rewrite chop_concat in H2.
  unfold filter_gcode in H.
  destruct (parse_layers (fun s l => Ok (f s l)) s (g_layers g)) as [[s1 ys]|e]; cbn [bind] in H; [|discriminate H].
  injection H as _ <-. unfold same_frame in H3. cbn in H2, H3. destruct H3 as (Hz & Hd & _).
  assert (Hy : ys = g_layers g).
  { unfold blocks in H2. cbn in H2. clear - Hz Hd H2. revert Hz Hd H2. generalize (g_layers g). clear.
    induction ys as [|y ys IH]; intros [|z zs] Hz Hd Hl; try discriminate Hz; [reflexivity|].
    cbn in Hz, Hd, Hl. injection Hz as Hz1 Hz2. injection Hd as Hd1 Hd2. injection Hl as Hl1 Hl2.
    f_equal; [|apply IH; assumption]. destruct y, z. cbn in *. congruence. }
  rewrite Hy. destruct g; reflexivity.
Qed.

Lemma rel_quiet : forall ls (s : rstate (A:=A)),
  (forall l, In l ls -> is_command "M82" l = false) ->
  (forall i l, nth_error ls i = Some l -> is_motion l = true -> l_e l <> None ->
     r_relative s = true \/ exists l0, In l0 (firstn i ls) /\ is_command "M83" l0 = true) ->
  answers rel_opcode s ls = ls.
Proof.
  induction ls as [|l ls IH]; intros s H82 Hd; cbn [answers]; [reflexivity|].
  assert (Hl : answer rel_opcode s l = l).
  { unfold answer, rel_opcode. rewrite !cmd_is_command, cmd_in_motion.
    destruct (is_command "M83" l); [reflexivity|]. rewrite (H82 l (or_introl eq_refl)).
    destruct (is_command "G92" l); [reflexivity|].
    destruct (is_motion l) eqn:Hm; [|reflexivity]. cbn [andb].
    destruct (l_e l) as [e|] eqn:He; [|destruct (r_relative s); reflexivity].
    destruct (Hd 0%nat l eq_refl Hm ltac:(congruence)) as [Hr|(l0 & Hin & _)].
    - rewrite Hr. reflexivity.
    - destruct Hin. }
  rewrite Hl. f_equal. apply IH.
  - intros l0 Hin. apply H82. now right.
  - intros i l1 Hi Hm He. fold (rel_next s l). rewrite rel_next_relative.
    destruct (Hd (S i) l1 Hi Hm He) as [Hr|(l0 & Hin & Hl0)].
    + left. rewrite (H82 l (or_introl eq_refl)). destruct (is_command "M83" l); [reflexivity|exact Hr].
    + destruct Hin as [<-|Hin]; [left; rewrite Hl0; reflexivity|]. right. eauto.
Qed.

Lemma relative_idempotent : forall g g' : gcode A, e_declared (all_lines g) ->
  to_relative_extrusion g = Ok g' -> to_relative_extrusion g' = Ok g'.
Proof.
  intros g g' Hd H. destruct (relative_total g') as [g'' H']. rewrite H'. f_equal.
  pose proof H' as H2. unfold to_relative_extrusion in H2.
  destruct (filter_gcode (fun s l => Ok (rel_opcode s l)) rel_init g') as [[s1 g1]|e] eqn:E; cbn [bind] in H2; [|discriminate H2].
  injection H2 as <-. refine (filter_quiet _ _ _ _ _ _ E rel_one _). apply rel_quiet.
  - apply (relative_no_m82 g g' H).
  - destruct (relative_converted g g' H) as (Hlen & Hc & _).
    intros i l' Hi Hm He. right.
    assert (Hex : exists l, nth_error (all_lines g) i = Some l).
    { destruct (nth_error (all_lines g) i) as [l|] eqn:El; [eauto|]. exfalso.
      apply nth_error_None in El. assert (Hn : nth_error (all_lines g') i <> None) by congruence.
      apply nth_error_Some in Hn. lia. }
    destruct Hex as [l Hl]. destruct (Hc i l Hl) as (l2 & Hl2 & Hcv). rewrite Hi in Hl2. injection Hl2 as <-.
    assert (Hme : is_motion l = true /\ l_e l <> None).
    { unfold converted in Hcv. destruct (is_command "M82" l) eqn:H82.
      - destruct Hcv as [_ Hcv]. unfold is_motion in Hm. rewrite Hcv in Hm. discriminate Hm.
      - destruct (is_motion l && negb (relative_after (firstn i (all_lines g)))) eqn:Em; [|subst; auto].
        apply andb_prop in Em as [Em _]. split; [exact Em|]. destruct (l_e l) eqn:Ele; [discriminate|]. intros _. apply He. rewrite Hcv. exact Ele. }
    destruct Hme as [Hm0 He0]. destruct (Hd i l Hl Hm0 He0) as (l0 & Hin & Hor).
    apply In_nth_error in Hin as [j Hj].
    assert (Hji : (j < i)%nat).
    { assert (Hn : nth_error (firstn i (all_lines g)) j <> None) by congruence.
      apply nth_error_Some in Hn. rewrite firstn_length in Hn. lia. }
    assert (Hj0 : nth_error (all_lines g) j = Some l0).
    { rewrite <- (firstn_skipn i (all_lines g)). rewrite nth_error_app1; [exact Hj|].
      apply nth_error_Some. congruence. }
    destruct (Hc j l0 Hj0) as (l0' & Hj' & Hcv0). exists l0'. split.
    + apply nth_error_In with (n := j). rewrite <- (firstn_skipn i (all_lines g')) in Hj'.
      rewrite nth_error_app1 in Hj'; [exact Hj'|]. rewrite firstn_length, Hlen.
      assert (Hn : nth_error (all_lines g) i <> None) by congruence. apply nth_error_Some in Hn. lia.
    + unfold converted in Hcv0. destruct Hor as [H82|H83].
      * rewrite H82 in Hcv0. destruct Hcv0 as [_ Hcv0]. unfold is_command. rewrite Hcv0. reflexivity.
      * rewrite (is_command_eq "M83" "M82" l0 H83) in Hcv0. cbn in Hcv0.
        rewrite (is_command_motion _ _ H83) in Hcv0. cbn in Hcv0. subst. exact H83.
Qed.

(** ** Translation *)

Lemma tr_one : forall s (l : line A), match snd (tr_opcode s l) with FList _ => False | _ => True end.
Proof.
  intros s l. unfold tr_opcode.
  destruct (cmd_in (command l) move_gcodes); [destruct (tr_absolute s) as [[|]|]; exact I|].
  destruct (cmd_is (command l) "G90"); [exact I|]. destruct (cmd_is (command l) "G91"); [exact I|].
  destruct (cmd_is (command l) "G92"); [|exact I].
  destruct (no_xyz l); [exact I|]. destruct (l_x l); destruct (l_y l); exact I.
Qed.

Definition tr_next (s : tstate (A:=A)) (l : line A) : tstate := fst (tr_opcode s l).
Fixpoint tr_state (s : tstate (A:=A)) (ls : list (line A)) : tstate :=
  match ls with [] => s | l :: t => tr_state (tr_next s l) t end.
Lemma tr_state_fold : forall ls s, fold_left (fun s l => fst (tr_opcode s l)) ls s = tr_state s ls.
Proof. induction ls as [|l ls IH]; intros s; cbn; [reflexivity|]. apply IH. Qed.

Lemma tr_next_fields : forall s (l : line A),
  tr_absolute (tr_next s l) =
    (if is_command "G90" l then Some true else if is_command "G91" l then Some false else tr_absolute s) /\
  tr_x (tr_next s l) = (if rebases LX l then None else tr_x s) /\
  tr_y (tr_next s l) = (if rebases LY l then None else tr_y s).
Proof.
  intros s l. unfold tr_next, tr_opcode, rebases. rewrite !cmd_is_command, cmd_in_motion.
  destruct (is_motion l) eqn:Hm.
  { assert (H : is_command "G90" l = false /\ is_command "G91" l = false /\ is_command "G92" l = false).
    { repeat split.
      all: match goal with |- ?x = false => destruct x eqn:E; [|reflexivity] end;
        rewrite (is_command_motion _ _ E) in Hm; discriminate Hm. }
    destruct H as (-> & -> & ->). destruct (tr_absolute s) as [[|]|] eqn:Et; cbn; auto. }
  destruct (is_command "G90" l) eqn:H90.
  { rewrite (is_command_eq _ "G92" _ H90). cbn. auto. }
  destruct (is_command "G91" l) eqn:H91.
  { rewrite (is_command_eq _ "G92" _ H91). cbn. auto. }
  destruct (is_command "G92" l) eqn:H92; [|cbn; auto]. cbn [andb]. cbn [get_arg].
  change (a_x (largs l)) with (l_x l). change (a_y (largs l)) with (l_y l).
  unfold no_xyz. destruct (l_x l), (l_y l), (l_z l); cbn; auto.
Qed.

Lemma tr_state_fields : forall ls (s : tstate (A:=A)),
  tr_absolute (tr_state s ls) = fold_left (fun r l => if is_command "G90" l then Some true
                        else if is_command "G91" l then Some false else r) ls (tr_absolute s) /\
  tr_x (tr_state s ls) = (if existsb (rebases LX) ls then None else tr_x s) /\
  tr_y (tr_state s ls) = (if existsb (rebases LY) ls then None else tr_y s).
Proof.
  induction ls as [|l ls IH]; intros s; cbn [tr_state fold_left existsb]; [auto|].
  destruct (IH (tr_next s l)) as (H1 & H2 & H3). destruct (tr_next_fields s l) as (G1 & G2 & G3).
  rewrite H1, H2, H3, G1, G2, G3.
  destruct (rebases LX l), (rebases LY l), (existsb (rebases LX) ls), (existsb (rebases LY) ls); auto.
Qed.

Lemma shift_word_spec : forall k (t : option (num A)) (l : line A), k = LX \/ k = LY ->
  let l' := shift_word k t l in
  command l' = command l /\ is_move l' = is_move l /\ lnotes l' = lnotes l /\
  get_arg k (largs l') = option_map (shifted t) (get_arg k (largs l)) /\
  (forall j, j <> k -> get_arg j (largs l') = get_arg j (largs l)) /\
  (l' = l \/ raw l' = unsplit_text (match command l with Some c => c | None => "" end) (largs l')).
Proof.
  intros k t l Hk l'. unfold l', shift_word, shifted, shift_truthy, shift_add, truthy.
  destruct (get_arg k (largs l)) as [v|] eqn:Ev; cbn [option_map].
  2:{ rewrite Ev. auto 10. }
  destruct t as [x|]; [|rewrite Ev; auto 10].
  destruct (n_eqb x n0); cbn [negb]; [rewrite Ev; auto 10|].
  split; [reflexivity|]. split; [reflexivity|]. split; [reflexivity|].
  split; [destruct Hk as [-> | ->]; reflexivity|].
  split; [|right; reflexivity].
  intros j Hj. destruct Hk as [-> | ->]; destruct j; try reflexivity; congruence.
Qed.

Lemma shift_two : forall (tx ty : option (num A)) (l : line A),
  let l' := shift_word LY ty (shift_word LX tx l) in
  command l' = command l /\ is_move l' = is_move l /\ lnotes l' = lnotes l /\
  l_x l' = option_map (shifted tx) (l_x l) /\ l_y l' = option_map (shifted ty) (l_y l) /\
  (forall k, k <> LX -> k <> LY -> get_arg k (largs l') = get_arg k (largs l)) /\
  (l' = l \/ raw l' = unsplit_text (match command l with Some c => c | None => "" end) (largs l')).
Proof.
  intros tx ty l. cbv zeta.
  destruct (shift_word_spec LX tx l (or_introl eq_refl)) as (X1 & X2 & X3 & X4 & X5 & X6). cbv zeta in *.
  destruct (shift_word_spec LY ty (shift_word LX tx l) (or_intror eq_refl)) as (Y1 & Y2 & Y3 & Y4 & Y5 & Y6).
  cbv zeta in *.
  split; [congruence|]. split; [congruence|]. split; [congruence|].
  split. { change (l_x ?a) with (get_arg LX (largs a)). rewrite (Y5 LX) by discriminate. exact X4. }
  split. { change (l_y ?a) with (get_arg LY (largs a)). rewrite Y4. rewrite (X5 LY) by discriminate. reflexivity. }
  split. { intros k K1 K2. rewrite (Y5 k K2). apply (X5 k K1). }
  destruct Y6 as [Y6|Y6]; [rewrite Y6; exact X6|]. right. rewrite <- X1. exact Y6.
Qed.

Lemma tr_answer_translated : forall x y before (l : line A),
  translated x y before l (answer tr_opcode (tr_state (TState (Some x) (Some y) None) before) l).
Proof.
  intros x y before l. destruct (tr_state_fields before (TState (Some x) (Some y) None)) as (Ha & Hx & Hy).
  cbn [tr_absolute tr_x tr_y] in Ha, Hx, Hy. fold (absolute_after before) in Ha.
  fold (pending LX x before) in Hx. fold (pending LY y before) in Hy.
  unfold translated, answer, tr_opcode. rewrite !cmd_is_command, cmd_in_motion. rewrite Ha, Hx, Hy. cbv zeta.
  destruct (is_motion l) eqn:Hm.
  - destruct (absolute_after before) as [[|]|]; [|reflexivity|reflexivity]. cbn [snd]. apply shift_two.
  - destruct (is_command "G90" l) eqn:H90. { rewrite (is_command_eq _ "G92" _ H90). reflexivity. }
    destruct (is_command "G91" l) eqn:H91. { rewrite (is_command_eq _ "G92" _ H91). reflexivity. }
    destruct (is_command "G92" l) eqn:H92; [|reflexivity].
    assert (Hcmd : command l = Some "G92"%string).
    { unfold is_command in H92. destruct (command l); [|discriminate H92]. apply String.eqb_eq in H92. now subst. }
    unfold no_xyz. unfold shift_opp, shift_sub.
    change (l_x l) with (a_x (largs l)). change (l_y l) with (a_y (largs l)). change (l_z l) with (a_z (largs l)).
    destruct l as [rw cm mv [ax ay az ae af ai aj] nt]. cbn in Hcmd. subst cm.
    cbn [largs a_x a_y a_z].
    destruct ax, ay, az; cbn; (split; [reflexivity|]); (split; [reflexivity|]); (split; [reflexivity|]);
      (split; [split; reflexivity|]); (split; [|reflexivity]);
      intros k K1 K2; destruct k; try reflexivity; congruence.
Qed.

Lemma tr_init_of : forall x y : option (num A), tr_init x y = TState (Some (shift_of x)) (Some (shift_of y)) None.
Proof.
  intros x y. unfold tr_init, shift_arg, shift_of, truthy.
  destruct x as [x|], y as [y|]; try destruct (n_eqb x n0); try destruct (n_eqb y n0); reflexivity.
Qed.

Lemma translate_total : forall x y (g : gcode A), exists g', translate x y g = Ok g'.
Proof.
  intros x y g. unfold translate.
  destruct (pure_never_fails tr_opcode (tr_init x y) g) as (s' & g' & H). rewrite H. eexists; reflexivity.
Qed.

Lemma translate_pure : forall x y (g g' : gcode A), translate x y g = Ok g' ->
  all_lines g' = answers tr_opcode (tr_init x y) (all_lines g) /\
  blocks g' = chop (map (@List.length _) (blocks g)) (all_lines g') /\ same_frame g g'.
Proof.
  intros x y g g' H. unfold translate in H.
  destruct (filter_gcode (fun s l => Ok (tr_opcode s l)) (tr_init x y) g) as [[s1 g1]|e] eqn:E; cbn [bind] in H; [|discriminate H].
  injection H as <-. apply (pure_filter tr_opcode tr_one _ _ _ _ E).
Qed.

Lemma chop_lengths : forall T (ns : list nat) (xs : list T), (list_sum ns <= List.length xs)%nat ->
  map (@List.length T) (chop ns xs) = ns.
Proof.
  intros T ns. induction ns as [|n ns IH]; intros xs Hx; cbn [chop map]; [reflexivity|].
  cbn [list_sum fold_right] in Hx. fold (list_sum ns) in Hx.
  rewrite IH by (rewrite skipn_length; lia). rewrite firstn_length_le by lia. reflexivity.
Qed.

Lemma translate_lines : forall x y (g g' : gcode A), translate x y g = Ok g' ->
  List.length (all_lines g') = List.length (all_lines g) /\
  (forall i l, nth_error (all_lines g) i = Some l -> exists l',
     nth_error (all_lines g') i = Some l' /\
     translated (shift_of x) (shift_of y) (firstn i (all_lines g)) l l') /\
  map (@List.length _) (blocks g') = map (@List.length _) (blocks g) /\ same_frame g g'.
Proof.
  intros x y g g' H. destruct (translate_pure x y g g' H) as (Ha & Hb & Hf).
  assert (Hlen : List.length (all_lines g') = List.length (all_lines g)).
  { rewrite Ha. apply answers_length. }
  split; [exact Hlen|]. split; [|split; [|exact Hf]].
  - intros i l Hi. rewrite Ha, (answers_nth _ tr_opcode _ _ _ _ Hi), tr_state_fold, tr_init_of.
    eexists. split; [reflexivity|]. apply tr_answer_translated.
  - rewrite Hb. apply chop_lengths. rewrite list_sum_concat, Hlen. unfold all_lines. lia.
Qed.

Lemma translate_zero : forall x y (g g' : gcode A), @n_eqb A n0 n0 = true ->
  shift_of x = n0 -> shift_of y = n0 ->
  (forall l, In l (all_lines g) -> is_command "G92" l = false) ->
  translate x y g = Ok g' -> g' = g.
Proof.
  intros x y g g' H0 Hx Hy H92 H. unfold translate in H.
  destruct (filter_gcode (fun s l => Ok (tr_opcode s l)) (tr_init x y) g) as [[s1 g1]|e] eqn:E; cbn [bind] in H; [|discriminate H].
  injection H as <-. refine (filter_quiet _ _ _ _ _ _ E tr_one _).
  rewrite tr_init_of, Hx, Hy. clear - H0 H92. generalize (@None bool) as m. revert H92.
  induction (all_lines g) as [|l ls IH]; intros H92 m; cbn [answers]; [reflexivity|].
  assert (H9 : is_command "G92" l = false) by (apply H92; now left).
  assert (Ha : answer tr_opcode (TState (Some n0) (Some n0) m) l = l).
  { unfold answer, tr_opcode. rewrite !cmd_is_command, cmd_in_motion, H9. cbn [tr_absolute tr_x tr_y].
    destruct (is_motion l).
    - destruct m as [[|]|]; [|reflexivity|reflexivity]. cbn [snd].
      assert (Hw : forall k (l : line A), shift_word k (Some n0) l = l).
      { intros k l0. unfold shift_word, shift_truthy, truthy. rewrite H0. destruct (get_arg k (largs l0)); reflexivity. }
      rewrite !Hw. reflexivity.
    - destruct (is_command "G90" l); [reflexivity|]. destruct (is_command "G91" l); reflexivity. }
  rewrite Ha. f_equal. fold (tr_next (TState (Some n0) (Some n0) m) l).
  destruct (tr_next_fields (TState (Some n0) (Some n0) m) l) as (G1 & G2 & G3).
  destruct (tr_next (TState (Some n0) (Some n0) m) l) as [a b c]. cbn in G1, G2, G3.
  unfold rebases in G2, G3. rewrite H9 in G2, G3. cbn in G2, G3. subst.
  apply IH. intros l0 Hl0. apply H92. now right.
Qed.

End Generic.

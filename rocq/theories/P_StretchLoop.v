(** * P_StretchLoop: the marks follow the comments of the slicer *)
From Coq Require Import List Ascii String ZArith NArith Bool Lia.
From Verif Require Import PyBase Arith Gcoder Filters SpecText SpecLoad SpecFilter
  Stretch SpecStretch SpecLoop P_Load P_Stretch.
Import ListNotations.
Local Open Scope list_scope.

(** ** Texts in appended texts *)

(** the proper ends of a text *)
Fixpoint ends (n : string) : list string :=
  match n with
  | EmptyString => []
  | String _ t => match t with EmptyString => [] | _ => t :: ends t end
  end.

(** no occurrence of [n] in [s ++ r] begins in [s] and ends in [r] *)
Definition apart (n r : string) : bool := forallb (fun b => negb (String.prefix b r)) (ends n).

Lemma prefix_nil : forall s, String.prefix "" s = true.
Proof. intros []; reflexivity. Qed.

Lemma prefix_cons : forall c n d s, String.prefix (String c n) (String d s) = Ascii.eqb c d && String.prefix n s.
Proof.
  intros c n d s. cbn [String.prefix]. destruct (ascii_dec c d) as [->|H].
  - now rewrite Ascii.eqb_refl.
  - apply Ascii.eqb_neq in H. now rewrite H.
Qed.

Lemma prefix_app_apart : forall s n r, s <> ""%string -> apart n r = true ->
  String.prefix n (s ++ r) = String.prefix n s.
Proof.
  induction s as [|c s IH]; intros n r Hs Ha; [contradiction|].
  destruct n as [|d n]; [now rewrite !prefix_nil|].
  change (String c s ++ r)%string with (String c (s ++ r)). rewrite !prefix_cons. f_equal.
  destruct n as [|d' n]; [now rewrite !prefix_nil|].
  unfold apart in Ha. cbn [ends] in Ha. cbn [forallb] in Ha. apply andb_prop in Ha as [H1 H2].
  destruct s as [|c' s].
  - change ("" ++ r)%string with r. apply negb_true_iff in H1. rewrite H1. reflexivity.
  - apply IH; [discriminate|exact H2].
Qed.

Lemma contains_app : forall n s r, n <> ""%string -> apart n r = true ->
  contains n (s ++ r) = contains n s || contains n r.
Proof.
  intros n s r Hn Ha. induction s as [|c s IH].
  - change ("" ++ r)%string with r. cbn [contains]. destruct n; [contradiction|reflexivity].
  - change (String c s ++ r)%string with (String c (s ++ r)). cbn [contains].
    change (String c (s ++ r)) with (String c s ++ r)%string. rewrite prefix_app_apart by (discriminate || exact Ha).
    rewrite IH. now rewrite orb_assoc.
Qed.

Lemma contains_app_not : forall n s r, n <> ""%string -> apart n r = true -> contains n r = false ->
  contains n (s ++ r) = contains n s.
Proof. intros n s r Hn Ha Hr. rewrite (contains_app n s r Hn Ha), Hr. apply orb_false_r. Qed.

Lemma prefix_of_app : forall p q s, String.prefix (p ++ q) s = true -> String.prefix p s = true.
Proof.
  induction p as [|c p IH]; intros q s H; [apply prefix_nil|].
  destruct s as [|d s]; [discriminate H|].
  change (String c p ++ q)%string with (String c (p ++ q)) in H. rewrite prefix_cons in *.
  apply andb_prop in H as [H1 H2]. rewrite H1. exact (IH q s H2).
Qed.

Lemma contains_shorter : forall p q s, contains p s = false -> contains (p ++ q) s = false.
Proof.
  intros p q. induction s as [|c s IH]; intros H; cbn [contains] in *.
  - apply orb_false_elim in H as [H _]. rewrite orb_false_r.
    destruct (String.prefix (p ++ q) "") eqn:E; [|reflexivity]. apply prefix_of_app in E. congruence.
  - apply orb_false_elim in H as [H1 H2]. rewrite (IH H2), orb_false_r.
    destruct (String.prefix (p ++ q) (String c s)) eqn:E; [|reflexivity]. apply prefix_of_app in E. congruence.
Qed.

(** ** Reading the marks of a text *)

(** a text without marks, with [r] appended *)
Lemma opened_app : forall s r, contains "stretch-" s = false ->
  apart inner_marker r = true -> apart outer_marker r = true -> apart start_marker r = true -> opened (s ++ r) = opened r.
Proof.
  intros s r Hs H1 H2 H3. unfold opened.
  change "stretch-loop-start stretch-inner-edge-start"%string with inner_marker.
  change "stretch-loop-start stretch-outer-edge-start"%string with outer_marker.
  change "stretch-loop-start"%string with start_marker.
  rewrite !contains_app by (discriminate || assumption).
  assert (H : forall q, contains ("stretch-" ++ q) s = false) by (intros q; apply contains_shorter, Hs).
  change inner_marker with ("stretch-" ++ "loop-start stretch-inner-edge-start")%string.
  change outer_marker with ("stretch-" ++ "loop-start stretch-outer-edge-start")%string.
  change start_marker with ("stretch-" ++ "loop-start")%string.
  rewrite !H. reflexivity.
Qed.

Lemma stop_app : forall s r, contains "stretch-" s = false -> apart stop_marker r = true ->
  contains "stretch-loop-stop" (s ++ r) = contains "stretch-loop-stop" r.
Proof.
  intros s r Hs H. change "stretch-loop-stop"%string with stop_marker. rewrite contains_app by (discriminate || assumption).
  change stop_marker with ("stretch-" ++ "loop-stop")%string. rewrite (contains_shorter _ _ _ Hs). reflexivity.
Qed.

(** what reading a text does to the loop in force *)
Definition read_loop (carried : option loop) (t : string) : option loop :=
  match opened t with
  | Some k => Some k
  | None => if contains "stretch-loop-stop" t then None else carried
  end.

Lemma loop_of_read : forall ts t, loop_of (t :: ts) = read_loop (loop_of ts) t.
Proof. reflexivity. Qed.

(** the same for the text appended to a text without marks *)
Definition all_apart (r : string) : bool :=
  apart inner_marker r && apart outer_marker r && apart start_marker r && apart stop_marker r.

Lemma read_app : forall s r c, contains "stretch-" s = false -> all_apart r = true ->
  read_loop c (s ++ r) = read_loop c r.
Proof.
  intros s r c Hs H. unfold all_apart in H.
  apply andb_prop in H as [H H4]. apply andb_prop in H as [H H3]. apply andb_prop in H as [H1 H2].
  unfold read_loop. rewrite opened_app, stop_app by assumption. reflexivity.
Qed.

Lemma read_clean : forall s c, contains "stretch-" s = false -> read_loop c s = c.
Proof.
  intros s c Hs. assert (E : s = (s ++ "")%string) by (clear; induction s; cbn; congruence).
  rewrite E. rewrite read_app by (exact Hs || reflexivity). reflexivity.
Qed.

Lemma app_assoc_s : forall a b c : string, ((a ++ b) ++ c = a ++ (b ++ c))%string.
Proof. induction a as [|x a IH]; intros b c; cbn; [reflexivity|]. now rewrite IH. Qed.

Section P.
Context {A : arith}.

(** ** The extrusion marks say nothing of loops *)

(** the text is the given one with the text [r] appended *)
Definition adds (r : string) (l l' : line A) : Prop := raw l' = (raw l ++ r)%string.

Definition ext_tails : list string := [""; " ; stretch-extrusion-on"; " ; stretch-extrusion-off"]%string.

Lemma adds_nil : forall l : line A, adds "" l l.
Proof. intros l. unfold adds. generalize (raw l). intros s. induction s; cbn; congruence. Qed.

Lemma mark_extrusion_adds : forall s (l : line A), exists r, In r ext_tails /\ adds r l (snd (mark_extrusion s l)) /\
  k_kind (fst (mark_extrusion s l)) = k_kind s /\ k_outer (fst (mark_extrusion s l)) = k_outer s /\
  k_next (fst (mark_extrusion s l)) = k_next s.
Proof.
  intros s l. unfold mark_extrusion.
  destruct (negb (k_extruding s) && is_linear l && is_some (l_e l)).
  { exists " ; stretch-extrusion-on"%string. split; [right; left; reflexivity|]. repeat split. }
  destruct (k_extruding s && is_linear l && negb (is_some (l_e l)) && negb (kind_eqb (k_kind s) Unknown)).
  { exists " ; stretch-extrusion-off"%string. split; [right; right; left; reflexivity|]. repeat split. }
  exists ""%string. split; [left; reflexivity|]. split; [apply adds_nil|]. repeat split.
Qed.

(** they hide no comment *)
Lemma ext_contains : forall n r s, In r ext_tails -> In n
  ["; perimeter external"; "; perimeter"; "; move to first perimeter point"; "unretract";
   "TYPE:WALL-OUTER"; "TYPE:WALL-INNER"; "TYPE:SKIN"; "TYPE:FILL"]%string ->
  contains n (s ++ r) = contains n s.
Proof.
  intros n r s Hr Hn. unfold ext_tails in Hr. cbn [In] in Hr, Hn.
  decompose [or False] Hr; decompose [or False] Hn; subst; apply contains_app_not;
    first [discriminate|vm_compute; reflexivity].
Qed.

(** ** Slic3r *)

Lemma ahead_next : forall ls : list (line A), perimeter_ahead ls = next_perimeter (map raw ls).
Proof.
  induction ls as [|l ls IH]; [reflexivity|]. cbn [perimeter_ahead next_perimeter map]. unfold slic3r_says, has.
  destruct (contains "; perimeter external" (raw l)); [reflexivity|].
  destruct (contains "; perimeter" (raw l)); [reflexivity|].
  destruct (contains "; move to first perimeter point" (raw l)); [exact IH|].
  destruct (contains "unretract" (raw l)); exact IH.
Qed.

Definition kind_of (now : option loop) : kind :=
  match now with None => Unknown | Some Plain => Extra | Some _ => External end.

(** the loop being drawn is in force *)
Definition in_force (now carried : option loop) : Prop :=
  match now with Some k => carried = Some k | None => True end.

Definition loop_after (now now1 carried : option loop) : option loop :=
  match now1, now with
  | Some k, _ => Some k
  | None, Some _ => None
  | None, None => carried
  end.

Lemma in_force_after : forall now now1 c, in_force now1 (loop_after now now1 c).
Proof. intros [k|] [k1|] c; cbn; auto. Qed.

Ltac read_marks Hc Hr :=
  rewrite ?app_assoc_s, read_app by (exact Hc || (cbn [In ext_tails] in Hr; decompose [or False] Hr; subst; vm_compute; reflexivity));
  unfold ext_tails in Hr; cbn [In] in Hr; decompose [or False] Hr; subst; reflexivity.

Lemma slic3r_perimeter_reads : forall e s (l l1 : line A) r c,
  contains "stretch-" (raw l) = false -> In r ext_tails -> adds r l l1 ->
  let '(s2, l2) := slic3r_perimeter e s l1 in
  k_kind s2 = (if e then External else Extra) /\
  k_outer s2 = (if e then false else k_outer s) /\
  read_loop c (raw l2) = Some (if e then if k_outer s then Outer else Inner else Plain).
Proof.
  intros e s l l1 r c Hc Hr Ha. unfold slic3r_perimeter. unfold adds in Ha.
  destruct e; cbn [k_kind k_outer set_kind].
  - destruct (kind_eqb (k_kind s) External); destruct (k_outer s); (split; [reflexivity|]); (split; [reflexivity|]);
      unfold mark, mark_with; cbn [raw set_raw]; rewrite Ha; read_marks Hc Hr.
  - destruct (kind_eqb (k_kind s) External); (split; [reflexivity|]); (split; [reflexivity|]);
      unfold mark, mark_with; cbn [raw set_raw]; rewrite Ha; read_marks Hc Hr.
Qed.

Lemma slic3r_kind_reads : forall s (l l1 : line A) rest r now c,
  contains "stretch-" (raw l) = false -> In r ext_tails -> adds r l l1 ->
  k_kind s = kind_of now -> in_force now c ->
  let '(s2, l2) := slic3r_kind s l1 rest in
  let '(now1, first1) := slic3r_step now (k_outer s) (raw l) (map raw rest) in
  k_kind s2 = kind_of now1 /\ k_outer s2 = first1 /\ read_loop c (raw l2) = loop_after now now1 c.
Proof.
  intros s l l1 rest r now c Hc Hr Ha Hk Hf.
  assert (Hsame : read_loop c (raw l1) = c).
  { unfold adds in Ha. rewrite Ha. read_marks Hc Hr. }
  unfold slic3r_kind, slic3r_step, slic3r_says, has. pose proof Ha as Ha'. unfold adds in Ha'.
  rewrite Ha', !(ext_contains _ r) by (exact Hr || (cbn; tauto)).
  destruct (contains "; perimeter external" (raw l)).
  { destruct now as [[ | | ]|]; cbn [kind_of] in Hk; rewrite Hk; cbn [kind_eqb].
    - rewrite Hk. cbn in Hf |- *. subst c. repeat split; assumption.
    - rewrite Hk. cbn in Hf |- *. subst c. repeat split; assumption.
    - pose proof (slic3r_perimeter_reads true s l l1 r c Hc Hr Ha) as H. destruct (slic3r_perimeter true s l1) as [s2 l2].
      destruct H as (H1 & H2 & H3). rewrite H1, H2, H3. destruct (k_outer s); repeat split.
    - pose proof (slic3r_perimeter_reads true s l l1 r c Hc Hr Ha) as H. destruct (slic3r_perimeter true s l1) as [s2 l2].
      destruct H as (H1 & H2 & H3). rewrite H1, H2, H3. destruct (k_outer s); repeat split. }
  destruct (contains "; perimeter" (raw l)).
  { destruct now as [[ | | ]|]; cbn [kind_of] in Hk; rewrite Hk; cbn [kind_eqb].
    3: { rewrite Hk. cbn in Hf |- *. subst c. repeat split; assumption. }
    all: pose proof (slic3r_perimeter_reads false s l l1 r c Hc Hr Ha) as H; destruct (slic3r_perimeter false s l1) as [s2 l2];
      destruct H as (H1 & H2 & H3); rewrite H1, H2, H3; repeat split. }
  destruct (contains "; move to first perimeter point" (raw l)).
  { rewrite ahead_next. destruct (next_perimeter (map raw rest)) as [[|]|].
    - pose proof (slic3r_perimeter_reads true s l l1 r c Hc Hr Ha) as H. destruct (slic3r_perimeter true s l1) as [s2 l2].
      destruct H as (H1 & H2 & H3). rewrite H1, H2, H3. destruct (k_outer s); repeat split.
    - pose proof (slic3r_perimeter_reads false s l l1 r c Hc Hr Ha) as H. destruct (slic3r_perimeter false s l1) as [s2 l2].
      destruct H as (H1 & H2 & H3). rewrite H1, H2, H3. repeat split.
    - rewrite Hk, Hsame. destruct now as [k|]; cbn in Hf |- *; [subst c|]; repeat split. }
  destruct (contains "unretract" (raw l)).
  { rewrite Hk, Hsame. destruct now as [k|]; cbn in Hf |- *; [subst c|]; repeat split. }
  cbn [k_kind k_outer set_kind kind_of]. split; [reflexivity|]. split; [reflexivity|].
  destruct now as [k|]; cbn [loop_after].
  - assert (E : kind_eqb (k_kind s) Unknown = false) by (rewrite Hk; destruct k; reflexivity). rewrite E.
    unfold mark, mark_with. cbn [raw set_raw]. rewrite Ha'. read_marks Hc Hr.
  - rewrite Hk. cbn [kind_of kind_eqb]. exact Hsame.
Qed.

(** the loops in force at the lines, read from the marks *)
Fixpoint read_loops (carried : option loop) (ts : list string) : list (option loop) :=
  match ts with
  | [] => []
  | t :: rest => let c := read_loop carried t in c :: read_loops c rest
  end.

Lemma slic3r_lines_reads : forall (ls : list (line A)) s w s' w' ls' now c,
  unstretched ls -> k_kind s = kind_of now -> in_force now c ->
  slic3r_lines s w ls = Ok (s', w', ls') ->
  read_loops c (map raw ls') = slic3r_layer c now (k_outer s) (map raw ls).
Proof.
  induction ls as [|l t IH]; intros s w s' w' ls' now c Hu Hk Hf H; cbn [slic3r_lines] in H.
  { inversion H; subst. reflexivity. }
  inversion Hu as [|? ? Hl Ht]; subst.
  destruct (mark_extrusion_adds s l) as (r & Hr & Ha & Hk1 & Ho1 & _).
  destruct (mark_extrusion s l) as [s1 l1]. cbn [fst snd] in Ha, Hk1, Ho1.
  pose proof (slic3r_kind_reads s1 l l1 t r now c Hl Hr Ha (eq_trans Hk1 Hk) Hf) as Hs.
  destruct (slic3r_kind s1 l1 t) as [s2 l2]. rewrite Ho1 in Hs.
  cbn [map slic3r_layer]. destruct (slic3r_step now (k_outer s) (raw l) (map raw t)) as [now1 first1].
  destruct Hs as (Hs1 & Hs2 & Hs3).
  destruct (read_width (slic3r_width (raw l2))) as [v|e]; cbn [bind] in H; [|discriminate H].
  destruct (slic3r_lines s2 (or_width v w) t) as [[[s3 w3] t3]|e] eqn:Et; cbn [bind] in H; [|discriminate H].
  inversion H; subst. cbn [map read_loops]. rewrite Hs3. fold (loop_after now now1 c). f_equal.
  eapply IH; [exact Ht|exact Hs1|apply in_force_after|exact Et].
Qed.

(** ** Cura *)

Definition cura_next (o : option (bool * bool)) : option loop :=
  match o with
  | Some (true, true) => Some Outer
  | Some (true, false) => Some Inner
  | Some (false, _) => Some Plain
  | None => None
  end.

Definition inside_of (k : kind) : bool := negb (kind_eqb k Unknown).

Definition cura_tails : list string :=
  [""; " ; stretch-loop-start"; " ; stretch-loop-start stretch-inner-edge-start";
   " ; stretch-loop-start stretch-outer-edge-start"; " ; stretch-loop-stop"; " ; stretch-loop-start ; stretch-loop-stop";
   " ; stretch-loop-start stretch-inner-edge-start ; stretch-loop-stop";
   " ; stretch-loop-start stretch-outer-edge-start ; stretch-loop-stop";
   " ; stretch-loop-start ; stretch-loop-stop ; stretch-loop-stop";
   " ; stretch-loop-start stretch-inner-edge-start ; stretch-loop-stop ; stretch-loop-stop";
   " ; stretch-loop-start stretch-outer-edge-start ; stretch-loop-stop ; stretch-loop-stop"]%string.

Lemma tails_contains : forall n r q s, In r ext_tails -> In q cura_tails -> In n
  ["TYPE:WALL-OUTER"; "TYPE:WALL-INNER"; "TYPE:SKIN"; "TYPE:FILL"]%string ->
  contains n (s ++ (r ++ q)) = contains n s.
Proof.
  intros n r q s Hr Hq Hn. unfold ext_tails in Hr. unfold cura_tails in Hq. cbn [In] in Hr, Hq, Hn.
  decompose [or False] Hr; decompose [or False] Hn; subst; decompose [or False] Hq; subst; apply contains_app_not;
    first [discriminate|vm_compute; reflexivity].
Qed.

(** what the appended marks do to the loop in force *)
Lemma tails_read : forall r q s c, In r ext_tails -> In q cura_tails -> contains "stretch-" s = false ->
  read_loop c (s ++ (r ++ q)) = read_loop c q.
Proof.
  intros r q s c Hr Hq Hc. rewrite read_app; [|exact Hc|].
  - unfold ext_tails in Hr. unfold cura_tails in Hq. cbn [In] in Hr, Hq.
    decompose [or False] Hr; subst; decompose [or False] Hq; subst; reflexivity.
  - unfold ext_tails in Hr. unfold cura_tails in Hq. cbn [In] in Hr, Hq.
    decompose [or False] Hr; subst; decompose [or False] Hq; subst; vm_compute; reflexivity.
Qed.

Lemma stop_loop_adds : forall s (l : line A), let '(s', l') := stop_loop s l in
  k_kind s' = Unknown /\ k_next s' = k_next s /\
  adds (if inside_of (k_kind s) then " ; stretch-loop-stop" else "") l l'.
Proof.
  intros s l. unfold stop_loop, inside_of. cbn [k_kind k_next set_kind]. split; [reflexivity|]. split; [reflexivity|].
  destruct (kind_eqb (k_kind s) Unknown); [apply adds_nil|reflexivity].
Qed.

Lemma adds_trans : forall a b (l1 l2 l3 : line A), adds a l1 l2 -> adds b l2 l3 -> adds (a ++ b) l1 l3.
Proof. unfold adds. intros a b l1 l2 l3 H1 H2. rewrite H2, H1. apply app_assoc_s. Qed.

Lemma cura_kind_reads : forall s (l l1 : line A) r is_last c,
  contains "stretch-" (raw l) = false -> In r ext_tails -> adds r l l1 ->
  (k_next s <> None -> k_kind s = Unknown) ->
  let '(s2, l2) := cura_kind s l1 is_last in
  let inside1 := match cura_next (k_next s) with Some _ => true | None => inside_of (k_kind s) end in
  let '(inside2, next2) := match cura_says (raw l) with
                           | Wall k => (false, Some k) | Fill => (false, None) | Nothing => (inside1, None) end in
  let inside3 := if is_last then false else inside2 in
  inside_of (k_kind s2) = inside3 /\ cura_next (k_next s2) = next2 /\ (k_next s2 <> None -> k_kind s2 = Unknown) /\
  read_loop c (raw l2) = match cura_next (k_next s) with
                         | Some k => Some k
                         | None => if inside_of (k_kind s) && negb inside3 then None else c
                         end.
Proof.
  intros s l l1 r is_last c Hc Hr Ha Hn.
  unfold cura_kind.
  (* the loop that begins *)
  set (first := match k_next s with
                | Some (external, outer) => set_next None (cura_perimeter external outer s l1)
                | None => (s, l1) end).
  assert (H1 : exists q, In q [""; " ; stretch-loop-start"; " ; stretch-loop-start stretch-inner-edge-start";
        " ; stretch-loop-start stretch-outer-edge-start"]%string /\ adds (r ++ q) l (snd first) /\
      k_next (fst first) = None /\
      inside_of (k_kind (fst first)) = match cura_next (k_next s) with Some _ => true | None => inside_of (k_kind s) end /\
      q = match cura_next (k_next s) with
          | Some Plain => " ; stretch-loop-start"
          | Some Inner => " ; stretch-loop-start stretch-inner-edge-start"
          | Some Outer => " ; stretch-loop-start stretch-outer-edge-start"
          | None => "" end%string).
  { unfold first. destruct (k_next s) as [[ex ou]|] eqn:En.
    - assert (Hk : k_kind s = Unknown) by (apply Hn; discriminate).
      unfold cura_perimeter. rewrite Hk. cbn [kind_eqb set_next fst snd k_next k_kind set_kind].
      destruct ex, ou; cbn [cura_next]; eexists; (split; [|split; [|split; [|split; [|reflexivity]]]]);
        try reflexivity; try (cbn; tauto); (eapply adds_trans; [exact Ha|reflexivity]).
    - exists ""%string. cbn [cura_next fst snd]. split; [now left|]. split; [|repeat split; assumption].
      eapply adds_trans; [exact Ha|apply adds_nil]. }
  clearbody first. destruct first as [s1 l1']. cbn [fst snd] in H1.
  destruct H1 as (q & Hq & Ha1 & Hn1 & Hi1 & Eq).
  assert (Hq' : In q cura_tails) by (cbn in Hq |- *; tauto).
  (* the comment *)
  unfold cura_says. unfold has. unfold adds in Ha1. rewrite Ha1, !(tails_contains _ r q) by (assumption || (cbn; tauto)).
  set (inside1 := match cura_next (k_next s) with Some _ => true | None => inside_of (k_kind s) end) in *.
  pose proof (stop_loop_adds s1 l1') as Hstop. destruct (stop_loop s1 l1') as [s1' l1''].
  destruct Hstop as (Hst1 & Hst2 & Hst3). rewrite Hi1 in Hst3.
  assert (Hbranch : forall nx, exists s2 l2,
    set_next nx (s1', l1'') = (s2, l2) /\ k_kind s2 = Unknown /\ k_next s2 = nx /\ l2 = l1'').
  { intros nx. cbn. eexists _, _. repeat split. exact Hst1. }
  assert (Hlast : forall (s2 : mark_state) (l2 : line A) q2 ins, In q2 cura_tails -> adds (r ++ q2) l l2 ->
     inside_of (k_kind s2) = ins -> (ins = true -> s2 = s1 /\ l2 = l1') ->
     (k_next s2 <> None -> k_kind s2 = Unknown) ->
     read_loop c q2 = match cura_next (k_next s) with
                      | Some k => Some k
                      | None => if inside_of (k_kind s) && negb ins then None else c end ->
     let '(s3, l3) := if is_last then stop_loop s2 l2 else (s2, l2) in
     inside_of (k_kind s3) = (if is_last then false else ins) /\ cura_next (k_next s3) = cura_next (k_next s2) /\
     (k_next s3 <> None -> k_kind s3 = Unknown) /\
     read_loop c (raw l3) = match cura_next (k_next s) with
                            | Some k => Some k
                            | None => if inside_of (k_kind s) && negb (if is_last then false else ins) then None else c end).
  { intros s2 l2 q2 ins Hq2 Ha2 Hi2 Hsame Hn2 Hrd. destruct is_last.
    - pose proof (stop_loop_adds s2 l2) as Hs. destruct (stop_loop s2 l2) as [s3 l3]. destruct Hs as (E1 & E2 & E3).
      rewrite E1, E2. split; [reflexivity|]. split; [reflexivity|]. split; [intros _; reflexivity|].
      rewrite Hi2 in E3. destruct ins.
      + destruct (Hsame eq_refl) as [-> ->].
        assert (E4 : raw l3 = (raw l ++ (r ++ (q ++ " ; stretch-loop-stop")))%string).
        { unfold adds in E3. rewrite E3, Ha1. rewrite !app_assoc_s. reflexivity. }
        rewrite E4, tails_read; [|exact Hr|clear - Hq; cbn in Hq |- *; decompose [or False] Hq; subst; cbn; tauto|exact Hc].
        rewrite Eq. unfold inside1 in *. destruct (cura_next (k_next s)) as [[ | | ]|]; try reflexivity.
        rewrite <- Hi1, Hi2. reflexivity.
      + assert (E4 : raw l3 = (raw l ++ (r ++ q2))%string).
        { unfold adds in E3, Ha2. rewrite E3, Ha2. rewrite !app_assoc_s. do 2 f_equal. clear. induction q2; cbn; congruence. }
        rewrite E4, tails_read by assumption. rewrite Hrd. reflexivity.
    - split; [exact Hi2|]. split; [reflexivity|]. split; [exact Hn2|].
      unfold adds in Ha2. rewrite Ha2, tails_read by assumption. exact Hrd. }
  assert (Hend : In (q ++ (if inside1 then " ; stretch-loop-stop" else ""))%string cura_tails).
  { clear - Hq. cbn in Hq. destruct inside1; decompose [or False] Hq; subst; cbn; tauto. }
  assert (Hrd : read_loop c (q ++ (if inside1 then " ; stretch-loop-stop" else "")) =
                match cura_next (k_next s) with
                | Some k => Some k
                | None => if inside_of (k_kind s) && negb false then None else c end).
  { rewrite Eq. unfold inside1. destruct (cura_next (k_next s)) as [[ | | ]|]; try reflexivity.
    destruct (inside_of (k_kind s)); reflexivity. }
  assert (Hfin : forall b : bool, (if b then false else false) = false) by (intros []; reflexivity).
  assert (Hclosed : forall nx, let '(s3, l3) := if is_last then stop_loop (fst (set_next nx (s1', l1''))) l1'' else set_next nx (s1', l1'') in
     inside_of (k_kind s3) = false /\ cura_next (k_next s3) = cura_next nx /\
     (k_next s3 <> None -> k_kind s3 = Unknown) /\
     read_loop c (raw l3) = match cura_next (k_next s) with
                            | Some k => Some k
                            | None => if inside_of (k_kind s) && negb false then None else c end).
  { intros nx.
    pose proof (Hlast (fst (set_next nx (s1', l1''))) l1'' (q ++ (if inside1 then " ; stretch-loop-stop" else ""))%string false) as H.
    cbn [set_next fst k_kind k_next] in H.
    assert (Hi : inside_of (k_kind s1') = false) by (rewrite Hst1; reflexivity).
    assert (Ha3 : adds (r ++ (q ++ (if inside1 then " ; stretch-loop-stop" else ""))) l l1'').
    { unfold adds in *. rewrite Hst3, Ha1, !app_assoc_s. reflexivity. }
    specialize (H Hend Ha3 Hi ltac:(discriminate) (fun _ => Hst1) Hrd).
    cbn [set_next fst]. rewrite Hfin in H. destruct is_last; exact H. }
  destruct (contains "TYPE:WALL-OUTER" (raw l)).
  { specialize (Hclosed (Some (true, true))). cbn [set_next fst] in Hclosed |- *. rewrite Hfin. destruct is_last; exact Hclosed. }
  destruct (contains "TYPE:WALL-INNER" (raw l)).
  { specialize (Hclosed (Some (true, false))). cbn [set_next fst] in Hclosed |- *. rewrite Hfin. destruct is_last; exact Hclosed. }
  destruct (contains "TYPE:SKIN" (raw l)).
  { specialize (Hclosed (Some (false, false))). cbn [set_next fst] in Hclosed |- *. rewrite Hfin. destruct is_last; exact Hclosed. }
  destruct (contains "TYPE:FILL" (raw l)).
  { specialize (Hlast s1' l1'' (q ++ (if inside1 then " ; stretch-loop-stop" else ""))%string false Hend).
    assert (Ha3 : adds (r ++ (q ++ (if inside1 then " ; stretch-loop-stop" else ""))) l l1'').
    { unfold adds in *. rewrite Hst3, Ha1, !app_assoc_s. reflexivity. }
    rewrite Hst1, Hst2, Hn1 in Hlast.
    specialize (Hlast Ha3 eq_refl ltac:(discriminate) ltac:(intros C; contradiction) Hrd). cbn [cura_next] in Hlast.
    exact Hlast. }
  assert (Hrd0 : read_loop c q = match cura_next (k_next s) with
                | Some k => Some k
                | None => if inside_of (k_kind s) && negb inside1 then None else c end).
  { rewrite Eq. unfold inside1. destruct (cura_next (k_next s)) as [[ | | ]|]; try reflexivity.
    destruct (inside_of (k_kind s)); reflexivity. }
  specialize (Hlast s1 l1' q inside1 Hq' Ha1 Hi1 (fun _ => conj eq_refl eq_refl)).
  rewrite Hn1 in Hlast. specialize (Hlast ltac:(intros C; contradiction) Hrd0). cbn [cura_next] in Hlast. exact Hlast.
Qed.

Lemma cura_lines_reads : forall profile (ls : list (line A)) s w s' w' ls' c,
  unstretched ls -> (k_next s <> None -> k_kind s = Unknown) ->
  cura_lines profile s w ls = Ok (s', w', ls') ->
  read_loops c (map raw ls') = cura_layer c (inside_of (k_kind s)) (cura_next (k_next s)) (map raw ls).
Proof.
  intros profile. induction ls as [|l t IH]; intros s w s' w' ls' c Hu Hn H; cbn [cura_lines] in H.
  { inversion H; subst. reflexivity. }
  inversion Hu as [|? ? Hl Ht]; subst.
  destruct (mark_extrusion_adds s l) as (r & Hr & Ha & Hk1 & _ & Hn1).
  destruct (mark_extrusion s l) as [s1 l1]. cbn [fst snd] in Ha, Hk1, Hn1.
  assert (Hn' : k_next s1 <> None -> k_kind s1 = Unknown) by (rewrite Hn1, Hk1; exact Hn).
  pose proof (cura_kind_reads s1 l l1 r (match t with [] => true | _ => false end) c Hl Hr Ha Hn') as Hs.
  destruct (cura_kind s1 l1 (match t with [] => true | _ => false end)) as [s2 l2]. rewrite Hk1, Hn1 in Hs.
  destruct (cura_width profile l2 w) as [w2|e]; cbn [bind] in H; [|discriminate H].
  destruct (cura_lines profile s2 w2 t) as [[[s3 w3] t3]|e] eqn:Et; cbn [bind] in H; [|discriminate H].
  inversion H; subst. cbn [map read_loops cura_layer].
  cbv zeta in Hs. revert Hs.
  destruct (match cura_says (raw l) with Wall k => _ | Fill => _ | Nothing => _ end) as [inside2 next2]. intros Hs.
  destruct Hs as (Hs1 & Hs2 & Hs3 & Hs4).
  replace (match map raw t with [] => false | _ => inside2 end)
    with (if match t with [] => true | _ => false end then false else inside2) by (destruct t; reflexivity).
  rewrite Hs4. f_equal. rewrite (IH _ _ _ _ _ _ Ht Hs3 Et). rewrite Hs1, Hs2. reflexivity.
Qed.

(** ** Skeinforge *)

Lemma skeinforge_reads : forall (l : line A) c, contains "stretch-" (raw l) = false ->
  read_loop c (raw (skeinforge_mark l)) = skeinforge_step c (command l, raw l).
Proof.
  intros l c Hc. unfold skeinforge_mark, skeinforge_step.
  destruct (cmd_is (command l) "M101"); cbn [orb].
  { cbn [mark_with raw set_raw]. rewrite read_app by (exact Hc || (vm_compute; reflexivity)). reflexivity. }
  destruct (cmd_is (command l) "M103"); cbn [orb].
  { cbn [mark_with raw set_raw]. rewrite read_app by (exact Hc || (vm_compute; reflexivity)). reflexivity. }
  destruct (startswith "(<loop>" (raw l)).
  { cbn [mark_with raw set_raw]. rewrite read_app by (exact Hc || (vm_compute; reflexivity)). reflexivity. }
  destruct (startswith "(<edge> outer" (raw l)) eqn:Eo.
  { assert (He : startswith "(<edge>" (raw l) = true).
    { unfold startswith in *. change "(<edge> outer"%string with ("(<edge>" ++ " outer")%string in Eo.
      exact (prefix_of_app _ _ _ Eo). }
    rewrite He. cbn [andb negb]. cbn [mark_with raw set_raw]. rewrite read_app by (exact Hc || (vm_compute; reflexivity)). reflexivity. }
  destruct (startswith "(<edge>" (raw l)); cbn [andb negb].
  { cbn [mark_with raw set_raw]. rewrite read_app by (exact Hc || (vm_compute; reflexivity)). reflexivity. }
  destruct (startswith "(</edge>)" (raw l) || startswith "(</loop>)" (raw l)).
  { cbn [mark_with raw set_raw]. rewrite read_app by (exact Hc || (vm_compute; reflexivity)). reflexivity. }
  apply read_clean, Hc.
Qed.

Lemma skeinforge_lines_reads : forall (ls : list (line A)) w w' ls' c, unstretched ls ->
  skeinforge_lines w ls = Ok (w', ls') ->
  read_loops c (map raw ls') = skeinforge_layer c (map (fun l => (command l, raw l)) ls).
Proof.
  induction ls as [|l t IH]; intros w w' ls' c Hu H; cbn [skeinforge_lines] in H.
  { inversion H; subst. reflexivity. }
  inversion Hu as [|? ? Hl Ht]; subst.
  destruct (read_width (skeinforge_width (raw l))) as [v|e]; cbn [bind] in H; [|discriminate H].
  destruct (skeinforge_lines (or_width v w) t) as [[w1 t1]|e] eqn:Et; cbn [bind] in H; [|discriminate H].
  inversion H; subst. cbn [map read_loops skeinforge_layer]. rewrite skeinforge_reads by exact Hl. f_equal.
  exact (IH _ _ _ _ Ht Et).
Qed.

(** ** Programs *)

Lemma read_loops_app : forall a b c, read_loops c (a ++ b) = read_loops c a ++ read_loops (last (read_loops c a) c) b.
Proof.
  induction a as [|t a IH]; intros b c; [reflexivity|]. cbn [app read_loops]. rewrite IH. cbn [app]. f_equal. f_equal.
  destruct (read_loops (read_loop c t) a) as [|x xs] eqn:E.
  - reflexivity.
  - cbn [last]. f_equal. clear. revert x. induction xs as [|y ys IH]; intros x; [reflexivity|]. cbn [last]. apply IH.
Qed.

Lemma loops_reads : forall profile d (ys ys' : list (layer A)) w c,
  unstretched (lines_of ys) -> setup_filter profile d ys = Ok (w, ys') ->
  read_loops c (map raw (lines_of ys')) = loops d c ys.
Proof.
  intros profile d ys ys' w c Hu H. unfold setup_filter in H. destruct d.
  - destruct (slic3r_layers false None ys) as [[w1 ys1]|e] eqn:E; cbn [bind] in H; [|discriminate H].
    inversion H; subst. clear H. revert Hu E. generalize false (@None (num A)). revert w1 ys' c.
    induction ys as [|y t IH]; intros w1 ys' c b w0 Hu E; cbn [slic3r_layers] in E.
    { inversion E; subst. reflexivity. }
    unfold lines_of in Hu. cbn [map List.concat] in Hu. apply Forall_app in Hu as [Hy Ht].
    destruct (slic3r_lines _ w0 (ly_lines y)) as [[[s w2] ls]|e] eqn:El; cbn [bind] in E; [|discriminate E].
    destruct (slic3r_layers (k_extruding s) w2 t) as [[w3 t3]|e] eqn:Et; cbn [bind] in E; [|discriminate E].
    inversion E; subst. unfold lines_of. cbn [map List.concat ly_lines set_ly_lines]. rewrite map_app, read_loops_app.
    cbn [loops layer_loops]. unfold texts.
    rewrite (slic3r_lines_reads _ (MarkState b Unknown true None) _ _ _ _ None c Hy eq_refl I El). cbn [k_outer]. f_equal. exact (IH _ _ _ _ _ Ht Et).
  - destruct (cura_layers profile false (false, None) ys) as [[[found w1] ys1]|e] eqn:E; cbn [bind] in H; [|discriminate H].
    inversion H; subst. clear H. revert Hu E. generalize (found, w1). generalize false at 1. generalize (false, @None (num A)).
    revert ys' c. clear found w1.
    induction ys as [|y t IH]; intros ys' c w0 b w1 Hu E; cbn [cura_layers] in E.
    { inversion E; subst. reflexivity. }
    unfold lines_of in Hu. cbn [map List.concat] in Hu. apply Forall_app in Hu as [Hy Ht].
    destruct (cura_lines profile _ w0 (ly_lines y)) as [[[s w2] ls]|e] eqn:El; cbn [bind] in E; [|discriminate E].
    destruct (cura_layers profile (k_extruding s) w2 t) as [[w3 t3]|e] eqn:Et; cbn [bind] in E; [|discriminate E].
    inversion E; subst. unfold lines_of. cbn [map List.concat ly_lines set_ly_lines]. rewrite map_app, read_loops_app.
    cbn [loops layer_loops]. unfold texts.
    rewrite (cura_lines_reads _ _ (MarkState b Unknown true None) _ _ _ _ c Hy (fun _ => eq_refl) El). cbn [k_kind k_next]. f_equal. exact (IH _ _ _ _ _ Ht Et).
  - revert Hu H. generalize (@None (num A)). revert ys' w c.
    induction ys as [|y t IH]; intros ys' w c w0 Hu E; cbn [skeinforge_layers] in E.
    { inversion E; subst. reflexivity. }
    unfold lines_of in Hu. cbn [map List.concat] in Hu. apply Forall_app in Hu as [Hy Ht].
    destruct (skeinforge_lines w0 (ly_lines y)) as [[w2 ls]|e] eqn:El; cbn [bind] in E; [|discriminate E].
    destruct (skeinforge_layers w2 t) as [[w3 t3]|e] eqn:Et; cbn [bind] in E; [|discriminate E].
    inversion E; subst. unfold lines_of. cbn [map List.concat ly_lines set_ly_lines]. rewrite map_app, read_loops_app.
    cbn [loops layer_loops]. rewrite (skeinforge_lines_reads _ _ _ _ c Hy El). f_equal. exact (IH _ _ _ _ Ht Et).
Qed.

Lemma read_loops_nth : forall ts before k x, nth_error (read_loops (loop_of before) ts) k = Some x ->
  loop_of (rev (firstn (S k) ts) ++ before) = x.
Proof.
  induction ts as [|t ts IH]; intros before k x H; [destruct k; discriminate H|].
  cbn [read_loops] in H. rewrite <- loop_of_read in H. destruct k as [|k].
  - cbn in H. inversion H; subst. reflexivity.
  - cbn [nth_error] in H. apply IH in H. cbn [firstn rev] in *. rewrite <- app_assoc. exact H.
Qed.

(** C65 *)
Lemma marks_follow : forall profile d (g : gcode A) w ms, unstretched (all_lines g) -> marking profile d g w ms ->
  forall k c, nth_error (loops d None (g_layers g)) k = Some c -> loop_of (map raw (upto k ms)) = c.
Proof.
  intros profile d g w ms Hu (ys & Hs & ->) k c Hk. rewrite <- lines_of_all in Hu.
  rewrite <- (loops_reads _ _ _ _ _ None Hu Hs) in Hk.
  apply (read_loops_nth _ []) in Hk. rewrite app_nil_r in Hk. unfold upto. rewrite <- Hk, map_rev, firstn_map. reflexivity.
Qed.

Lemma loops_length : forall d (ys : list (layer A)) c, List.length (loops d c ys) = List.length (lines_of ys).
Proof.
  intros d. induction ys as [|y t IH]; intros c; [reflexivity|]. cbn [loops]. unfold lines_of. cbn [map List.concat].
  rewrite !app_length, IH. f_equal. destruct d; cbn [layer_loops]; unfold texts.
  - generalize (@None loop) true. revert c. induction (ly_lines y) as [|l ls IHl]; intros c n f; [reflexivity|].
    cbn [map slic3r_layer]. destruct (slic3r_step n f (raw l) (map raw ls)). cbn [List.length]. f_equal. apply IHl.
  - generalize false (@None loop). revert c. induction (ly_lines y) as [|l ls IHl]; intros c i n; [reflexivity|].
    cbn [map cura_layer]. destruct (match cura_says (raw l) with Wall _ => _ | Fill => _ | Nothing => _ end).
    cbn [List.length]. f_equal. apply IHl.
  - revert c. induction (ly_lines y) as [|l ls IHl]; intros c; [reflexivity|]. cbn. f_equal. apply IHl.
Qed.

End P.

(** ** The profile of Cura *)

Lemma strip_prefix_none : forall p s, strip_prefix p s = None <-> startswith p s = false.
Proof.
  unfold startswith. induction p as [|c p IH]; intros s; [rewrite prefix_nil; cbn; split; discriminate|].
  destruct s as [|d s]; [cbn; split; reflexivity|]. rewrite prefix_cons. cbn [strip_prefix].
  destruct (Ascii.eqb c d); [apply IH|split; reflexivity].
Qed.

Lemma marked_profile : forall s t, marked s t ->
  startswith ";CURA_PROFILE_STRING:" t = startswith ";CURA_PROFILE_STRING:" s.
Proof.
  unfold startswith. intros s t H. induction H as [|s t sep r H IH Hs Hr]; [reflexivity|]. rewrite <- IH.
  assert (Ha : apart ";CURA_PROFILE_STRING:" (sep ++ r) = true /\ String.prefix ";CURA_PROFILE_STRING:" (sep ++ r) = false).
  { unfold remarks in Hr. cbn [In] in Hs, Hr. decompose [or False] Hs; subst; decompose [or False] Hr; subst;
      split; vm_compute; reflexivity. }
  destruct Ha as [Ha Hp]. destruct t as [|c t].
  - change ("" ++ sep ++ r)%string with (sep ++ r)%string. rewrite Hp. reflexivity.
  - apply prefix_app_apart; [discriminate|exact Ha].
Qed.

Section Width.
Context {A : arith}.

Lemma cura_lines_width : forall profile (ls : list (line A)) s w,
  Forall (fun l => startswith ";CURA_PROFILE_STRING:" (raw l) = false) ls ->
  exists s' ls', cura_lines profile s w ls = Ok (s', w, ls').
Proof.
  intros profile. induction ls as [|l t IH]; intros s w H; cbn [cura_lines]; [eauto|].
  inversion H as [|? ? Hl Ht]; subst.
  pose proof (mark_extrusion_marked s l) as H1. destruct (mark_extrusion s l) as [s1 l1]. cbn [snd] in H1.
  set (b := match t with [] => true | _ => false end). pose proof (cura_kind_marked s1 l1 b) as H2.
  destruct (cura_kind s1 l1 b) as [s2 l2]. cbn [snd] in H2.
  pose proof (marked_line_trans _ _ _ H1 H2) as [_ H3]. apply marked_profile in H3. rewrite Hl in H3.
  unfold cura_width, cura_profile. apply strip_prefix_none in H3. rewrite H3. cbn [bind].
  destruct (IH s2 w Ht) as (s' & ls' & E). rewrite E. cbn [bind]. eauto.
Qed.

Lemma cura_layers_width : forall profile (ys : list (layer A)) b w,
  Forall (fun l => startswith ";CURA_PROFILE_STRING:" (raw l) = false) (lines_of ys) ->
  exists ys', cura_layers profile b w ys = Ok (w, ys').
Proof.
  intros profile. induction ys as [|y t IH]; intros b w H; cbn [cura_layers]; [eauto|].
  unfold lines_of in H. cbn [map List.concat] in H. apply Forall_app in H as [Hy Ht].
  destruct (cura_lines_width profile (ly_lines y) (MarkState b Unknown true None) w Hy) as (s & ls & E).
  rewrite E. cbn [bind]. destruct (IH (k_extruding s) w Ht) as (ys' & E'). rewrite E'. cbn [bind]. eauto.
Qed.

Lemma cura_setup : forall profile (g : gcode A),
  Forall (fun l => startswith ";CURA_PROFILE_STRING:" (raw l) = false) (all_lines g) ->
  exists ys, setup_filter profile Cura (g_layers g) = Ok (Some (lit 4 1), ys).
Proof.
  intros profile g H. rewrite <- lines_of_all in H. unfold setup_filter.
  destruct (cura_layers_width profile (g_layers g) false (false, None) H) as (ys & E). rewrite E. cbn. eauto.
Qed.
End Width.

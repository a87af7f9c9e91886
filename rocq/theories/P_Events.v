(** * P_Events: lemmas about callbacks and repeated loading *)
From Coq Require Import List String ZArith NArith Bool Lia Reals.
From Verif Require Import PyBase Arith ArithB64 Gcoder Events SpecText SpecLoad SpecMachine SpecEvents Samples.
From Verif Require Import P_Load P_Machine P_MachineRefuted.
Import ListNotations.
Local Open Scope list_scope.

Section Events.
Context {A : arith}.

Fixpoint closed {T : Type} (i : nat) (bs : list (list T)) : list (event T) :=
  match bs with
  | [] => []
  | b :: t => map LineDone b ++ LayerDone i :: closed (S i) t
  end.

Lemma closed_app : forall T (a : list (list T)) i b, closed i (a ++ [b]) =
  closed i a ++ map LineDone b ++ [LayerDone (i + List.length a)].
Proof.
  intros T a. induction a as [|x a IH]; intros i b; cbn [app closed List.length].
  - rewrite Nat.add_0_r. reflexivity.
  - rewrite IH. rewrite <- !app_assoc. cbn [app]. rewrite <- Nat.add_succ_comm. reflexivity.
Qed.

Lemma announced_closed : forall T (a : list (list T)) i b, announced i (a ++ [b]) = closed i a ++ map LineDone b.
Proof.
  intros T a. induction a as [|x a IH]; intros i b; [reflexivity|].
  cbn [app closed]. rewrite <- app_assoc. cbn [app]. rewrite <- IH.
  destruct (a ++ [b]) eqn:E; [destruct a; discriminate E|]. reflexivity.
Qed.

Lemma calls_step : forall light st t st' es,
  build_step_calls (A:=A) light st t = Ok (st', es) -> build_step light st t = Ok st'.
Proof.
  intros light [[s ls] out] t st' es H. unfold build_step_calls in H. unfold build_step.
  destruct (motion_step s t) as [[s' l]|]; cbn [bind] in *; [|discriminate H].
  destruct (match command l with Some _ => layer_body l (m_max s') ls | None => Ok ls end); cbn [bind] in *; [|discriminate H].
  injection H as <- _. reflexivity.
Qed.

Lemma step_calls : forall light st t st',
  build_step (A:=A) light st t = Ok st' -> exists es, build_step_calls light st t = Ok (st', es).
Proof.
  intros light [[s ls] out] t st' H. unfold build_step_calls. unfold build_step in H.
  destruct (motion_step s t) as [[s' l]|]; cbn [bind] in *; [|discriminate H].
  destruct (match command l with Some _ => layer_body l (m_max s') ls | None => Ok ls end); cbn [bind] in *; [|discriminate H].
  injection H as <-. eexists. reflexivity.
Qed.

(** what has been said when the state is [ls] *)
Definition said {T} (f : line A -> T) (ls : lstate A) : list (event T) :=
  closed 0 (map (fun y => map f (ly_lines y)) (ls_layers ls)) ++ map LineDone (map f (ls_cur ls)).

Lemma update_layers_said : forall T (f : line A -> T) s,
  said f (update_layers s) = said f s ++
    (if Nat.ltb (List.length (ls_layers s)) (List.length (ls_layers (update_layers s)))
     then [LayerDone (List.length (ls_layers (update_layers s)) - 1)] else []).
Proof.
  intros T f s. unfold update_layers. destruct (opt_eqb _ _).
  { rewrite Nat.ltb_irrefl, app_nil_r. reflexivity. }
  destruct (compute_base_z s) as [base est].
  destruct (match ls_prev_base s with Some b => opt_eqb base b | None => false end); cbn [ls_layers].
  { rewrite Nat.ltb_irrefl, app_nil_r. reflexivity. }
  rewrite app_length. cbn [List.length].
  replace (Nat.ltb _ _) with true by (symmetry; apply Nat.ltb_lt; lia).
  unfold said. cbn [ls_layers ls_cur]. rewrite map_app. cbn [map ly_lines].
  rewrite closed_app, map_length, app_nil_r, <- app_assoc.
  replace (List.length (ls_layers s) + 1 - 1)%nat with (0 + List.length (ls_layers s))%nat by lia. reflexivity.
Qed.

Lemma layer_body_said : forall T (f : line A -> T) l mx s s', layer_body l mx s = Ok s' ->
  said f s' = said f s ++
    (if Nat.ltb (List.length (ls_layers s)) (List.length (ls_layers s'))
     then [LayerDone (List.length (ls_layers s') - 1)] else []).
Proof.
  intros T f l mx s s' H. unfold layer_body in H. destruct (update_bbox l mx s) as [bb bbe].
  destruct (update_duration l (ls_d s)) as [d|]; cbn [bind] in H; [|discriminate H]. injection H as <-.
  rewrite update_layers_said. reflexivity.
Qed.

Lemma build_step_said : forall T (f : line A -> T) light s ls out t s' ls' out' es,
  (light = true -> forall l : line A, f l = f (new_line (raw l))) ->
  build_step_calls light (s, ls, out) t = Ok (s', ls', out', es) ->
  said f ls' = said f ls ++ map (event_map f) es /\ ls_cur ls' <> [].
Proof.
  intros T f light s ls out t s' ls' out' es Hf H. unfold build_step_calls in H.
  destruct (motion_step s t) as [[s1 l]|] eqn:Em; cbn [bind] in H; [|discriminate H].
  pose proof (motion_step_raw _ _ _ _ Em) as Hr.
  destruct (match command l with Some _ => layer_body l (m_max s1) ls | None => Ok ls end) as [ls1|] eqn:El;
    cbn [bind] in H; [|discriminate H].
  injection H as <- <- <- <-.
  assert (Hst : f (if light then new_line (raw t) else l) = f l).
  { destruct light; [|reflexivity]. rewrite <- Hr. symmetry. apply Hf. reflexivity. }
  assert (H1 : said f ls1 = said f ls ++
    (if Nat.ltb (List.length (ls_layers ls)) (List.length (ls_layers ls1))
     then [LayerDone (List.length (ls_layers ls1) - 1)] else [])).
  { destruct (command l); [eapply layer_body_said, El|]. injection El as <-.
    rewrite Nat.ltb_irrefl, app_nil_r. reflexivity. }
  split.
  - assert (Hp : said f (push_line (if light then new_line (raw t) else l) ls1) = said f ls1 ++ [LineDone (f l)]).
    { unfold said, push_line. cbn [ls_layers ls_cur]. rewrite !map_app. cbn [map]. rewrite Hst, app_assoc. reflexivity. }
    rewrite Hp, H1, <- app_assoc, map_app. f_equal. f_equal.
    destruct (Nat.ltb _ _); reflexivity.
  - unfold push_line. cbn [ls_cur]. intros E. symmetry in E. apply app_cons_not_nil in E. exact E.
Qed.

Lemma fold_said : forall T (f : line A -> T) light,
  (light = true -> forall l : line A, f l = f (new_line (raw l))) ->
  forall ts s ls out s' ls' out',
  foldM (build_step light) ts (s, ls, out) = Ok (s', ls', out') ->
  said f ls' = said f ls ++ map (event_map f) (calls light (s, ls, out) ts) /\ (ts <> [] -> ls_cur ls' <> []).
Proof.
  intros T f light Hf ts. induction ts as [|t ts IH]; intros s ls out s' ls' out' H; cbn [foldM calls] in *.
  - injection H as <- <- <-. cbn [map]. rewrite app_nil_r. split; [reflexivity|]. intros E. contradiction.
  - destruct (build_step light (s, ls, out) t) as [[[s1 ls1] out1]|] eqn:E; cbn [bind] in H; [|discriminate H].
    destruct (step_calls _ _ _ _ E) as (es & Ec). rewrite Ec.
    destruct (build_step_said T f _ _ _ _ _ _ _ _ _ Hf Ec) as (H1 & H2).
    destruct (IH _ _ _ _ _ _ H) as (H3 & H4). split.
    + rewrite H3, H1, map_app, app_assoc. reflexivity.
    + intros _. destruct ts as [|u ts]; [|apply H4; discriminate].
      cbn [foldM] in H. injection H as _ <- _. exact H2.
Qed.

Lemma load_announced : forall T (f : line A -> T) light home data (g : gcode A),
  (light = true -> forall l : line A, f l = f (new_line (raw l))) ->
  load_gen light home data = Ok g -> exists Y, g_layers g = Y ++ [Layer [] None n0] /\
    map (event_map f) (load_calls light home data) = announced 0 (map (fun y => map f (ly_lines y)) Y).
Proof.
  intros T f light home data g Hf H. unfold load_gen in H. unfold load_calls.
  destruct data as [|s0 data].
  { injection H as <-. exists []. split; reflexivity. }
  destruct (foldM _ _ _) as [[[m ls] out]|] eqn:E; cbn [bind] in H; [|discriminate H]. injection H as <-.
  destruct (fold_said T f light Hf _ _ _ _ _ _ _ E) as (H1 & H2).
  unfold said in H1 at 2. cbn [init_lstate ls_layers ls_cur map closed app] in H1. rewrite <- H1.
  unfold finalize. destruct (ls_cur ls) as [|c cs] eqn:Ec.
  - assert (Hn : map (new_line (A:=A)) (clean_lines (s0 :: data)) = []).
    { destruct (map (new_line (A:=A)) (clean_lines (s0 :: data))); [reflexivity|]. exfalso. apply H2; [discriminate|reflexivity]. }
    rewrite Hn in E. cbn [foldM] in E. injection E as <- <- <-. exists []. split; reflexivity.
  - eexists. split; [cbn [g_layers]; reflexivity|]. unfold said. rewrite Ec, map_app. cbn [map ly_lines].
    rewrite announced_closed. reflexivity.
Qed.

Lemma layers_seen_app : forall T (a b : list (event T)), layers_seen (a ++ b) = layers_seen a ++ layers_seen b.
Proof. intros T a b. induction a as [|[i|l] a IH]; cbn; rewrite ?IH; reflexivity. Qed.

Lemma layers_seen_lines : forall T (b : list T), layers_seen (map LineDone b) = [].
Proof. intros T b. induction b as [|x b IH]; [reflexivity|exact IH]. Qed.

Lemma announced_layers : forall T (bs : list (list T)) i, layers_seen (announced i bs) = seq i (List.length bs - 1).
Proof.
  intros T bs. induction bs as [|b bs IH]; intros i; [reflexivity|]. destruct bs as [|c bs].
  - cbn [announced List.length]. rewrite layers_seen_lines. reflexivity.
  - change (announced i (b :: c :: bs)) with (map LineDone b ++ LayerDone i :: announced (S i) (c :: bs)).
    rewrite layers_seen_app, layers_seen_lines. cbn [app layers_seen]. rewrite IH. cbn [List.length].
    rewrite !Nat.sub_succ, !Nat.sub_0_r. reflexivity.
Qed.

Lemma event_map_layers : forall T U (f : T -> U) es, layers_seen (map (event_map f) es) = layers_seen es.
Proof. intros T U f es. induction es as [|[i|l] es IH]; cbn; rewrite ?IH; reflexivity. Qed.

Lemma load_calls_layers : forall light home data (g : gcode A), load_gen light home data = Ok g ->
  layers_seen (load_calls light home data) = seq 0 (List.length (g_layers g) - 2).
Proof.
  intros light home data g H.
  destruct (load_announced string raw light home data g ltac:(reflexivity) H) as (Y & H1 & H2).
  rewrite <- (event_map_layers _ _ raw), H2, announced_layers, map_length, H1, app_length. cbn [List.length].
  f_equal. lia.
Qed.

Lemma event_map_id : forall T (es : list (event T)), map (event_map (fun x => x)) es = es.
Proof. intros T es. induction es as [|[i|l] es IH]; cbn; rewrite ?IH; reflexivity. Qed.

Lemma load_calls_heavy : forall home data (g : gcode A), load_gen false home data = Ok g ->
  exists Y, g_layers g = Y ++ [Layer [] None n0] /\ load_calls false home data = announced 0 (map ly_lines Y).
Proof.
  intros home data g H.
  destruct (load_announced (line A) (fun l => l) false home data g ltac:(discriminate) H) as (Y & H1 & H2).
  exists Y. split; [exact H1|]. rewrite event_map_id in H2. rewrite H2. f_equal. apply map_ext.
  intros y. apply map_id.
Qed.

Lemma load_calls_text : forall light home data (g : gcode A), load_gen light home data = Ok g ->
  exists Y, g_layers g = Y ++ [Layer [] None n0] /\
    map (event_map raw) (load_calls light home data) = announced 0 (map (fun y => map raw (ly_lines y)) Y).
Proof. intros light home data g H. apply load_announced; [reflexivity|exact H]. Qed.

(** ** Exceptions *)

Lemma lines_seen_app : forall T (a b : list (event T)), lines_seen (a ++ b) = lines_seen a ++ lines_seen b.
Proof. intros T a b. induction a as [|[i|l] a IH]; cbn; rewrite ?IH; reflexivity. Qed.

Lemma calls_prefix : forall light ts st, exists n,
  map raw (lines_seen (calls (A:=A) light st ts)) = firstn n (map raw ts) /\
  (is_ok (foldM (build_step light) ts st) = true <-> n = List.length ts).
Proof.
  intros light ts. induction ts as [|t ts IH]; intros st; cbn [calls foldM].
  - exists 0%nat. split; [reflexivity|]. split; reflexivity.
  - destruct (build_step_calls light st t) as [[st' es]|] eqn:E.
    + rewrite (calls_step _ _ _ _ _ E). cbn [bind]. destruct (IH st') as (n & H1 & H2).
      exists (S n). rewrite lines_seen_app, map_app, H1. split.
      * destruct st as [[s ls] out]. unfold build_step_calls in E.
        destruct (motion_step s t) as [[s1 l]|] eqn:Em; cbn [bind] in E; [|discriminate E].
        destruct (match command l with Some _ => layer_body l (m_max s1) ls | None => Ok ls end) as [ls1|]; cbn [bind] in E; [|discriminate E].
        injection E as _ <-. rewrite lines_seen_app. cbn [lines_seen firstn map].
        rewrite <- (motion_step_raw _ _ _ _ Em). destruct (Nat.ltb _ _); reflexivity.
      * rewrite H2. cbn [List.length]. lia.
    + exists 0%nat. split; [reflexivity|]. destruct (build_step light st t) as [st'|] eqn:Eb.
      * destruct (step_calls _ _ _ _ Eb) as (es & Ee). rewrite Ee in E. discriminate E.
      * cbn. split; [discriminate|lia].
Qed.

Lemma load_calls_prefix : forall light home data, exists n,
  map raw (lines_seen (load_calls (A:=A) light home data)) = firstn n (program_text data) /\
  (is_ok (load_gen (A:=A) light home data) = true <-> n = List.length (program_text data)).
Proof.
  intros light home data. unfold load_calls, load_gen. destruct data as [|s0 data].
  { exists 0%nat. split; [reflexivity|]. split; reflexivity. }
  rewrite clean_lines_text.
  destruct (calls_prefix light (map new_line (program_text (s0 :: data))) (init_mstate home, init_lstate, [])) as (n & H1 & H2).
  exists n. rewrite map_raw_new in H1. split; [exact H1|].
  rewrite map_length in H2. rewrite <- H2.
  destruct (foldM _ _ _) as [[[m ls] out]|]; reflexivity.
Qed.

(** ** Loading again *)

Lemma prepare_new : forall light home data,
  prepare (A:=A) (deferred light) (Some home) data = load_gen light home data.
Proof. intros light [[hx hy] hz] data. destruct data; reflexivity. Qed.

Lemma prepare_consistent : forall (g g' : gcode A) home data, prepare g home data = Ok g' ->
  write g' = program_text data /\ consistent g'.
Proof.
  intros g g' home data H. unfold prepare in H. destruct data as [|s0 data].
  { injection H as <-. split; [reflexivity|]. repeat split. }
  destruct (foldM _ _ _) as [[[m ls] out]|] eqn:E; cbn [bind] in H; [|discriminate H]. injection H as <-.
  assert (Hc : consistent (finalize (g_light g) m ls out)).
  { apply finalize_consistent. eapply build_linv; [exact E|]. cbn [fst snd]. repeat split. }
  split; [|exact Hc]. rewrite (consistent_write _ Hc).
  replace (g_lines (finalize (g_light g) m ls out)) with out by (unfold finalize; destruct (ls_cur ls); reflexivity).
  pose proof (build_raw _ _ _ _ _ _ E) as Hr. cbn [snd map app] in Hr.
  rewrite Hr, map_raw_new. apply clean_lines_text.
Qed.

Lemma build_trace : forall light ts (m m' : mstate A) ls ls' out out',
  foldM (build_step light) (map new_line ts) (m, ls, out) = Ok (m', ls', out') ->
  exists ll, trace m ts ll m' /\ (light = false -> out' = out ++ ll).
Proof.
  intros light ts. induction ts as [|t ts IH]; intros m m' ls ls' out out' H; cbn [map foldM] in H.
  - injection H as <- _ <-. exists []. split; [constructor|]. intros _. symmetry. apply app_nil_r.
  - destruct (build_step light (m, ls, out) (new_line t)) as [st|] eqn:Eb; cbn [bind] in H; [|discriminate H].
    unfold build_step in Eb.
    destruct (motion_step m (new_line t)) as [[m1 l]|] eqn:E; cbn [bind] in Eb; [|discriminate Eb].
    destruct (match command l with Some _ => layer_body l (m_max m1) ls | None => Ok ls end) as [ls1|]; cbn [bind] in Eb; [|discriminate Eb].
    injection Eb as <-.
    apply IH in H as (ll & H1 & H2). exists (l :: ll). split; [econstructor; eassumption|].
    intros Hl. rewrite (H2 Hl), Hl, <- app_assoc. reflexivity.
Qed.

Lemma prepare_trace : forall (g g' : gcode A) home data, prepare g home data = Ok g' ->
  exists ll, trace (set_home home (g_m g)) (program_text data) ll (g_m g') /\
    (g_light g = false -> g_lines g' = ll).
Proof.
  intros g g' home data H. unfold prepare in H. destruct data as [|s0 data].
  { injection H as <-. exists []. split; [constructor|]. reflexivity. }
  destruct (foldM _ _ _) as [[[m ls] out]|] eqn:E; cbn [bind] in H; [|discriminate H]. injection H as <-.
  rewrite clean_lines_text in E. apply build_trace in E as (ll & H1 & H2). exists ll.
  unfold finalize. destruct (ls_cur ls); cbn [g_m g_lines]; split; assumption.
Qed.

Lemma run_app : forall a b k, run (a ++ b) k = run b (run a k).
Proof. intros a b k. unfold run. apply fold_left_app. Qed.

Variable E : exact A.

Lemma prepare_tracks : forall light home first (g : gcode A) second g',
  load_gen light home first = Ok g -> prepare g None second = Ok g' ->
  Forall clear_words (program_text first) -> Forall clear_words (program_text second) ->
  tracks E (g_m g') (run (program_text first ++ program_text second) (start (home_of E home))) /\
  (light = false -> forall i l, nth_error (g_lines g') i = Some l -> command l <> None ->
     notes_head E l (run (program_text first ++ firstn (S i) (program_text second)) (start (home_of E home)))).
Proof.
  intros light home first g second g' H1 H2 C1 C2.
  destruct (load_tracks E _ _ _ _ H1 C1) as (T & _).
  assert (Hl : g_light g = light).
  { unfold load_gen in H1. destruct first; [injection H1 as <-; reflexivity|].
    destruct (foldM _ _ _) as [[[m ls] out]|]; cbn [bind] in H1; [|discriminate H1]. injection H1 as <-.
    unfold finalize. destruct (ls_cur ls); reflexivity. }
  apply prepare_trace in H2 as (ll & Ht & Hll). cbn [set_home] in Ht.
  destruct (trace_tracks E _ _ _ _ Ht C2 _ T) as (T1 & T2). rewrite run_app. split; [exact T1|].
  intros Hf i l Hi Hc. rewrite run_app. rewrite Hll in Hi by congruence. apply (T2 i l Hi Hc).
Qed.

End Events.

(** *** Witnesses *)

Definition twice (a b : list string) : gcode B64 :=
  get empty_program (prepare (loadF a) None b).
Lemma twice_ok : forall a b, is_ok (prepare (loadF a) None b) = true -> prepare (loadF a) None b = Ok (twice a b).
Proof. intros a b H. apply is_ok_get, H. Qed.

(** the second program is read in relative coordinates *)
Lemma prepare_leaks_refuted : exists g g' h : gcode B64,
  load_gen false home0 ["G91"; "G1 X1"; "G1 X1"]%string = Ok g /\
  prepare g None ["G1 X5 E1"; "G1 X6 E2"]%string = Ok g' /\
  load_gen false home0 ["G1 X5 E1"; "G1 X6 E2"]%string = Ok h /\
  n_eqb (g_xmax g') (lit 13 0) = true /\ n_eqb (g_xmax h) (lit 6 0) = true /\
  n_eqb (g_filament g') (lit 3 0) = true /\ n_eqb (g_filament h) (lit 2 0) = true.
Proof.
  exists (loadF ["G91"; "G1 X1"; "G1 X1"]%string), (twice ["G91"; "G1 X1"; "G1 X1"]%string ["G1 X5 E1"; "G1 X6 E2"]%string),
    (loadF ["G1 X5 E1"; "G1 X6 E2"]%string).
  split; [apply loadF_ok; vm_compute; reflexivity|]. split; [apply twice_ok; vm_compute; reflexivity|].
  split; [apply loadF_ok; vm_compute; reflexivity|]. repeat split; vm_compute; reflexivity.
Qed.

(** the last layer is not announced *)
Lemma last_layer_refuted : exists g : gcode B64,
  load_gen false home0 cube = Ok g /\ List.length (g_layers g) = 4 /\
  layers_seen (load_calls (A:=B64) false home0 cube) = [0; 1].
Proof.
  exists cubeF. split; [exact cubeF_loaded|]. split; vm_compute; reflexivity.
Qed.

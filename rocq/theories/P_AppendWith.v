(** * P_AppendWith: commands that are tracked but not stored (C126) *)
From Coq Require Import List ZArith Bool String Lia.
From Verif Require Import PyBase Arith ArithB64 Gcoder SpecText SpecLoad Append SpecAppend Samples P_Load P_Edit P_Append.
Import ListNotations.
Local Open Scope list_scope.

Section Any.
Context {A : arith}.

Lemma stored_append : forall cmd (g : gcode A),
  append cmd g = match append_with true cmd g with Ok (g', _) => Ok g' | Err e => Err e end.
Proof.
  intros cmd g. unfold append, append_with. destruct (is_empty (strip cmd)); [reflexivity|].
  destruct (motion_step (g_m g) (new_line (strip cmd))) as [[m l]|e]; cbn [bind]; [|reflexivity].
  destruct (nth_error (g_layers g) (g_append_id g)); reflexivity.
Qed.

Lemma unstored : forall cmd (g g' : gcode A) r, append_with false cmd g = Ok (g', r) ->
  g' = set_mstate (g_m g') g.
Proof.
  intros cmd g g' r H. unfold append_with in H. destruct (is_empty (strip cmd)); [injection H as <- _; destruct g; reflexivity|].
  destruct (motion_step (g_m g) (new_line (strip cmd))) as [[m l]|e]; cbn [bind] in H; [|discriminate H].
  injection H as <- _. reflexivity.
Qed.

Lemma unstored_agrees : forall cmd (g : gcode A), used g ->
  match append_with false cmd g, append_with true cmd g with
  | Ok (g1, r1), Ok (g2, r2) => g_m g1 = g_m g2 /\ r1 = r2
  | Err e1, Err e2 => e1 = e2
  | _, _ => False
  end.
Proof.
  intros cmd g Hg. destruct (used_append_last g Hg) as (Y & y & HY & Hid).
  unfold append_with. destruct (is_empty (strip cmd)); [split; reflexivity|].
  destruct (motion_step (g_m g) (new_line (strip cmd))) as [[m l]|e]; cbn [bind]; [|reflexivity].
  rewrite HY, Hid, nth_error_app2, Nat.sub_diag by lia. cbn [nth_error]. split; reflexivity.
Qed.

Lemma session_mstep : forall calls (g : gcode A) out m' out', append_last g ->
  foldM (mstep (g_light g)) (map new_line (program_text (sent calls))) (g_m g, out) = Ok (m', out') ->
  exists g' news, session calls g = Ok g' /\ g_m g' = m' /\ out' = out ++ news /\
    g_lines g' = g_lines g ++ chosen calls news /\ write g' = write g ++ program_text (to_store calls).
Proof.
  unfold session, sent, to_store. induction calls as [|[store c] calls IH]; intros g out m' out' Hg H.
  - cbn in H. injection H as <- <-. exists g, []. cbn [foldM chosen filter map program_text].
    unfold program_text. cbn [filter map]. rewrite !app_nil_r.
    apply conj; [reflexivity|]. apply conj; [reflexivity|]. apply conj; [reflexivity|]. apply conj; reflexivity.
  - cbn [foldM map snd fst chosen] in *. unfold program_text in H. cbn [filter map] in H. destruct (blank c) eqn:Hb; cbn [negb] in H.
    + unfold append_with at 1. rewrite is_empty_strip, Hb. cbn [bind].
      destruct (IH g out m' out' Hg H) as (g' & news & E & H2 & H3 & H4 & H5). exists g', news.
      apply conj; [exact E|]. apply conj; [exact H2|]. apply conj; [exact H3|]. apply conj; [exact H4|].
      rewrite H5. f_equal. cbn [filter fst]. destruct store; [|reflexivity]. unfold program_text. cbn [map snd filter]. rewrite Hb. reflexivity.
    + cbn [map foldM] in H. unfold mstep in H at 1. cbn [fst snd] in H.
      destruct (motion_step (g_m g) (new_line (strip c))) as [[m l]|e] eqn:Em; cbn [bind fst snd] in H; [|discriminate H].
      destruct (append_with store c g) as [[g1 r1]|e] eqn:E.
      2:{ exfalso. unfold append_with in E. rewrite is_empty_strip, Hb, Em in E. cbn [bind] in E.
          destruct Hg as (Y & y & HY & Hid). rewrite HY, Hid, nth_error_app2, Nat.sub_diag in E by lia.
          destruct store; discriminate E. }
      cbn [bind]. set (l' := stored (g_light g) (new_line (strip c)) l) in *.
      assert (HE : append_last g1 /\ g_m g1 = m /\ g_light g1 = g_light g /\
                   g_lines g1 = g_lines g ++ (if store then [l'] else []) /\
                   write g1 = write g ++ (if store then [strip c] else [])).
      { destruct store.
        - assert (Ea : append c g = Ok g1) by (rewrite stored_append, E; reflexivity).
          split; [eapply append_append_last; eassumption|].
          assert (Hr : raw l' = strip c).
          { unfold l', stored. destruct (g_light g); [reflexivity|]. rewrite (motion_step_raw _ _ _ _ Em). reflexivity. }
          rewrite (append_eq _ _ Hg Hb), Em in Ea. cbn [bind fst snd] in Ea. apply (f_equal (fun r => match r with Ok x => x | Err _ => g1 end)) in Ea.
          fold l' in Ea. cbn in Ea. rewrite <- Ea. cbn [g_m g_light g_lines].
          split; [reflexivity|]. split; [reflexivity|]. split; [reflexivity|].
          destruct Hg as (Y & y & HY & Hid). unfold write. cbn [g_layers].
          rewrite HY, Hid, firstn_app_len by reflexivity. rewrite last_last.
          rewrite !map_app, !concat_app. cbn [map List.concat ly_lines set_ly_lines]. rewrite !app_nil_r, !map_app. cbn [map].
          change (raw (if g_light g then new_line (strip c) else l)) with (raw l'). rewrite Hr, <- app_assoc. reflexivity.
        - unfold append_with in E. rewrite is_empty_strip, Hb, Em in E. cbn [bind] in E. injection E as <- _.
          rewrite !app_nil_r. split; [exact Hg|]. split; [reflexivity|]. split; [reflexivity|]. split; reflexivity. }
      destruct HE as (Hg1 & Hm & Hl & Hlines & Hw). rewrite <- Hm, <- Hl in H.
      destruct (IH g1 _ m' out' Hg1 H) as (g' & news & H1 & H2 & H3 & H4 & H5).
      exists g', (l' :: news). apply conj; [exact H1|]. apply conj; [exact H2|].
      apply conj; [rewrite H3, <- app_assoc; reflexivity|].
      rewrite H4, H5, Hlines, Hw. cbn [filter fst]. destruct store.
      * apply conj; [rewrite <- app_assoc; reflexivity|]. unfold program_text. cbn [map snd filter]. rewrite Hb. cbn [negb map].
        rewrite <- app_assoc. reflexivity.
      * rewrite !app_nil_r. split; reflexivity.
Qed.

Lemma session_tracks : forall light home a calls (g : gcode A), load_gen light home (a ++ sent calls) = Ok g ->
  exists g1 g2, load_gen light home a = Ok g1 /\ session calls g1 = Ok g2 /\
    g_m g2 = g_m g /\
    g_lines g2 = g_lines g1 ++ chosen calls (skipn (List.length (g_lines g1)) (g_lines g)) /\
    write g2 = write g1 ++ program_text (to_store calls).
Proof.
  intros light home a calls g H. destruct (load_prefix _ _ _ _ _ H) as [g1 H1].
  pose proof (load_gen_fold _ _ _ _ H) as [Hf _]. pose proof (load_gen_fold _ _ _ _ H1) as [Hf1 Hl1].
  rewrite program_text_app, map_app, foldM_app, Hf1 in Hf. cbn [bind] in Hf. rewrite <- Hl1 in Hf.
  destruct (session_mstep calls g1 _ _ _ (load_append_last _ _ _ _ H1) Hf) as (g2 & news & E & H2 & H3 & H4 & H5).
  exists g1, g2. apply conj; [exact H1|]. apply conj; [exact E|]. apply conj; [exact H2|].
  rewrite H3, skipn_app_len by reflexivity. split; [exact H4|exact H5].
Qed.

End Any.

(** a session on the cube: a move that is not stored, a blank, one that is *)
Definition calls : list (bool * string) := [(false, " G91"); (true, "  "); (true, "G1 X5 E1"); (false, "G90")]%string.
Definition session_seen : bool :=
  match session calls cubeF with
  | Ok g => if list_eq_dec string_dec (write g) (write cubeF ++ ["G1 X5 E1"]%string) then is_ok (load_gen (A:=B64) false home0 (cube ++ sent calls)) else false
  | Err _ => false
  end.

Lemma session_sample : session_seen = true.
Proof. vm_compute. reflexivity. Qed.

(** * Properties C12-C17, C73, C74: positions, modes, extrusion *)
From Coq Require Import List String Ascii ZArith Bool Reals Lra.
From Verif Require Import PyBase Arith ArithQ ArithR ArithB64 Gcoder SpecLoad SpecText SpecMachine Samples.
From Verif Require Import P_Machine P_MachineRefuted.
Import ListNotations.
Local Open Scope list_scope.

(** C12: in exact arithmetic, a loaded program's final state and the position
    noted on each line are those of the reference machine.  Missing: programs
    with a G28 whose axis words are all 0, where the code homes every axis
    ([C13_home_refuted]), or with a bare G92, which the code ignores
    ([C74_bare_rebase_refuted]). *)
Theorem C12_position_partial :
  forall (A : arith) (E : exact A) light home data (g : gcode A),
    load_gen light home data = Ok g -> Forall clear_words (program_text data) ->
    tracks E (g_m g) (run (program_text data) (start (home_of E home))) /\
    (light = false -> forall i l, nth_error (g_lines g) i = Some l -> command l <> None ->
       notes_head E l (run (firstn (S i) (program_text data)) (start (home_of E home)))).
Proof. exact @load_tracks. Qed.
Print Assumptions C12_position_partial.

Example C12_example :
  load_gen (A:=QA) false home0 cube = Ok cubeQ /\ Forall clear_words (program_text cube).
Proof.
  split; [exact cubeQ_loaded|].
  assert (H : forall s, match op_of s with Home _ | SetPosition _ _ => False | _ => True end \/
      words s = [("g", "28")]%string \/ words s = [("g", "92"); ("e", "0")]%string -> clear_words s).
  { intros s [H|[H|H]]; unfold clear_words.
    - destruct (op_of s); first [exact I|contradiction].
    - unfold op_of, command_name. rewrite H. left. intros a. destruct a; reflexivity.
    - unfold op_of, command_name. rewrite H. reflexivity. }
  cbn. repeat (constructor; [apply H; first [left; exact I|right; left; reflexivity|right; right; reflexivity]|]).
  constructor.
Qed.

(** C13, what holds: if some named axis has a non-zero word (or none is
    named), G28 homes exactly the named axes (all, if none is named). *)
Theorem C13_home_partial :
  forall (A : arith) (E : exact A) (m m' : mstate A) s l w,
    op_of s = Home w -> clear_words s -> motion_step m (new_line s) = Ok (m', l) ->
    forall a, let homed := negb (named w X || named w Y || named w Z) || named w a in
      head (machine_of E m') a = (if homed then SpecMachine.home (machine_of E m) a else head (machine_of E m) a) /\
      origin (machine_of E m') a = (if homed then 0%R else origin (machine_of E m) a).
Proof. exact @g28_exact. Qed.
Print Assumptions C13_home_partial.

Example C13_example :
  exists w, op_of "G28 X1 Z0" = Home w /\ named w X = true /\ named w Y = false /\
    named w Z = true /\ clear_words "G28 X1 Z0".
Proof.
  eexists. repeat split. right. exists X. eexists. split; [reflexivity|].
  cbn. unfold Rdiv. cbn. lra.
Qed.

(** C13 as stated is false: "G28 X0" homes Y as well, "G28 X1" does not. *)
Theorem C13_home_refuted :
  words "G28 X0" = [("g", "28"); ("x", "0")]%string /\
  exists g0 g1 g2 : gcode B64,
    load_gen false home0 ["G1 X5 Y5"]%string = Ok g0 /\
    load_gen false home0 ["G1 X5 Y5"; "G28 X0"]%string = Ok g1 /\
    load_gen false home0 ["G1 X5 Y5"; "G28 X1"]%string = Ok g2 /\
    n_eqb (m_y (g_m g0)) (lit 5 0) = true /\
    n_eqb (m_y (g_m g1)) (lit 0 0) = true /\
    n_eqb (m_y (g_m g2)) (lit 5 0) = true.
Proof. exact home_refuted. Qed.
Print Assumptions C13_home_refuted.

(** C14: G92 leaves positions and totals alone in every arithmetic... *)
Theorem C14_head :
  forall (A : arith) (m m' : mstate A) s l w e, op_of s = SetPosition w e ->
    motion_step m (new_line s) = Ok (m', l) ->
    m_x m' = m_x m /\ m_y m' = m_y m /\ m_z m' = m_z m /\ m_e m' = m_e m /\
    m_total m' = m_total m /\ m_max m' = m_max m.
Proof. exact @g92_head. Qed.
Print Assumptions C14_head.

(** ... and in exact arithmetic the logical coordinates become the words (in
    millimetres). *)
Theorem C14_logical :
  forall (A : arith) (E : exact A) (m m' : mstate A) s l w e, op_of s = SetPosition w e ->
    motion_step m (new_line s) = Ok (m', l) ->
    val E (abs_x m') = match w X with Some v => mm (machine_of E m) v | None => val E (abs_x m) end /\
    val E (abs_y m') = match w Y with Some v => mm (machine_of E m) v | None => val E (abs_y m) end /\
    val E (abs_z m') = match w Z with Some v => mm (machine_of E m) v | None => val E (abs_z m) end.
Proof. exact @g92_exact. Qed.
Print Assumptions C14_logical.

Example C14_example :
  exists w e, op_of "G92 X12.5 E0" = SetPosition w e /\ named w X = true /\ named w Y = false.
Proof. eexists _, _. repeat split. Qed.

(** C15 is false: extrude 5, G92 E0, extrude 1.  The code reports a total of
    1, a filament length of 5, and that the last move does not extrude. *)
Theorem C15_rebase_refuted :
  exists (g : gcode B64) l, load_gen false home0 ["G1 X1 E5"; "G92 E0"; "G1 X2 E1"]%string = Ok g /\
    nth_error (g_lines g) 2 = Some l /\ t_extruding (lnotes l) = Some false /\
    n_eqb (m_total (g_m g)) (lit 1 0) = true /\ n_eqb (g_filament g) (lit 5 0) = true.
Proof. exact rebase_refuted. Qed.
Print Assumptions C15_rebase_refuted.

(** What G92 Ek does instead: the logical extruder position becomes e - k, so
    it is k exactly when the extruder happened to be at 2k. *)
Theorem C15_rebase_partial :
  forall (A : arith) (E : exact A) (m m' : mstate A) s l w v,
    op_of s = SetPosition w (Some v) -> motion_step m (new_line s) = Ok (m', l) ->
    val E (m_oe m') = mm (machine_of E m) v /\
    val E (abs_e m') = (val E (m_e m) - mm (machine_of E m) v)%R.
Proof. exact @g92_e_exact. Qed.
Print Assumptions C15_rebase_partial.

(** C16: without G92 E, the extruder position and the total are those of the
    reference machine, the filament length is the largest position ever
    reached (position 0 = start), and the lines flagged extruding are those
    that advance the extruder. *)
Theorem C16_filament :
  forall (A : arith) (E : exact A) light home data (g : gcode A),
    load_gen light home data = Ok g -> Forall no_rebase_e (program_text data) ->
    let e i := extruder (run (firstn i (program_text data)) (start (home_of E home))) in
    let n := List.length (program_text data) in
    val E (m_e (g_m g)) = e n /\ val E (m_total (g_m g)) = e n /\
    (forall i, (e i <= val E (g_filament g))%R) /\
    (exists i, (i <= n)%nat /\ val E (g_filament g) = e i) /\
    (light = false -> forall i l, nth_error (g_lines g) i = Some l ->
       (t_extruding (lnotes l) = Some true <-> (e i < e (S i))%R)).
Proof. exact @load_extrusion. Qed.
Print Assumptions C16_filament.

Definition retracting : list string :=
  ["M83"; "G1 X5 E5"; "G1 E-2"; "M82"; "G1 X9 E4.5"; "G92 X0"]%string.
Example C16_example :
  (exists g, load_gen (A:=QA) false home0 retracting = Ok g) /\
  Forall no_rebase_e (program_text retracting).
Proof.
  split; [eexists; apply is_ok_get with (d := empty_program); vm_compute; reflexivity|].
  repeat constructor.
Qed.

(** C17: modal flags, in every arithmetic. *)
Theorem C17_modes :
  forall (A : arith) home data (g : gcode A), load_gen false home data = Ok g ->
    forall i l, nth_error (g_lines g) i = Some l -> is_move l = true ->
    t_relative (lnotes l) = Some (mode_relative (firstn i (program_text data))) /\
    t_relative_e (lnotes l) = Some (mode_relative_e (firstn i (program_text data))).
Proof. exact @load_modes. Qed.
Print Assumptions C17_modes.

(** ... where the moves are the lines with a G0-G3 command. *)
Theorem C17_moves :
  forall (A : arith) home data (g : gcode A), load_gen false home data = Ok g ->
    Forall2 (fun s l => raw l = s /\
      is_move l = match op_of s with Move _ _ _ => true | _ => false end)
      (program_text data) (g_lines g).
Proof. exact @load_moves. Qed.
Print Assumptions C17_moves.

Example C17_example :
  map is_move (g_lines (loadF ["G91"; "G1 X1"; "M82"; "G0 X1"]%string)) = [false; true; false; true] /\
  mode_relative (firstn 3 ["G91"; "G1 X1"; "M82"; "G0 X1"]%string) = true /\
  mode_relative_e (firstn 3 ["G91"; "G1 X1"; "M82"; "G0 X1"]%string) = false.
Proof. repeat split; vm_compute; reflexivity. Qed.

(** C73 is false: G00, G01, G02 and G03 change nothing and are no moves. *)
Theorem C73_padded_refuted :
  forall (A : arith) (m m' : mstate A) s l c, command_name s = Some c ->
    In c ["G00"; "G01"; "G02"; "G03"]%string ->
    motion_step m (new_line s) = Ok (m', l) ->
    m' = m /\ is_move l = false.
Proof. exact @padded_ignored. Qed.
Print Assumptions C73_padded_refuted.

Example C73_example :
  command_name "G01 X5 E2" = Some "G01"%string /\
  is_ok (motion_step (init_mstate (A:=B64) home0) (new_line "G01 X5 E2")) = true.
Proof. split; vm_compute; reflexivity. Qed.

(** C74 is false: a bare G92 leaves every logical coordinate as it is. *)
Theorem C74_bare_rebase_refuted :
  forall (A : arith) (E : exact A) (m m' : mstate A) s l w, op_of s = SetPosition w None ->
    (forall a, w a = None) -> motion_step m (new_line s) = Ok (m', l) ->
    val E (abs_x m') = val E (abs_x m) /\ val E (abs_y m') = val E (abs_y m) /\
    val E (abs_z m') = val E (abs_z m).
Proof. exact @g92_bare. Qed.
Print Assumptions C74_bare_rebase_refuted.

Example C74_example :
  exists w, op_of "G92" = SetPosition w None /\ (forall a, w a = None) /\
    is_ok (motion_step (init_mstate (A:=B64) home0) (new_line "G92")) = true.
Proof. eexists. split; [reflexivity|]. split; [intros a; destruct a; reflexivity|vm_compute; reflexivity]. Qed.

(** * Properties C01-C06: loading, writing, index tables, editing

    All theorems hold for every arithmetic [A], hence for IEEE doubles. *)
From Coq Require Import List String ZArith Bool.
From Verif Require Import PyBase Arith ArithQ ArithB64 Gcoder SpecLoad Samples.
From Verif Require Import P_Load P_Edit P_Append.
Import ListNotations.
Local Open Scope list_scope.

(** C01: what is written is the stripped non-blank lines that were loaded. *)
Theorem C01_load_write :
  forall (A : arith) (light : bool) home data (g : gcode A),
    load_gen light home data = Ok g -> write g = program_text data.
Proof. exact @load_write. Qed.
Print Assumptions C01_load_write.

Example C01_example :
  load_gen (A:=B64) false home0 cube = Ok cubeF /\ List.length (g_layers cubeF) = 4 /\
  List.length (write cubeF) = 12.
Proof. split; [exact cubeF_loaded|vm_compute; auto]. Qed.

(** [strip] removes exactly the surrounding blanks. *)
Theorem C01_strip : forall s, stripped_of s (strip s).
Proof. exact strip_spec. Qed.
Print Assumptions C01_strip.

(** C02: the index tables address the right lines. *)
Theorem C02_idxs :
  forall (A : arith) (light : bool) home data (g : gcode A),
    load_gen light home data = Ok g ->
    idxs_right g /\ map raw (g_lines g) = program_text data.
Proof.
  exact (fun A light home data g H =>
    conj (consistent_idxs_right g (load_consistent light home data g H))
         (load_lines_text light home data g H)).
Qed.
Print Assumptions C02_idxs.

Example C02_example :
  idxs cubeF 7 = Ok (1, 2) /\
  option_map raw (nth_error (g_lines cubeF) 7) = Some "G1 X20 Y10 E2.5"%string.
Proof. vm_compute. auto. Qed.

(** C03: prepend_to_layer, on any program obtained by loading and editing. *)
Theorem C03_prepend :
  forall (A : arith) (g : gcode A) cmds k y,
    edited g -> nth_error (g_layers g) k = Some y -> ly_lines y <> [] ->
    exists g' y' news, prepend_to_layer cmds k g = Ok (g', program_text cmds) /\
      nth_error (g_layers g') k = Some y' /\ ly_lines y' = news ++ ly_lines y /\
      Forall2 plain_command (program_text cmds) news /\
      same_but_layer k g g' /\ g_lines g' = List.concat (blocks g') /\ idxs_right g'.
Proof. exact @prepend_property. Qed.
Print Assumptions C03_prepend.

(** C03/C04: empty layers are refused with ValueError, missing ones with
    IndexError. *)
Theorem C03_C04_empty_layer :
  forall (A : arith) (g : gcode A) cmds k y,
    edited g -> nth_error (g_layers g) k = Some y -> ly_lines y = [] ->
    prepend_to_layer cmds k g = Err ValueError /\ rewrite_layer cmds k g = Err ValueError.
Proof.
  exact (fun A g cmds k y Hg => prepend_empty cmds k g y (edited_consistent g Hg)).
Qed.
Print Assumptions C03_C04_empty_layer.

Theorem C03_C04_missing_layer :
  forall (A : arith) cmds k (g : gcode A),
    nth_error (g_layers g) k = None ->
    prepend_to_layer cmds k g = Err IndexError /\ rewrite_layer cmds k g = Err IndexError.
Proof. exact @prepend_missing. Qed.
Print Assumptions C03_C04_missing_layer.

Example C03_example :
  edited cubeF /\
  match prepend_to_layer [" M226 "; ""; "M117 hi"]%string 2 cubeF with
  | Ok (g', r) => r = ["M226"; "M117 hi"]%string /\ List.length (g_lines g') = 14 /\
                  nth_error (write g') 8 = Some "M226"%string
  | Err _ => False
  end.
Proof. split; [exact (ed_load false home0 cube cubeF cubeF_loaded)|vm_compute; auto]. Qed.

(** C04: rewrite_layer. *)
Theorem C04_rewrite :
  forall (A : arith) (g : gcode A) cmds k y,
    edited g -> nth_error (g_layers g) k = Some y -> ly_lines y <> [] ->
    exists g' y' news, rewrite_layer cmds k g = Ok (g', program_text cmds) /\
      nth_error (g_layers g') k = Some y' /\ ly_lines y' = news /\
      Forall2 plain_command (program_text cmds) news /\
      same_but_layer k g g' /\ g_lines g' = List.concat (blocks g') /\ idxs_right g'.
Proof. exact @rewrite_property. Qed.
Print Assumptions C04_rewrite.

Example C04_example :
  match rewrite_layer ["M226"]%string 1 cubeF with
  | Ok (g', _) => List.length (g_lines g') = 10 /\ nth_error (write g') 5 = Some "M226"%string
  | Err _ => False
  end.
Proof. vm_compute. auto. Qed.

(** C05: append adds its text at the end (the index of the new line is wrong,
    see the refutation). *)
Theorem C05_append_partial :
  forall (A : arith) cmd (g g' : gcode A),
    used g -> append cmd g = Ok g' -> blank cmd = false ->
    write g' = write g ++ [strip cmd] /\
    (exists l, g_lines g' = g_lines g ++ [l] /\ raw l = strip cmd).
Proof. exact @append_write. Qed.
Print Assumptions C05_append_partial.

Theorem C05_append_blank :
  forall (A : arith) cmd (g : gcode A), blank cmd = true -> append cmd g = Ok g.
Proof. exact @append_blank. Qed.
Print Assumptions C05_append_blank.

Example C05_example :
  used cubeF /\ is_ok (append " G1 X0 " cubeF) = true /\ blank " G1 X0 " = false.
Proof. split; [exact (us_load false home0 cube cubeF cubeF_loaded)|vm_compute; auto]. Qed.

(** The recorded position of an appended line is always one too far. *)
Theorem C05_append_idxs_off_by_one :
  forall (A : arith) cmd (g g' : gcode A),
    used g -> append cmd g = Ok g' -> blank cmd = false ->
    List.length (g_lidx g) = List.length (g_lines g) ->
    List.length (g_kidx g) = List.length (g_lines g) ->
    exists b l, nth_error (blocks g') (g_append_id g) = Some (b ++ [l]) /\
      nth_error (g_lines g') (List.length (g_lines g)) = Some l /\
      idxs g' (List.length (g_lines g)) = Ok (g_append_id g, S (List.length b)).
Proof. exact @append_idxs. Qed.
Print Assumptions C05_append_idxs_off_by_one.

Theorem C05_append_idxs_refuted :
  exists (cmd : string) (g g' : gcode B64),
    used g /\ append cmd g = Ok g' /\ ~ idxs_right g'.
Proof. exact append_idxs_refuted. Qed.
Print Assumptions C05_append_idxs_refuted.

(** C06: appending line by line reaches the state of batch loading. *)
Theorem C06_incremental :
  forall (A : arith) (light : bool) home a b (g : gcode A),
    load_gen light home (a ++ b) = Ok g ->
    exists g1 g2, load_gen light home a = Ok g1 /\ append_all b g1 = Ok g2 /\
      g_m g2 = g_m g /\ g_lines g2 = g_lines g /\ write g2 = write g.
Proof. exact @incremental. Qed.
Print Assumptions C06_incremental.

Example C06_example :
  is_ok (load_gen (A:=B64) false home0 (firstn 6 cube ++ skipn 6 cube)) = true.
Proof. vm_compute. reflexivity. Qed.

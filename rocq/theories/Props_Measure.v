(** * Properties C18-C26, C75: sizes, layers, durations, rewriting, equality *)
From Coq Require Import List String Ascii ZArith Bool Reals Lra.
From Verif Require Import PyBase Arith ArithQ ArithR ArithB64 Gcoder SpecLoad SpecText SpecMachine SpecMeasure SpecEqual Samples.
From Verif Require Import P_Load P_Wf P_Machine P_Measure P_Layers P_Format P_Equal.
Import ListNotations.
Local Open Scope list_scope.

(** C18: in exact arithmetic, when filament is used some move extrudes, the
    box contains every extruding move and each side of it touches one. *)
Theorem C18_box :
  forall (A : arith) (E : exact A) home data (g : gcode A), load_gen false home data = Ok g ->
    (0 < val E (g_filament g))%R ->
    (exists l, In l (g_lines g) /\ extrudes l) /\
    (forall l, In l (g_lines g) -> extrudes l -> exists x y,
       t_x (lnotes l) = Some x /\ t_y (lnotes l) = Some y /\
       (val E (g_xmin g) <= val E x <= val E (g_xmax g))%R /\
       (val E (g_ymin g) <= val E y <= val E (g_ymax g))%R) /\
    (exists l, In l (g_lines g) /\ extrudes l /\ t_x (lnotes l) = Some (g_xmin g)) /\
    (exists l, In l (g_lines g) /\ extrudes l /\ t_x (lnotes l) = Some (g_xmax g)) /\
    (exists l, In l (g_lines g) /\ extrudes l /\ t_y (lnotes l) = Some (g_ymin g)) /\
    (exists l, In l (g_lines g) /\ extrudes l /\ t_y (lnotes l) = Some (g_ymax g)).
Proof. exact @load_box. Qed.
Print Assumptions C18_box.

Theorem C18_size :
  forall (A : arith) (E : exact A) home data (g : gcode A), load_gen false home data = Ok g ->
    (0 < val E (g_filament g))%R ->
    forall l l' x y x' y', In l (g_lines g) -> In l' (g_lines g) -> extrudes l -> extrudes l' ->
      t_x (lnotes l) = Some x -> t_y (lnotes l) = Some y ->
      t_x (lnotes l') = Some x' -> t_y (lnotes l') = Some y' ->
      (Rabs (val E x - val E x') <= val E (g_width g))%R /\
      (Rabs (val E y - val E y') <= val E (g_depth g))%R.
Proof. exact @load_size. Qed.
Print Assumptions C18_size.

Example C18_example :
  load_gen (A:=QA) false home0 cube = Ok cubeQ /\ (0 < val exactQ (g_filament cubeQ))%R.
Proof.
  split; [exact cubeQ_loaded|]. rewrite <- (val_n0 exactQ). apply (val_ltb QA exactQ).
  vm_compute. reflexivity.
Qed.

(** C19, what holds: zmin <= 0 <= zmax, every recorded Z lies between, each
    bound is 0 or recorded, and each recorded Z is the Z reached after some
    line. Missing: that something was printed at zmax ([C19_zmax_refuted]). *)
Theorem C19_bounds_partial :
  forall (A : arith) (E : exact A) home data (g : gcode A), load_gen false home data = Ok g ->
    (val E (g_zmin g) <= 0 <= val E (g_zmax g))%R /\
    (forall z, In (Some z) (g_zs g) -> (val E (g_zmin g) <= val E z <= val E (g_zmax g))%R) /\
    (val E (g_zmax g) = 0%R \/ In (Some (g_zmax g)) (g_zs g)) /\
    (val E (g_zmin g) = 0%R \/ In (Some (g_zmin g)) (g_zs g)) /\
    (forall z, In z (g_zs g) -> exists i, z = z_after (firstn i (g_lines g))).
Proof. exact @load_z_bounds. Qed.
Print Assumptions C19_bounds_partial.

Example C19_example :
  load_gen (A:=QA) false home0 cube = Ok cubeQ /\ List.length (g_zs cubeQ) = 2.
Proof. split; [exact cubeQ_loaded|vm_compute; reflexivity]. Qed.

(** C19's last part is false: the first program prints nothing at Z = 2 and
    has zmax = 2; the second prints at Z = 6 and has zmax = 5. *)
Theorem C19_zmax_refuted : exists g h : gcode B64,
  load_gen false home0 ["G1 Z1"; "G1 X1 E1"; "G1 Z1.001"; "G1 X2 E2"; "G1 Z1.002"; "G1 Z2"; "G1 Z3"]%string = Ok g /\
  printed_at g 2 = false /\ n_eqb (g_zmax g) (lit 2 0) = true /\
  load_gen false home0 ["G1 Z5"; "G1 X1 Z6 E1"]%string = Ok h /\
  printed_at h 6 = true /\ n_eqb (g_zmax h) (lit 5 0) = true.
Proof. exact zmax_refuted. Qed.
Print Assumptions C19_zmax_refuted.

(** C20: the layers before the append layer cut the program into consecutive
    blocks; all but the first are non-empty and begin with a line after which
    the Z is another one than before. *)
Theorem C20_layers :
  forall (A : arith) home data (g : gcode A), load_gen false home data = Ok g ->
    exists Y, g_layers g = Y ++ [Layer [] None n0] /\
      List.concat (map ly_lines Y) = g_lines g /\
      (forall k y, nth_error Y (S k) = Some y -> ly_lines y <> []) /\
      (forall k y, nth_error Y (S k) = Some y -> exists p l q,
         g_lines g = p ++ l :: q /\ p = List.concat (map ly_lines (firstn (S k) Y)) /\
         hd_error (ly_lines y) = Some l /\
         opt_eqb (z_after (p ++ [l])) (z_after p) = false).
Proof. exact @load_layers. Qed.
Print Assumptions C20_layers.

(** ... and, where equality of numbers is reflexive, that line is a move or a
    G92 with a Z word. *)
Theorem C20_layers_set_z :
  forall (A : arith) (E : exact A) home data (g : gcode A), load_gen false home data = Ok g ->
    exists Y, g_layers g = Y ++ [Layer [] None n0] /\
      List.concat (map ly_lines Y) = g_lines g /\
      (forall k y, nth_error Y (S k) = Some y -> exists p l q,
         g_lines g = p ++ l :: q /\ p = List.concat (map ly_lines (firstn (S k) Y)) /\
         hd_error (ly_lines y) = Some l /\ sets_z l /\
         opt_eqb (z_after (p ++ [l])) (z_after p) = false).
Proof. exact @load_layers_exact. Qed.
Print Assumptions C20_layers_set_z.

Example C20_example :
  load_gen (A:=QA) false home0 cube = Ok cubeQ /\
  map (fun y => List.length (ly_lines y)) (g_layers cubeQ) = [5; 3; 4; 0].
Proof. split; [exact cubeQ_loaded|vm_compute; reflexivity]. Qed.

(** C21: without negative feedrates and dwells every layer takes a
    non-negative time and the total is their sum (that no ZeroDivisionError is
    raised is [C10_zero_division]). *)
Theorem C21_durations :
  forall (A : arith) (E : exact A) light home data (g : gcode A),
    Forall (fun s => feed_ok s = true /\ dwell_nonneg s) (program_text data) ->
    load_gen light home data = Ok g ->
    Forall (fun y => (0 <= val E (ly_dur y))%R) (g_layers g) /\ (0 <= val E (g_total g))%R /\
    val E (g_total g) = sum_durations E (g_layers g).
Proof. exact @load_durations. Qed.
Print Assumptions C21_durations.

Example C21_example :
  load_gen (A:=QA) false home0 cube = Ok cubeQ /\
  Forall (fun s => feed_ok s = true /\ dwell_nonneg s) (program_text cube).
Proof.
  split; [exact cubeQ_loaded|].
  repeat (constructor; [split; [reflexivity|vm_compute; first [exact I|reflexivity]]|]). constructor.
Qed.

(** C22: a G command and its arguments, rewritten and read again while in
    millimetres, give the same command and the rounded arguments.  (G20 is
    excepted: reading it changes the unit.) *)
Theorem C22_rewrite :
  forall (A : arith) s c (a : args A) (m : mstate A), command_name s = Some c ->
    first_is "G" c = true -> c <> "G20"%string -> m_imperial m = false -> finite_args a ->
    exists m' l', motion_step m (new_line (unsplit_text c a)) = Ok (m', l') /\
      command l' = Some c /\
      forall k, get_arg k (largs l') = option_map (py_round (decimals k)) (get_arg k a).
Proof. exact @unsplit_rounds. Qed.
Print Assumptions C22_rewrite.

(** ... so in exact arithmetic each value moves by at most half a unit of the
    last decimal. *)
Theorem C22_close :
  forall (A : arith) (E : exact A) s c (a : args A) (m : mstate A), command_name s = Some c ->
    first_is "G" c = true -> c <> "G20"%string -> m_imperial m = false ->
    exists m' l', motion_step m (new_line (unsplit_text c a)) = Ok (m', l') /\
      command l' = Some c /\
      forall k, match get_arg k a, get_arg k (largs l') with
                | Some x, Some y => (Rabs (val E y - val E x) <= / 2 / 10 ^ (decimals k))%R
                | None, None => True
                | _, _ => False
                end.
Proof. exact @unsplit_close. Qed.
Print Assumptions C22_close.

Example C22_example :
  command_name "g1 x5 ; comment" = Some "G1"%string /\ first_is "G" "G1" = true /\
  finite_args (A:=B64) (Args (Some (lit 12345678 7)) None None (Some (lit 25 3)) None None None) /\
  unsplit_text (A:=B64) "G1" (Args (Some (lit 12345678 7)) None None (Some (lit 25 3)) None None None) =
    "G1 X1.235 E0.02500"%string.
Proof.
  split; [reflexivity|]. split; [reflexivity|]. split; [|vm_compute; reflexivity].
  intros k x H. destruct k; try discriminate H; injection H as <-; eexists _, _; vm_compute; reflexivity.
Qed.

(** C23 is false: a rewritten line has only the command and the words X, Y, Z,
    E, F, I, J ... *)
Theorem C23_words_refuted :
  forall (A : arith) s c (a : args A), command_name s = Some c -> first_is "G" c = true ->
    finite_args a ->
    forall w, In w (words (unsplit_text c a)) ->
      In (fst w) ["g"; "x"; "y"; "z"; "e"; "f"; "i"; "j"]%string.
Proof. exact @unsplit_words. Qed.
Print Assumptions C23_words_refuted.

(** ... so an arc given by its radius loses the radius ... *)
Theorem C23_radius_refuted : exists (m : mstate B64) l,
  motion_step (init_mstate home0) (new_line "G2 X1 Y1 R5 ; arc") = Ok (m, l) /\
  raw (unsplit l) = "G2 X1.000 Y1.000"%string.
Proof. exact rewrite_refuted. Qed.
Print Assumptions C23_radius_refuted.

(** ... and in inch mode a rewritten move goes 25.4 times as far. *)
Theorem C23_inch_refuted : exists (m m1 m2 : mstate B64) l l1 l2,
  motion_step (init_mstate home0) (new_line "G20") = Ok (m, l) /\
  motion_step m (new_line "G1 X1") = Ok (m1, l1) /\
  motion_step m (new_line (raw (unsplit l1))) = Ok (m2, l2) /\
  raw (unsplit l1) = "G1 X25.400"%string /\
  numx (a_x (largs l1)) 254 1 = true /\ numx (a_x (largs l2)) 64516 2 = true.
Proof. exact rewrite_inch_refuted. Qed.
Print Assumptions C23_inch_refuted.

(** C24: programs are equal exactly when their command lines are alike
    pairwise, except that the left one may have one more line at the end. *)
Theorem C24_equality_partial :
  forall (A : arith) (E : exact A) (g h : gcode A), gcode_eqb g h = true <->
    exists m extra, commands_of g = m ++ extra /\ (List.length extra <= 1)%nat /\
      Forall2 (alike E) m (commands_of h).
Proof. exact @gcode_eqb_iff. Qed.
Print Assumptions C24_equality_partial.

Theorem C24_same_length_partial :
  forall (A : arith) (E : exact A) (g h : gcode A),
    List.length (commands_of g) = List.length (commands_of h) ->
    (gcode_eqb g h = true <-> Forall2 (alike E) (commands_of g) (commands_of h)).
Proof. exact @gcode_eqb_same_length. Qed.
Print Assumptions C24_same_length_partial.

Theorem C24_reflexive : forall (A : arith) (E : exact A) (g : gcode A), gcode_eqb g g = true.
Proof. exact @gcode_eqb_refl. Qed.
Print Assumptions C24_reflexive.

(** C24 as stated is false: the extra line makes == asymmetric. *)
Theorem C24_symmetric_refuted : exists g h : gcode B64,
  load_gen false home0 ["G1 X1"; "M84"]%string = Ok g /\ load_gen false home0 ["G1 X1"]%string = Ok h /\
  gcode_eqb g h = true /\ gcode_eqb h g = false /\
  map command (commands_of g) = [Some "G1"; Some "M84"]%string /\
  map command (commands_of h) = [Some "G1"]%string.
Proof. exact eq_refuted. Qed.
Print Assumptions C24_symmetric_refuted.

(** C25: diff finds nothing exactly when the programs compare equal ... *)
Theorem C25_diff_none :
  forall (A : arith) (g h : gcode A), diff g h = None <-> gcode_eqb g h = true.
Proof. exact @diff_eqb. Qed.
Print Assumptions C25_diff_none.

(** ... a reported difference is the first one ... *)
Theorem C25_diff_at :
  forall (A : arith) (E : exact A) (g h : gcode A) k s t, diff g h = Some (DiffAt k s t) <->
    exists x y, first_difference E k x y (commands_of g) (commands_of h) /\ s = raw x /\ t = raw y.
Proof. exact @diff_at. Qed.
Print Assumptions C25_diff_at.

(** ... a line reported as remaining in the other program is its first
    unmatched line ... *)
Theorem C25_diff_other :
  forall (A : arith) (E : exact A) (g h : gcode A) s, diff g h = Some (DiffOther s) <->
    exists m y r, commands_of h = m ++ y :: r /\ Forall2 (alike E) (commands_of g) m /\ s = raw y.
Proof. exact @diff_other. Qed.
Print Assumptions C25_diff_other.

(** ... but the line reported as remaining in this program is its second
    unmatched line. *)
Theorem C25_diff_self_partial :
  forall (A : arith) (E : exact A) (g h : gcode A) s, diff g h = Some (DiffSelf s) <->
    exists m x y r, commands_of g = m ++ x :: y :: r /\ Forall2 (alike E) m (commands_of h) /\ s = raw y.
Proof. exact @diff_self. Qed.
Print Assumptions C25_diff_self_partial.

Theorem C25_diff_self_refuted : exists g h : gcode B64,
  load_gen false home0 ["G1 X1"; "M84"; "M106"]%string = Ok g /\ load_gen false home0 ["G1 X1"]%string = Ok h /\
  diff g h = Some (DiffSelf "M106").
Proof. exact diff_refuted. Qed.
Print Assumptions C25_diff_self_refuted.

(** C26 is false: any two LightGCode programs compare equal. *)
Theorem C26_light_equal_refuted :
  forall (A : arith) home data data' (g h : gcode A),
    load_gen true home data = Ok g -> load_gen true home data' = Ok h -> gcode_eqb g h = true.
Proof. exact @light_always_equal. Qed.
Print Assumptions C26_light_equal_refuted.

Theorem C26_light_refuted : exists g h g' h' : gcode B64,
  load_gen false home0 ["G1 X1"]%string = Ok g /\ load_gen false home0 ["M84"; "M106"]%string = Ok h /\
  load_gen true home0 ["G1 X1"]%string = Ok g' /\ load_gen true home0 ["M84"; "M106"]%string = Ok h' /\
  gcode_eqb g h = false /\ gcode_eqb g' h' = true.
Proof. exact light_refuted. Qed.
Print Assumptions C26_light_refuted.

(** C75: GCode and LightGCode report the same measures, or the same error. *)
Theorem C75_light_same :
  forall (A : arith) home data,
    match load_gen (A:=A) false home data, load_gen true home data with
    | Ok g, Ok h => same_measures g h
    | Err e, Err e' => e = e'
    | _, _ => False
    end.
Proof. exact @load_light_same. Qed.
Print Assumptions C75_light_same.

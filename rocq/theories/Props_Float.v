(** * Properties C12, C16, C18, C22, C28, C30, C33, C40, C42 and C101 for IEEE doubles

    The same claims as in Props_Machine, Props_Measure, Props_Equal, Props_Filter
    and Props_Tempcal, for the numbers the
    code really computes with.  The reference machine reads both programs
    exactly. *)
From Coq Require Import List Ascii String ZArith Bool Reals.
From Verif Require Import PyBase Arith ArithB64 Gcoder Filters Tempcal.
From Verif Require Import SpecText SpecLoad SpecMachine SpecMeasure SpecEqual SpecFilter SpecTempcal SpecBinary64 Samples.
From Verif Require Import P_Machine P_MachineRefuted P_Filter P_FilterMotion P_FilterRefuted.
From Verif Require Import P_Tempcal P_TempcalRefuted P_FloatText P_FloatMotion P_FloatTempcal.
From Verif Require Import P_FloatTrack P_FloatFeed P_FloatBox P_FloatSample.
Import ListNotations.
Local Open Scope list_scope.

(** C12 with doubles: the tracked position is that of the reference machine up
    to a billionth of a millimetre for each relative move and each G92 so far,
    and one more.  Missing: what is missing from [C12_position_partial]; programs
    in inches; numbers beyond a million. *)
Theorem C12_binary64_partial :
  forall light home data (g : gcode B64),
    load_gen light home data = Ok g -> Forall plain_line (program_text data) -> fhome_fin home ->
    in_volume (program_text data) (start (fhome_of home)) ->
    (INR (drifts (program_text data) (start (fhome_of home))) <= 10 ^ 8)%R ->
    let d := ((INR (drifts (program_text data) (start (fhome_of home))) + 1) * / 10 ^ 9)%R in
    state_near d (g_m g) (run (program_text data) (start (fhome_of home))) /\
    (light = false -> forall i l, nth_error (g_lines g) i = Some l -> command l <> None ->
       notes_near d l (run (firstn (S i) (program_text data)) (start (fhome_of home)))).
Proof. exact load_ftracks. Qed.
Print Assumptions C12_binary64_partial.

Example C12_binary64_example :
  load_gen (A:=B64) false home0 wander = Ok wanderF /\ Forall plain_line (program_text wander) /\
  fhome_fin (home0 (A:=B64)) /\ in_volume (program_text wander) (start (fhome_of (home0 (A:=B64)))) /\
  drifts (program_text wander) (start (fhome_of (home0 (A:=B64)))) = 3 /\
  (INR (drifts (program_text wander) (start (fhome_of (home0 (A:=B64))))) <= 10 ^ 8)%R.
Proof.
  split; [exact wander_loaded|]. split; [exact wander_plain|]. split; [exact home0_fin|].
  split; [exact wander_volume|]. split; [reflexivity|]. apply few. cbn. repeat constructor.
Qed.

(** C16 with doubles: the extruded total and the longest extruded length are
    those of the reference machine up to a billionth of a millimetre for each
    extruding command; so is the note on a line that it extrudes.  Of programs
    in millimetres with numbers up to a million that do not re-base the
    extruder. *)
Theorem C16_binary64_partial :
  forall light home data (g : gcode B64) h,
    load_gen light home data = Ok g -> Forall no_rebase_e (program_text data) ->
    Forall modest (program_text data) -> Forall (fun s => op_of s <> Inches) (program_text data) ->
    in_reach (program_text data) (start h) ->
    (INR (feed_count (program_text data)) <= 10 ^ 8)%R ->
    let e i := extruder (run (firstn i (program_text data)) (start h)) in
    let n := List.length (program_text data) in
    let d := (INR (feed_count (program_text data)) * / 10 ^ 9)%R in
    SpecBinary64.near d (m_e (g_m g)) (e n) /\ SpecBinary64.near d (m_total (g_m g)) (e n) /\
    fin (g_filament g) /\ (forall i, (e i <= fval (g_filament g) + d)%R) /\
    (exists i, i <= n /\ (Rabs (fval (g_filament g) - e i) <= d)%R) /\
    (light = false -> forall i l, nth_error (g_lines g) i = Some l ->
       (t_extruding (lnotes l) = Some true -> (e i < e (S i) + d)%R) /\
       ((e i + d < e (S i))%R -> t_extruding (lnotes l) = Some true)).
Proof. exact load_extrusion_B64. Qed.
Print Assumptions C16_binary64_partial.

Example C16_binary64_example :
  load_gen (A:=B64) false home0 wander = Ok wanderF /\ Forall no_rebase_e (program_text wander) /\
  Forall modest (program_text wander) /\ Forall (fun s => op_of s <> Inches) (program_text wander) /\
  in_reach (program_text wander) (start (fun _ => 0%R)) /\ feed_count (program_text wander) = 3 /\
  (INR (feed_count (program_text wander)) <= 10 ^ 8)%R.
Proof.
  split; [exact wander_loaded|]. split; [exact wander_steady|]. split; [apply modest_all; vm_compute; reflexivity|].
  split; [repeat (constructor; [discriminate|]); constructor|]. split; [exact wander_reach|].
  split; [vm_compute; reflexivity|]. apply few. cbn. repeat constructor.
Qed.

(** C18 with doubles: the reported box holds every position printed at, and each
    side of it is touched, up to the error of the tracked position.  Of programs
    as in [C12_binary64_partial]. *)
Theorem C18_binary64_partial :
  forall home data (g : gcode B64),
    load_gen false home data = Ok g -> n_ltb n0 (g_filament g) = true ->
    (exists l, In l (g_lines g) /\ extrudes l) ->
    Forall plain_line (program_text data) -> fhome_fin home ->
    in_volume (program_text data) (start (fhome_of home)) ->
    (INR (drifts (program_text data) (start (fhome_of home))) <= 10 ^ 8)%R ->
    let d := ((INR (drifts (program_text data) (start (fhome_of home))) + 1) * / 10 ^ 9)%R in
    let p i := head (run (firstn (S i) (program_text data)) (start (fhome_of home))) in
    let prints i := exists l, nth_error (g_lines g) i = Some l /\ extrudes l in
    (fin (g_xmin g) /\ fin (g_xmax g) /\ fin (g_ymin g) /\ fin (g_ymax g)) /\
    (forall i, prints i -> (fval (g_xmin g) - d <= p i X <= fval (g_xmax g) + d)%R /\
                           (fval (g_ymin g) - d <= p i Y <= fval (g_ymax g) + d)%R) /\
    (exists i, prints i /\ (Rabs (fval (g_xmin g) - p i X) <= d)%R) /\
    (exists i, prints i /\ (Rabs (fval (g_xmax g) - p i X) <= d)%R) /\
    (exists i, prints i /\ (Rabs (fval (g_ymin g) - p i Y) <= d)%R) /\
    (exists i, prints i /\ (Rabs (fval (g_ymax g) - p i Y) <= d)%R).
Proof. exact load_box_B64. Qed.
Print Assumptions C18_binary64_partial.

Example C18_binary64_example :
  load_gen (A:=B64) false home0 wander = Ok wanderF /\ n_ltb n0 (g_filament wanderF) = true /\
  (exists l, In l (g_lines wanderF) /\ extrudes l) /\ Forall plain_line (program_text wander) /\
  fhome_fin (home0 (A:=B64)) /\ in_volume (program_text wander) (start (fhome_of (home0 (A:=B64)))) /\
  (INR (drifts (program_text wander) (start (fhome_of (home0 (A:=B64))))) <= 10 ^ 8)%R.
Proof.
  split; [exact wander_loaded|]. split; [vm_compute; reflexivity|]. split; [exact wander_prints|].
  split; [exact wander_plain|]. split; [exact home0_fin|].
  split; [exact wander_volume|]. apply few. cbn. repeat constructor.
Qed.

(** C22 with doubles: what is read back from a rewritten line differs from the
    double that was written by half a unit of the last decimal and a billionth.
    For values up to a million. *)
Theorem C22_binary64_partial :
  forall s c (a : args B64) (m : mstate B64), command_name s = Some c ->
    first_is "G"%char c = true -> c <> "G20"%string -> m_imperial m = false ->
    (forall k x, get_arg k a = Some x -> fin x /\ (Rabs (fval x) <= 10 ^ 6)%R) ->
    exists m' l', motion_step m (new_line (unsplit_text c a)) = Ok (m', l') /\
      command l' = Some c /\
      forall k, match get_arg k a, get_arg k (largs l') with
                | Some x, Some y => SpecBinary64.near (/ 2 / 10 ^ (decimals k) + / 10 ^ 9) y (fval x)
                | None, None => True
                | _, _ => False
                end.
Proof. exact unsplit_close_B64. Qed.
Print Assumptions C22_binary64_partial.

Example C22_binary64_example :
  command_name "G1 X1" = Some "G1"%string /\ first_is "G"%char "G1" = true /\ "G1"%string <> "G20"%string /\
  m_imperial (g_m cubeF) = false /\
  (forall k x, get_arg k some_args = Some x -> fin x /\ (Rabs (fval x) <= 10 ^ 6)%R).
Proof.
  split; [reflexivity|]. split; [reflexivity|]. split; [discriminate|]. split; [vm_compute; reflexivity|].
  exact some_args_small.
Qed.

(** C28 with doubles: line by line the converted program extrudes what the
    original does, up to half a unit of the fifth decimal and a billionth, if no
    number of the program is beyond a million.  Missing: what is missing from
    [C28_extrusion_partial]. *)
Theorem C28_binary64_partial :
  forall home data (g g' : gcode B64) h,
    load_gen false home data = Ok g -> to_relative_extrusion g = Ok g' ->
    e_ready (program_text data) = true -> Forall modest (program_text data) ->
    feed_within (/ 2 / 10 ^ 5 + / 10 ^ 9) (program_text data) (write g') (start h) (start h).
Proof. exact relative_feed_B64. Qed.
Print Assumptions C28_binary64_partial.

Example C28_binary64_example :
  load_gen (A:=B64) false home0 cube = Ok cubeF /\ e_ready (program_text cube) = true /\
  (exists g', to_relative_extrusion cubeF = Ok g') /\ Forall modest (program_text cube) /\
  feed_count (program_text cube) = 4.
Proof.
  split; [exact cubeF_loaded|]. split; [vm_compute; reflexivity|]. split; [apply relative_total|].
  split; [apply modest_all; vm_compute; reflexivity|]. vm_compute. reflexivity.
Qed.

(** C30 with doubles *)
Theorem C30_binary64 :
  forall home data (g g' : gcode B64) h,
    load_gen false home data = Ok g -> to_relative_extrusion g = Ok g' ->
    e_ready (program_text data) = true -> Forall modest (program_text data) ->
    (Rabs (extruder (run (write g') (start h)) - extruder (run (program_text data) (start h)))
       <= INR (feed_count (program_text data)) * (/ 2 / 10 ^ 5 + / 10 ^ 9))%R.
Proof. exact relative_drift_B64. Qed.
Print Assumptions C30_binary64.

Example C30_binary64_example :
  load_gen (A:=B64) false home0 rebasing = Ok (loadF rebasing) /\ e_ready (program_text rebasing) = true /\
  Forall modest (program_text rebasing) /\ feed_count (program_text rebasing) = 6.
Proof.
  split; [apply is_ok_get; vm_compute; reflexivity|]. split; [vm_compute; reflexivity|].
  split; [apply modest_all; vm_compute; reflexivity|]. vm_compute. reflexivity.
Qed.

(** C33 with doubles: from its first move after homing on, each axis of the head
    is shifted by the amount asked for, up to a thousandth and a billionth.
    Missing: what is missing from [C33_moves_partial]. *)
Theorem C33_binary64_partial :
  forall home data x y (g g' : gcode B64),
    load_gen false home data = Ok g -> translate x y g = Ok g' ->
    declared (program_text data) = true ->
    (forall a, t_run a Homed (program_text data) <> None) ->
    Forall modest (program_text data) -> modest_shift x -> modest_shift y ->
    forall i a, exists p, t_run a Homed (firstn i (program_text data)) = Some p /\
      (Rabs (head (run (firstn i (write g')) (start (fun _ => 0))) a -
             (head (run (firstn i (program_text data)) (start (fun _ => 0))) a +
              (if moved p then fshift_amount x y a else 0))) <= / 1000 + / 10 ^ 9)%R.
Proof. exact translate_moves_B64. Qed.
Print Assumptions C33_binary64_partial.

Theorem C33_binary64_feeds_partial :
  forall home data x y (g g' : gcode B64) h,
    load_gen false home data = Ok g -> translate x y g = Ok g' -> Forall e_plain (program_text data) ->
    Forall modest (program_text data) -> modest_shift x -> modest_shift y ->
    forall i, (Rabs (extruder (run (firstn i (write g')) (start h)) -
                     extruder (run (firstn i (program_text data)) (start h))) <= / 200000 + / 10 ^ 9)%R.
Proof. exact translate_feeds_B64. Qed.
Print Assumptions C33_binary64_feeds_partial.

Example C33_binary64_example :
  load_gen (A:=B64) false home0 cube = Ok cubeF /\ declared (program_text cube) = true /\
  (forall a, t_run a Homed (program_text cube) =
             Some (match a with Z => Placed | _ => BasedPlaced end)) /\
  Forall modest (program_text cube) /\ modest_shift (some_num 10) /\ modest_shift (some_num 250) /\
  Forall e_plain ["G28"; "G90"; "M82"; "G1 X1 Y2 E3"; "M104 S200"; "G1 X2 E4"]%string.
Proof.
  split; [exact cubeF_loaded|]. split; [vm_compute; reflexivity|].
  split; [intros []; vm_compute; reflexivity|]. split; [apply modest_all; vm_compute; reflexivity|].
  split; [apply modest_shift_num; vm_compute; reflexivity|].
  split; [apply modest_shift_num; vm_compute; reflexivity|].
  repeat (constructor; [exact I|]). constructor.
Qed.

(** C40 with doubles, whatever is asked for: also with targets and heights that
    are not numbers *)
Theorem C40_binary64 :
  forall gr s e mz (g : gcode B64) out x, tempcal gr s e mz g = (out, x) ->
    Forall (fun l => l = EmptyString \/ safe_line l) (added out).
Proof. exact tempcal_safe_B64. Qed.
Print Assumptions C40_binary64.

(** C42 with doubles *)
Theorem C42_binary64 :
  forall gr s e mz (g : gcode B64) out x, tempcal gr s e mz g = (out, x) ->
    forall i a b, nth_error (added out) i = Some a -> nth_error (added out) (S i) = Some b ->
      a <> b \/ a = EmptyString /\ b = EmptyString.
Proof. exact tempcal_differ_B64. Qed.
Print Assumptions C42_binary64.

Example C40_binary64_example :
  added (fst (tempcal (A:=B64) Continuous (lit 240 0) (lit 260 0) (lit 1 1) (loadF tower))) =
  ["M104 S244.0"; "M104 S248.0"; ""; ""; ""]%string.
Proof. vm_compute. reflexivity. Qed.

(** C101: a line written by the filters, read again and written again, is the
    same text: numbers do not creep. *)
Theorem C101_stable :
  forall s c (a : args B64) (m : mstate B64), command_name s = Some c ->
    first_is "G"%char c = true -> c <> "G20"%string -> m_imperial m = false ->
    (forall k x, get_arg k a = Some x -> fin x /\ (Rabs (fval x) <= 10 ^ 9)%R) ->
    exists m' l', motion_step m (new_line (unsplit_text c a)) = Ok (m', l') /\
      command l' = Some c /\ unsplit_text c (largs l') = unsplit_text c a.
Proof. exact unsplit_stable. Qed.
Print Assumptions C101_stable.

Example C101_example :
  command_name "G1 X0.1 E-2"%string = Some "G1"%string /\ m_imperial (init_mstate (A:=B64) home0) = false /\
  (forall k x, get_arg k some_args = Some x -> fin x /\ (Rabs (fval x) <= 10 ^ 9)%R) /\
  unsplit_text "G1" some_args = "G1 X0.300 E-2.00000"%string.
Proof.
  split; [vm_compute; reflexivity|]. split; [reflexivity|]. split; [exact some_args_fine|].
  vm_compute. reflexivity.
Qed.

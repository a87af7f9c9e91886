(** * Properties C27-C35: filters *)
From Coq Require Import List String Ascii ZArith Bool Reals Lra.
From Verif Require Import PyBase Arith ArithQ ArithR ArithB64 Gcoder Filters SpecLoad SpecText SpecMachine SpecFilter Samples.
From Verif Require Import P_Machine P_MachineRefuted P_Filter P_FilterMotion P_FilterRefuted.
Import ListNotations.
Local Open Scope list_scope.

(** C27: a filter pass replaces the lines one by one and in order, block by
    block, and changes nothing else... *)
Theorem C27_filter :
  forall (A : arith) (St : Type) (f : St -> line A -> res (St * fresult)) s g s' g',
    filter_gcode f s g = Ok (s', g') ->
    exists outs, rewrites f s (all_lines g) outs s' /\
      blocks g' = map (@List.concat _) (chop (map (@List.length _) (blocks g)) outs) /\
      same_frame g g'.
Proof. exact @filter_ok. Qed.
Print Assumptions C27_filter.

(** ... and if it raises, some line does so, after the lines before it were
    read. *)
Theorem C27_filter_error :
  forall (A : arith) (St : Type) (f : St -> line A -> res (St * fresult)) s g e,
    filter_gcode f s g = Err e ->
    exists pre l post outs s1, all_lines g = pre ++ l :: post /\ rewrites f s pre outs s1 /\ f s1 l = Err e.
Proof. exact @filter_err. Qed.
Print Assumptions C27_filter_error.

Example C27_example :
  exists s' g', filter_gcode demo_filter 0 cubeF = Ok (s', g') /\ s' = 12 /\
    List.length (write cubeF) = 12 /\ List.length (write g') = 12 /\ write g' <> write cubeF.
Proof.
  set (r := filter_gcode demo_filter 0 cubeF).
  exists (fst (get (0, empty_program) r)), (snd (get (0, empty_program) r)).
  split. { rewrite <- surjective_pairing. apply is_ok_get. vm_compute. reflexivity. }
  split; [vm_compute; reflexivity|]. split; [vm_compute; reflexivity|]. split; [vm_compute; reflexivity|].
  intros H. assert (Hb : forallb (fun p => String.eqb (fst p) (snd p))
    (combine (write (snd (get (0, empty_program) r))) (write cubeF)) = false) by (vm_compute; reflexivity).
  rewrite H in Hb. vm_compute in Hb. discriminate Hb.
Qed.

(** C28, what holds: line by line the converted program extrudes what the
    original does, up to half a unit of the fifth decimal, if the program
    keeps to the discipline of [e_ready].  Missing: programs that move E
    before any M82/M83, that use G90 or G91 (which switch the extruder mode)
    after M82, that return to M82 after M83 without G92, or that use inches;
    for them the property is false, see below and [C35_relative_refuted]. *)
Theorem C28_extrusion_partial :
  forall (A : arith) (E : exact A) home data (g g' : gcode A) h,
    load_gen false home data = Ok g -> to_relative_extrusion g = Ok g' ->
    e_ready (program_text data) = true ->
    same_feed (program_text data) (write g') (start h) (start h).
Proof. exact @relative_same_feed. Qed.
Print Assumptions C28_extrusion_partial.

Example C28_example :
  load_gen (A:=QA) false home0 cube = Ok cubeQ /\ e_ready (program_text cube) = true /\
  (exists g', to_relative_extrusion cubeQ = Ok g') /\ feed_count (program_text cube) = 4 /\
  e_ready rebasing = true /\ feed_count rebasing = 6.
Proof.
  split; [exact cubeQ_loaded|]. split; [vm_compute; reflexivity|].
  split; [apply relative_total|]. repeat split; vm_compute; reflexivity.
Qed.

(** C28 as stated is false: without M82, no M83 is written and the relative
    amounts are read as absolute... *)
Theorem C28_undeclared_refuted :
  exists g g' : gcode B64,
    load_gen false home0 ["G1 X1 E1"; "G1 X2 E2"]%string = Ok g /\ to_relative_extrusion g = Ok g' /\
    write g' = ["G1 X1.000 E1.00000"; "G1 X2.000 E1.00000"]%string /\
    extruder (run ["G1 X1 E1"; "G1 X2 E2"]%string (start (fun _ => 0%R))) = 2%R /\
    extruder (run ["G1 X1.000 E1.00000"; "G1 X2.000 E1.00000"]%string (start (fun _ => 0%R))) = 1%R.
Proof. exact rel_undeclared_refuted. Qed.
Print Assumptions C28_undeclared_refuted.

(** ... a G90 after the M82 undoes the M83 that replaced it... *)
Theorem C28_g90_refuted :
  exists g g' : gcode B64,
    load_gen false home0 ["M82"; "G90"; "G1 X1 E1"; "G1 X2 E2"]%string = Ok g /\ to_relative_extrusion g = Ok g' /\
    write g' = ["M83"; "G90"; "G1 X1.000 E1.00000"; "G1 X2.000 E1.00000"]%string /\
    extruder (run ["M82"; "G90"; "G1 X1 E1"; "G1 X2 E2"]%string (start (fun _ => 0%R))) = 2%R /\
    extruder (run ["M83"; "G90"; "G1 X1.000 E1.00000"; "G1 X2.000 E1.00000"]%string (start (fun _ => 0%R))) = 1%R.
Proof. exact rel_g90_refuted. Qed.
Print Assumptions C28_g90_refuted.

(** ... a retraction after G91 becomes one of everything extruded so far... *)
Theorem C28_g91_refuted :
  exists g g' : gcode B64,
    load_gen false home0 ["M82"; "G1 X1 E100"; "G91"; "G1 E-1"]%string = Ok g /\ to_relative_extrusion g = Ok g' /\
    write g' = ["M83"; "G1 X1.000 E100.00000"; "G91"; "G1 E-101.00000"]%string /\
    extruder (run ["M82"; "G1 X1 E100"; "G91"; "G1 E-1"]%string (start (fun _ => 0%R))) = 99%R /\
    extruder (run ["M83"; "G1 X1.000 E100.00000"; "G91"; "G1 E-101.00000"]%string (start (fun _ => 0%R))) = (-1)%R.
Proof. exact rel_g91_refuted. Qed.
Print Assumptions C28_g91_refuted.

(** ... and amounts extruded under M83 are not taken into account on return
    to M82. *)
Theorem C28_stale_refuted :
  exists g g' : gcode B64,
    load_gen false home0 ["M83"; "G1 X1 E5"; "M82"; "G1 X2 E6"]%string = Ok g /\ to_relative_extrusion g = Ok g' /\
    write g' = ["M83"; "G1 X1 E5"; "M83"; "G1 X2.000 E6.00000"]%string /\
    extruder (run ["M83"; "G1 X1 E5"; "M82"; "G1 X2 E6"]%string (start (fun _ => 0%R))) = 6%R /\
    extruder (run ["M83"; "G1 X1 E5"; "M83"; "G1 X2.000 E6.00000"]%string (start (fun _ => 0%R))) = 11%R.
Proof. exact rel_stale_refuted. Qed.
Print Assumptions C28_stale_refuted.

(** C29: the conversion always succeeds, keeps the number of lines and their
    layers, and makes of each line what [converted] says. *)
Theorem C29_total : forall (A : arith) (g : gcode A), exists g', to_relative_extrusion g = Ok g'.
Proof. exact @relative_total. Qed.
Print Assumptions C29_total.

Theorem C29_lines :
  forall (A : arith) (g g' : gcode A), to_relative_extrusion g = Ok g' ->
    List.length (all_lines g') = List.length (all_lines g) /\
    (forall i l, nth_error (all_lines g) i = Some l -> exists l',
       nth_error (all_lines g') i = Some l' /\ converted (firstn i (all_lines g)) l l') /\
    map (@List.length _) (blocks g') = map (@List.length _) (blocks g) /\ same_frame g g'.
Proof. exact @relative_converted. Qed.
Print Assumptions C29_lines.

Theorem C29_no_m82 :
  forall (A : arith) (g g' : gcode A), to_relative_extrusion g = Ok g' ->
    forall l', In l' (all_lines g') -> is_command "M82" l' = false.
Proof. exact @relative_no_m82. Qed.
Print Assumptions C29_no_m82.

Example C29_example :
  write (relF (loadF rebasing)) =
  ["M83"; "G1 E-1"; "M83"; "G92 E0"; "G1 X1.000 E1.00000"; "G1 X2.000 E1.50000"; "M83"; "G1 E-1"; "G1 E1"; "M83";
   "G92 E0"; "G1 X3.000 E7.12346"]%string.
Proof. vm_compute. reflexivity. Qed.

(** C30: after n E moves the converted program has extruded what the original
    has, up to n half units of the fifth decimal (same conditions as C28). *)
Theorem C30_drift :
  forall (A : arith) (E : exact A) home data (g g' : gcode A) h,
    load_gen false home data = Ok g -> to_relative_extrusion g = Ok g' ->
    e_ready (program_text data) = true ->
    (Rabs (extruder (run (write g') (start h)) - extruder (run (program_text data) (start h)))
       <= INR (feed_count (program_text data)) * (/ 2 / 10 ^ 5))%R.
Proof. exact @relative_drift. Qed.
Print Assumptions C30_drift.

Example C30_example :
  load_gen (A:=QA) false home0 cube = Ok cubeQ /\ e_ready (program_text cube) = true /\
  feed_count (program_text cube) = 4.
Proof. split; [exact cubeQ_loaded|]. split; vm_compute; reflexivity. Qed.

(** C31, what holds: a second conversion changes nothing if every E move came
    after an M82 or M83. *)
Theorem C31_idempotent_partial :
  forall (A : arith) (g g' : gcode A), e_declared (all_lines g) ->
    to_relative_extrusion g = Ok g' -> to_relative_extrusion g' = Ok g'.
Proof. exact @relative_idempotent. Qed.
Print Assumptions C31_idempotent_partial.

Example C31_example : e_declared (all_lines cubeF) /\ e_declared (all_lines (loadF rebasing)).
Proof.
  assert (H : forall g : gcode B64, e_declaredb false (all_lines g) = true -> e_declared (all_lines g)).
  { intros g H i l Hi Hm He. destruct (e_declaredb_ok _ _ H i l Hi Hm He) as [Hf|Hf]; [discriminate Hf|exact Hf]. }
  split; apply H; vm_compute; reflexivity.
Qed.

(** C31 as stated is false: the output of the first pass holds no M83 if the
    input held no M82, so the second pass subtracts again. *)
Theorem C31_twice_refuted :
  exists g g1 g2 : gcode B64,
    load_gen false home0 ["G1 X1 E1"; "G1 X2 E2"]%string = Ok g /\
    to_relative_extrusion g = Ok g1 /\ to_relative_extrusion g1 = Ok g2 /\
    write g1 = ["G1 X1.000 E1.00000"; "G1 X2.000 E1.00000"]%string /\
    write g2 = ["G1 X1.000 E1.00000"; "G1 X2.000 E0.00000"]%string.
Proof. exact rel_twice_refuted. Qed.
Print Assumptions C31_twice_refuted.

(** C32: the translation always succeeds, keeps the number of lines and their
    layers, and makes of each line what [translated] says. *)
Theorem C32_total : forall (A : arith) x y (g : gcode A), exists g', translate x y g = Ok g'.
Proof. exact @translate_total. Qed.
Print Assumptions C32_total.

Theorem C32_lines :
  forall (A : arith) x y (g g' : gcode A), translate x y g = Ok g' ->
    List.length (all_lines g') = List.length (all_lines g) /\
    (forall i l, nth_error (all_lines g) i = Some l -> exists l',
       nth_error (all_lines g') i = Some l' /\
       translated (shift_of x) (shift_of y) (firstn i (all_lines g)) l l') /\
    map (@List.length _) (blocks g') = map (@List.length _) (blocks g) /\ same_frame g g'.
Proof. exact @translate_lines. Qed.
Print Assumptions C32_lines.

Example C32_example :
  write (trF (some_num 10) None (loadF ["G1 X1"; "G90"; "G1 X1 E2 ; c"; "G1 Y1"; "G91"; "G1 X1"]%string)) =
  ["G1 X1"; "G90"; "G1 X11.000 E2.00000"; "G1 Y1"; "G91"; "G1 X1"]%string.
Proof. vm_compute. reflexivity. Qed.

(** C33, what holds: on a printer homing to zero, each axis of the head is
    shifted by the amount asked for from its first move after homing on, up to
    a thousandth, if the program selects G90 before it moves, stays in absolute
    mode and millimetres, and uses G92 at most once per axis, between homing
    and the first move of the axis (an E-only G92 counts for X and Y).
    Missing: all other programs; for them the property is false, see below. *)
Theorem C33_moves_partial :
  forall (A : arith) (E : exact A) home data x y (g g' : gcode A),
    load_gen false home data = Ok g -> translate x y g = Ok g' ->
    declared (program_text data) = true ->
    (forall a, t_run a Homed (program_text data) <> None) ->
    forall i a, exists p, t_run a Homed (firstn i (program_text data)) = Some p /\
      (Rabs (head (run (firstn i (write g')) (start (fun _ => 0))) a -
             (head (run (firstn i (program_text data)) (start (fun _ => 0))) a +
              (if moved p then shift_amount E x y a else 0))) <= / 1000)%R.
Proof. exact @translate_moves. Qed.
Print Assumptions C33_moves_partial.

(** The extruder is not affected beyond rounding, in programs with absolute
    extrusion and no G92. *)
Theorem C33_feeds_partial :
  forall (A : arith) (E : exact A) home data x y (g g' : gcode A) h,
    load_gen false home data = Ok g -> translate x y g = Ok g' -> Forall e_plain (program_text data) ->
    forall i, (Rabs (extruder (run (firstn i (write g')) (start h)) -
                     extruder (run (firstn i (program_text data)) (start h))) <= / 200000)%R.
Proof. exact @translate_feeds. Qed.
Print Assumptions C33_feeds_partial.

Example C33_example :
  load_gen (A:=QA) false home0 cube = Ok cubeQ /\ declared (program_text cube) = true /\
  (forall a, t_run a Homed (program_text cube) =
             Some (match a with Z => Placed | _ => BasedPlaced end)) /\
  Forall e_plain ["G28"; "G90"; "M82"; "G1 X1 Y2 E3"; "M104 S200"; "G1 X2 E4"]%string.
Proof.
  split; [exact cubeQ_loaded|]. split; [vm_compute; reflexivity|]. split.
  - intros []; vm_compute; reflexivity.
  - repeat (constructor; [exact I|]). constructor.
Qed.

(** C33 as stated is false: without G90, or in relative mode, nothing is
    shifted... *)
Theorem C33_undeclared_refuted :
  exists g g' : gcode B64, load_gen false home0 ["G28"; "G1 X5 Y5"]%string = Ok g /\
    translate (some_num 10) None g = Ok g' /\ write g' = ["G28"; "G1 X5 Y5"]%string.
Proof. exact tr_undeclared_refuted. Qed.
Print Assumptions C33_undeclared_refuted.

Theorem C33_relative_refuted :
  exists g g' : gcode B64, load_gen false home0 ["G28"; "G90"; "G91"; "G1 X5 Y5"]%string = Ok g /\
    translate (some_num 10) None g = Ok g' /\ write g' = ["G28"; "G90"; "G91"; "G1 X5 Y5"]%string.
Proof. exact tr_relative_refuted. Qed.
Print Assumptions C33_relative_refuted.

(** ... and after a G92 E0 in the middle of a print, moved by 10, the head is
    at 31 instead of 16. *)
Theorem C33_rebase_refuted :
  exists g g' : gcode B64,
    load_gen false home0 ["G90"; "G1 X5 Y5"; "G92 E0"; "G1 X6 Y6"]%string = Ok g /\
    translate (some_num 10) None g = Ok g' /\
    write g' = ["G90"; "G1 X15.000 Y5.000"; "G92 X-10.000 Y-0.000 E0.00000"; "G1 X6 Y6"]%string /\
    head (run ["G90"; "G1 X5 Y5"; "G92 E0"; "G1 X6 Y6"]%string (start (fun _ => 0%R))) X = 6%R /\
    head (run ["G90"; "G1 X15.000 Y5.000"; "G92 X-10.000 Y-0.000 E0.00000"; "G1 X6 Y6"]%string
              (start (fun _ => 0%R))) X = 31%R.
Proof. exact tr_rebase_refuted. Qed.
Print Assumptions C33_rebase_refuted.

(** C34, what holds: without G92 a translation by zero (or by nothing) gives
    back the very same program. *)
Theorem C34_zero_partial :
  forall (A : arith) x y (g g' : gcode A), @n_eqb A n0 n0 = true ->
    shift_of x = n0 -> shift_of y = n0 ->
    (forall l, In l (all_lines g) -> is_command "G92" l = false) ->
    translate x y g = Ok g' -> g' = g.
Proof. exact @translate_zero. Qed.
Print Assumptions C34_zero_partial.

Example C34_example :
  @n_eqb B64 n0 n0 = true /\ shift_of (A:=B64) None = n0 /\
  forallb (fun l => negb (is_command "G92" l)) (all_lines (loadF ["G90"; "G1 X5 Y5"]%string)) = true.
Proof. split; [vm_compute; reflexivity|]. split; [reflexivity|]. vm_compute. reflexivity. Qed.

(** C34 as stated is false: "G92 E0" also zeroes X and Y. *)
Theorem C34_zero_refuted :
  exists g g' : gcode B64,
    load_gen false home0 ["G90"; "G1 X5 Y5"; "G92 E0"; "G1 X6 Y6"]%string = Ok g /\
    translate (some_num 0) (some_num 0) g = Ok g' /\
    write g' = ["G90"; "G1 X5 Y5"; "G92 X-0.000 Y-0.000 E0.00000"; "G1 X6 Y6"]%string /\
    head (run ["G90"; "G1 X5 Y5"; "G92 E0"; "G1 X6 Y6"]%string (start (fun _ => 0%R))) X = 6%R /\
    head (run ["G90"; "G1 X5 Y5"; "G92 X-0.000 Y-0.000 E0.00000"; "G1 X6 Y6"]%string
              (start (fun _ => 0%R))) X = 11%R.
Proof. exact tr_zero_refuted. Qed.
Print Assumptions C34_zero_refuted.

(** C35 is false: both filters write millimetres into programs in inches. *)
Theorem C35_translate_refuted :
  exists g g' : gcode B64,
    load_gen false home0 ["G20"; "G90"; "G1 X1"]%string = Ok g /\
    translate (some_num 1) None g = Ok g' /\ write g' = ["G20"; "G90"; "G1 X26.400"]%string /\
    head (run ["G20"; "G90"; "G1 X1"]%string (start (fun _ => 0%R))) X = (254 / 10)%R /\
    head (run ["G20"; "G90"; "G1 X26.400"]%string (start (fun _ => 0%R))) X = (67056 / 100)%R.
Proof. exact tr_inch_refuted. Qed.
Print Assumptions C35_translate_refuted.

Theorem C35_relative_refuted :
  exists g g' : gcode B64,
    load_gen false home0 ["G20"; "M82"; "G1 X1 E1"]%string = Ok g /\
    to_relative_extrusion g = Ok g' /\ write g' = ["G20"; "M83"; "G1 X25.400 E25.40000"]%string /\
    head (run ["G20"; "M82"; "G1 X1 E1"]%string (start (fun _ => 0%R))) X = (254 / 10)%R /\
    head (run ["G20"; "M83"; "G1 X25.400 E25.40000"]%string (start (fun _ => 0%R))) X = (64516 / 100)%R.
Proof. exact rel_inch_refuted. Qed.
Print Assumptions C35_relative_refuted.

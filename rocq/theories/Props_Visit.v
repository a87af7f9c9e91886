(** * Properties C36-C39, C69, C70: visiting, pausing, gcode_mod *)
From Coq Require Import List String Ascii ZArith Bool Reals.
From Verif Require Import PyBase Arith ArithQ ArithR ArithB64 Gcoder Filters Visit.
From Verif Require Import SpecLoad SpecText SpecMachine SpecMeasure SpecFilter SpecVisit Samples.
From Verif Require Import P_MachineRefuted P_Visit P_VisitRefuted.
Import ListNotations.
Local Open Scope list_scope.

(** C36: a visitor that only looks sees exactly the events of [all_events], in
    that order, and stops with the first exception it raises... *)
Theorem C36_visits :
  forall (A : arith) (St : Type) (f : St -> event A -> res St) (digits : nat) (g : gcode A) s,
    heights_known g ->
    iterate (observer f) digits s g = do s' <- foldM f (all_events digits g) s; Ok (s', g).
Proof. exact @observe_ok. Qed.
Print Assumptions C36_visits.

(** ... the iterator cannot be made if something is printed at an unknown
    height... *)
Theorem C36_unknown_height :
  forall (A : arith) (St : Type) (f : St -> event A -> res St) (digits : nat) (g : gcode A) s,
    In None (g_zs g) -> iterate (observer f) digits s g = Err TypeError.
Proof. exact @observe_err. Qed.
Print Assumptions C36_unknown_height.

(** ... and the number of a printed layer is the number of lower heights at
    which something is printed. *)
Theorem C36_numbers :
  forall (A : arith) (E : exact A) (digits : nat) (g : gcode A) y,
    printed digits g y = true -> rank digits g y = count_below digits g y.
Proof. exact @rank_count. Qed.
Print Assumptions C36_numbers.

Example C36_example :
  forallb is_some (g_zs cubeF) = true /\
  map show_event (all_events 2 (loadF ["M83"; "G1 Z0.2"; "G1 X1 E1"; "G1 Z0.6"]%string)) =
  [("will", 0, 0%Z, false); ("M83", 0, 0%Z, false); ("did", 0, 0%Z, false);
   ("will", 0, 1%Z, true); ("G1 Z0.2", 0, 1%Z, true); ("G1 X1 E1", 0, 2%Z, true); ("did", 0, 2%Z, true);
   ("will", 2, 3%Z, false); ("G1 Z0.6", 2, 3%Z, false); ("did", 2, 3%Z, false);
   ("will", 3, 4%Z, false); ("did", 3, 3%Z, false)]%string.
Proof. split; vm_compute; reflexivity. Qed.

(** C37, what holds for every program: pausing succeeds, only puts M226 lines
    in front of layers, as many as there are printed layers with a number of
    the list... *)
Theorem C37_pause_count_partial :
  forall (A : arith) (digits : nat) L (g : gcode A), prepared g -> heights_known g ->
    exists g' m ns, pause digits L g = Ok g' /\ plain_command "M226" m /\
      List.length ns = List.length (g_layers g) /\ g_layers g' = fronts m ns (g_layers g) /\
      list_sum ns = List.length (filter (wants_pause digits L g) (g_layers g)) /\ same_rest g g'.
Proof. exact @pause_general. Qed.
Print Assumptions C37_pause_count_partial.

(** ... and does not change what the machine does otherwise; *)
Theorem C37_harmless :
  forall (A : arith) (digits : nat) L (g g' : gcode A), prepared g -> pause digits L g = Ok g' ->
    forall k, run (write g') k = run (write g) k.
Proof. exact @pause_harmless. Qed.
Print Assumptions C37_harmless.

(** if no such layer is equal to an earlier one, they go where they should. *)
Theorem C37_pause_partial :
  forall (A : arith) (digits : nat) L (g : gcode A), prepared g -> heights_known g ->
    distinguishable digits L g ->
    exists g' m, pause digits L g = Ok g' /\ plain_command "M226" m /\
      g_layers g' = map (fun y => fronted m (if wants_pause digits L g y then 1 else 0) y) (g_layers g) /\
      same_rest g g'.
Proof. exact @pause_exact. Qed.
Print Assumptions C37_pause_partial.

Example C37_example :
  prepared cubeF /\ forallb is_some (g_zs cubeF) = true /\ distinguishable 2 [1%Z] cubeF /\
  map (wants_pause 2 [1%Z] cubeF) (g_layers cubeF) = [false; false; true; false] /\
  write (pauseF 2 [1%Z] cubeF) =
  ["; sample"; "G28"; "G90"; "M82"; "G92 E0"; "G1 Z0.3 F1200"; "G1 X10 Y10 E1"; "G1 X20 Y10 E2.5";
   "M226"; "G1 Z0.6"; "G1 X20 Y20 E4"; "M104 S200"; "G1 X10 Y20 E5"]%string.
Proof.
  split; [exact (pr_load false home0 cube cubeF cubeF_loaded)|]. split; [vm_compute; reflexivity|].
  split; [apply distinct_check_ok; vm_compute; reflexivity|]. split; vm_compute; reflexivity.
Qed.

(** C37 as stated is false: of three equal layers, the first gets the pause
    meant for the second. *)
Theorem C37_equal_layers_refuted :
  exists g g' : gcode B64,
    load_gen false home0 ["M83"; "G91"; "G1 Z0.2"; "G1 X1 E1"; "G1 Z0.2"; "G1 X1 E1"; "G1 Z0.2"; "G1 X1 E1"]%string
      = Ok g /\
    map (printed 2 g) (g_layers g) = [false; true; true; true; false] /\
    map (rank 2 g) (g_layers g) = [0; 0; 1; 2; 0] /\
    pause 2 [1%Z] g = Ok g' /\
    write g' = ["M83"; "G91"; "M226"; "G1 Z0.2"; "G1 X1 E1"; "G1 Z0.2"; "G1 X1 E1"; "G1 Z0.2"; "G1 X1 E1"]%string.
Proof. exact pause_equal_refuted. Qed.
Print Assumptions C37_equal_layers_refuted.

(** C38, what holds: at most one pause is inserted if no two layers are at the
    same height. *)
Theorem C38_once_partial :
  forall (A : arith) (E : exact A) (digits : nat) n (g : gcode A), prepared g -> heights_known g ->
    (forall i j a b za zb, i <> j -> nth_error (g_layers g) i = Some a -> nth_error (g_layers g) j = Some b ->
       ly_z a = Some za -> ly_z b = Some zb -> val E (py_round digits za) <> val E (py_round digits zb)) ->
    exists g', pause digits [n] g = Ok g' /\ List.length (write g') <= S (List.length (write g)).
Proof. exact @pause_once. Qed.
Print Assumptions C38_once_partial.

Example C38_example :
  prepared cubeQ /\ forallb is_some (g_zs cubeQ) = true /\
  map (fun y => option_map (fun z => fmt 2 (py_round 2 z)) (ly_z y)) (g_layers cubeQ) =
  [None; Some "0.30"; Some "0.60"; None]%string.
Proof.
  split; [exact (pr_load false home0 cube cubeQ cubeQ_loaded)|]. split; vm_compute; reflexivity.
Qed.

(** C38 as stated is false: lifting and lowering the head splits a layer, and
    each part gets a pause. *)
Theorem C38_hop_refuted :
  exists g g' : gcode B64,
    load_gen false home0
      ["M83"; "G90"; "G1 Z0.2"; "G1 X1 E1"; "G1 Z0.6"; "G1 Z0.2"; "G1 X2 E1"; "G1 Z0.4"; "G1 X1 E1"]%string = Ok g /\
    pause 2 [0%Z] g = Ok g' /\
    write g' = ["M83"; "G90"; "M226"; "G1 Z0.2"; "G1 X1 E1"; "G1 Z0.6"; "M226"; "G1 Z0.2"; "G1 X2 E1";
                "G1 Z0.4"; "G1 X1 E1"]%string.
Proof. exact pause_hop_refuted. Qed.
Print Assumptions C38_hop_refuted.

(** C39, what holds: gcode_mod works on every program that loads and prints
    nothing at an unknown height... *)
Theorem C39_works_partial :
  forall (A : arith) (o : mod_options (A:=A)) data (g : gcode A), load_gen false home0 data = Ok g ->
    heights_known g -> exists out, gcode_mod (A:=A) o data = Ok out.
Proof. exact @mod_known. Qed.
Print Assumptions C39_works_partial.

(** ... and fails on all others, whatever the options. *)
Theorem C39_fails :
  forall (A : arith) (o : mod_options (A:=A)) data (g : gcode A), load_gen false home0 data = Ok g ->
    In None (g_zs g) -> gcode_mod o data = Err TypeError.
Proof. exact @mod_unknown. Qed.
Print Assumptions C39_fails.

(** These are the programs that extrude before the first Z word. *)
Theorem C39_unknown_heights :
  forall (A : arith) home data (g : gcode A), load_gen false home data = Ok g ->
    (In None (g_zs g) <->
     exists i l, nth_error (g_lines g) i = Some l /\ t_extruding (lnotes l) = Some true /\
       z_after (firstn i (g_lines g)) = None).
Proof. exact @load_unknown. Qed.
Print Assumptions C39_unknown_heights.

Example C39_example : load_gen (A:=B64) false home0 cube = Ok cubeF /\ forallb is_some (g_zs cubeF) = true.
Proof. split; [exact cubeF_loaded|vm_compute; reflexivity]. Qed.

(** C39 as stated is false. *)
Theorem C39_unknown_refuted :
  exists g : gcode B64, load_gen false home0 ["G1 X1 E1"; "G1 Z1"]%string = Ok g /\
    gcode_mod (A:=B64) (ModOptions None None false None) ["G1 X1 E1"; "G1 Z1"]%string = Err TypeError.
Proof. exact mod_unknown_refuted. Qed.
Print Assumptions C39_unknown_refuted.

(** C69 *)
Theorem C69_identity :
  forall (A : arith) data out, gcode_mod (A:=A) (ModOptions None None false None) data = Ok out ->
    out = program_text data.
Proof. exact @mod_identity. Qed.
Print Assumptions C69_identity.

Example C69_example : is_ok (gcode_mod (A:=B64) (ModOptions None None false None) cube) = true.
Proof. vm_compute. reflexivity. Qed.

(** C70: the output is that of loading, translating if -x or -y is given,
    converting if -e is given, pausing if -p is given, in that order. *)
Theorem C70_stages :
  forall (A : arith) (o : mod_options (A:=A)) data out,
    gcode_mod o data = Ok out <->
    exists g0 g1 g2 g3, load_gen false home0 data = Ok g0 /\
      (if is_some (o_x o) || is_some (o_y o) then translate (o_x o) (o_y o) g0 = Ok g1 else g1 = g0) /\
      (if o_e o then to_relative_extrusion g1 = Ok g2 else g2 = g1) /\
      heights_known g0 /\
      match o_p o with Some p => pause 2 [p] g2 = Ok g3 | None => g3 = g2 end /\
      out = write g3.
Proof. exact @mod_stages. Qed.
Print Assumptions C70_stages.

Example C70_example :
  gcode_mod (A:=B64) (ModOptions (Some (numF 5)) None true (Some 1%Z))
    ["G90"; "M82"; "G1 Z0.3"; "G1 X1 E1"; "G1 Z0.6"; "G1 X2 E3"]%string =
  Ok ["G90"; "M83"; "G1 Z0.3"; "G1 X6.000 E1.00000"; "M226"; "G1 Z0.6"; "G1 X7.000 E2.00000"]%string.
Proof. vm_compute. reflexivity. Qed.

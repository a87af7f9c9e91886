(** * Property C117: the order of the filters *)
From Coq Require Import List String Bool NArith.
From Verif Require Import PyBase Arith ArithR ArithB64 Gcoder Filters SpecText SpecLoad SpecMachine SpecFilter Samples.
From Verif Require Import P_MachineRefuted P_FilterRefuted P_Commute P_CommuteRefuted.
Import ListNotations.
Local Open Scope list_scope.

(** C117, in every arithmetic: a program without bare G92 (neither X, Y, Z nor
    E) is the same after a translation and a conversion to relative extrusion,
    in either order.  Missing: bare G92, where C117 is false. *)
Theorem C117_order_partial :
  forall (A : arith) x y (g g1 g2 h1 h2 : gcode A),
    (forall l, In l (all_lines g) -> is_command "G92" l = true -> l_e l = None ->
       l_x l <> None \/ l_y l <> None \/ l_z l <> None) ->
    translate x y g = Ok g1 -> to_relative_extrusion g1 = Ok h1 ->
    to_relative_extrusion g = Ok g2 -> translate x y g2 = Ok h2 -> h1 = h2.
Proof. exact @filters_order. Qed.
Print Assumptions C117_order_partial.

Example C117_example :
  forallb (fun l => negb (is_command "G92" l) || match l_e l with Some _ => true | None => false end) (all_lines cubeF) = true /\
  write (relF (trF (some_num 5) (some_num 7) cubeF)) = write (trF (some_num 5) (some_num 7) (relF cubeF)) /\
  write (relF (trF (some_num 5) (some_num 7) (loadF ["G90"; "M82"; "G1 X20 Y10 E2.5"; "G1 X5 E4"]%string))) =
    ["G90"; "M83"; "G1 X25.000 Y17.000 E2.50000"; "G1 X10.000 E1.50000"]%string.
Proof. split; [|split]; vm_compute; reflexivity. Qed.

(** Translating along X and then along Y, or the other way round, is translating
    along both, for every program, with reals... *)
Theorem C117_axes :
  forall x y (g g1 g2 h1 h2 k : gcode RA),
    translate x None g = Ok g1 -> translate None y g1 = Ok h1 ->
    translate None y g = Ok g2 -> translate x None g2 = Ok h2 ->
    translate x y g = Ok k -> h1 = k /\ h2 = k.
Proof. exact axes_R. Qed.
Print Assumptions C117_axes.

(** ... and with doubles, to the last bit. *)
Theorem C117_axes_binary64 :
  forall x y (g g1 g2 h1 h2 k : gcode B64),
    translate x None g = Ok g1 -> translate None y g1 = Ok h1 ->
    translate None y g = Ok g2 -> translate x None g2 = Ok h2 ->
    translate x y g = Ok k -> h1 = k /\ h2 = k.
Proof. exact axes_B64. Qed.
Print Assumptions C117_axes_binary64.

Example C117_axes_example :
  is_ok (translate (A:=B64) (some_num 5) None cubeF) = true /\
  write (trF None (some_num 7) (trF (some_num 5) None cubeF)) = write (trF (some_num 5) (some_num 7) cubeF) /\
  write (trF None (some_num 7) (trF (some_num 5) None (loadF ["G90"; "M82"; "G1 X20 Y10 E2.5"; "G1 X5 E4"]%string))) =
    ["G90"; "M82"; "G1 X25.000 Y17.000 E2.50000"; "G1 X10.000 E4.00000"]%string.
Proof. split; [|split]; vm_compute; reflexivity. Qed.

(** C117 as stated is false: a bare G92 is given words by the translation, and
    no longer resets the extruder for the conversion. *)
Theorem C117_bare_refuted :
  exists g g1 g2 h1 h2 : gcode B64,
    load_gen false home0 ["M82"; "G90"; "G1 X10 E5"; "G92"; "G1 X20 E6"]%string = Ok g /\
    translate (some_num 1) None g = Ok g1 /\ to_relative_extrusion g1 = Ok h1 /\
    to_relative_extrusion g = Ok g2 /\ translate (some_num 1) None g2 = Ok h2 /\
    write h1 = ["M83"; "G90"; "G1 X11.000 E5.00000"; "G92 X-1.000 Y-0.000"; "G1 X20.000 E1.00000"]%string /\
    write h2 = ["M83"; "G90"; "G1 X11.000 E5.00000"; "G92 X-1.000 Y-0.000"; "G1 X20.000 E6.00000"]%string.
Proof. exact order_refuted. Qed.
Print Assumptions C117_bare_refuted.

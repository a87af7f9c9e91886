(** * P_CommuteRefuted: witness for C117 *)
From Coq Require Import List Ascii String ZArith NArith Bool.
From Verif Require Import PyBase Arith ArithB64 Gcoder Filters SpecLoad SpecFilter Samples P_MachineRefuted P_FilterRefuted.
Import ListNotations.
Local Open Scope list_scope.

Lemma order_refuted :
  exists g g1 g2 h1 h2 : gcode B64,
    load_gen false home0 ["M82"; "G90"; "G1 X10 E5"; "G92"; "G1 X20 E6"]%string = Ok g /\
    translate (some_num 1) None g = Ok g1 /\ to_relative_extrusion g1 = Ok h1 /\
    to_relative_extrusion g = Ok g2 /\ translate (some_num 1) None g2 = Ok h2 /\
    write h1 = ["M83"; "G90"; "G1 X11.000 E5.00000"; "G92 X-1.000 Y-0.000"; "G1 X20.000 E1.00000"]%string /\
    write h2 = ["M83"; "G90"; "G1 X11.000 E5.00000"; "G92 X-1.000 Y-0.000"; "G1 X20.000 E6.00000"]%string.
Proof.
  eexists _, _, _, _, _. split; [apply loadF_ok; vm_compute; reflexivity|].
  split; [apply trF_ok; vm_compute; reflexivity|]. split; [apply relF_ok; vm_compute; reflexivity|].
  split; [apply relF_ok; vm_compute; reflexivity|]. split; [apply trF_ok; vm_compute; reflexivity|].
  split; vm_compute; reflexivity.
Qed.

(** * P_StretchSample: concrete programs for the examples of C56-C65 *)
From Coq Require Import List Ascii String ZArith NArith Bool Reals Lra Lia.
From Verif Require Import PyBase Arith ArithR ArithB64 Gcoder Filters Stretch SpecLoad SpecText SpecFilter SpecStretch SpecLoop Samples.
From Verif Require Import P_Load P_MachineRefuted P_Stretch P_StretchRead P_StretchGeo P_StretchErr P_StretchSafe P_StretchRefuted P_Wf.
Import ListNotations.
Local Open Scope list_scope.

(** ** In binary64 *)

Definition squareF : gcode B64 := loadF small_square.
Lemma squareF_loaded : load_gen (A:=B64) false home0 small_square = Ok squareF.
Proof. apply loadF_ok. vm_compute. reflexivity. Qed.

Definition markedF : option (num B64) * list (layer B64) := get (None, []) (setup_filter no_profile Slic3r (g_layers squareF)).
Lemma markedF_ok : setup_filter no_profile Slic3r (g_layers squareF) = Ok markedF.
Proof. apply is_ok_get. vm_compute. reflexivity. Qed.

Lemma squareF_marking : marking no_profile Slic3r squareF (fst markedF) (lines_of (snd markedF)).
Proof. exists (snd markedF). split; [rewrite markedF_ok; now destruct markedF|reflexivity]. Qed.

Lemma squareF_stretched : exists r, stretch no_profile 100 Slic3r default_options squareF = Ok r.
Proof.
  exists (get (empty_program, []) (stretch no_profile 100 Slic3r default_options squareF)).
  apply is_ok_get. vm_compute. reflexivity.
Qed.

(** ** Over the reals *)

Definition squareR : gcode RA :=
  set_layers [Layer (map (fun s => get (new_line s) (reparse (new_line s))) small_square) None n0] empty_program.

Definition markedR : option (num RA) * list (layer RA) := get (None, []) (setup_filter no_profile Slic3r (g_layers squareR)).
Lemma markedR_ok : setup_filter no_profile Slic3r (g_layers squareR) = Ok (Some (lit 4 1), snd markedR).
Proof. reflexivity. Qed.

Lemma squareR_marking : marking no_profile Slic3r squareR (Some (lit 4 1)) (lines_of (snd markedR)).
Proof. exists (snd markedR). split; [exact markedR_ok|reflexivity]. Qed.

Lemma squareR_stretched : exists r, stretch no_profile 100 Slic3r default_options squareR = Ok r.
Proof.
  pose proof (stretch_safe exactR no_profile 100 Slic3r default_options squareR (lit 4 1) (snd markedR) markedR_ok) as H.
  pose proof (slic3r_ends no_profile 100 default_options squareR (Some (lit 4 1)) (snd markedR) markedR_ok) as H'.
  destruct (stretch no_profile 100 Slic3r default_options squareR) as [r|e]; [eauto|].
  exfalso. apply H'; [vm_compute; reflexivity| |f_equal; apply H].
  - intros y [<-|[]]. cbn. lia.
  - rewrite (val_lit exactR). cbn. lra.
  - cbn. lra.
  - cbn. lra.
  - discriminate.
  - repeat (apply Forall_cons; [split; [split; [reflexivity|left; reflexivity]|eexists; reflexivity]|]). apply Forall_nil.
Qed.

Lemma squareR_limit : limit default_options (Some (lit (A:=RA) 4 1)) (Some Outer) = (4 / 100)%R.
Proof. cbn. lra. Qed.

Lemma squareR_to_stretch : forall k, 1 <= k <= 5 ->
  loop_of (map raw (upto k (lines_of (snd markedR)))) = Some Outer /\
  to_stretch default_options (Some (lit 4 1)) (upto k (lines_of (snd markedR))) = true.
Proof.
  intros k Hk.
  assert (Ho : loop_of (map raw (upto k (lines_of (snd markedR)))) = Some Outer).
  { do 6 (destruct k as [|k]; [try lia; reflexivity|]). lia. }
  split; [exact Ho|]. unfold to_stretch. rewrite Ho. apply andb_true_intro. split.
  - do 6 (destruct k as [|k]; [try lia; reflexivity|]). lia.
  - apply (val_ltb RA exactR). rewrite val_n0, squareR_limit. cbn. lra.
Qed.

(** ** Rereading forgets inches *)

Definition inch_travel : list string := ["G20"; "G1 X1"]%string.

Definition x_text (l : line B64) : string := match l_x l with Some x => fmt 3 x | None => "" end.

Lemma inch_reread : exists (g g' : gcode B64) printed,
  load_gen false home0 inch_travel = Ok g /\ stretch no_profile 100 Slic3r default_options g = Ok (g', printed) /\
  write g' = write g /\ map x_text (all_lines g) = [""; "25.400"]%string /\ map x_text (all_lines g') = [""; "1.000"]%string.
Proof.
  exists (loadF inch_travel),
    (fst (get (empty_program, []) (stretch no_profile 100 Slic3r default_options (loadF inch_travel)))),
    (snd (get (empty_program, []) (stretch no_profile 100 Slic3r default_options (loadF inch_travel)))).
  split; [apply loadF_ok; vm_compute; reflexivity|].
  split; [rewrite <- surjective_pairing; apply is_ok_get; vm_compute; reflexivity|].
  repeat apply conj; vm_compute; reflexivity.
Qed.

(** ** Cura *)

Definition cura_wall : list string :=
  ["; CURA_PROFILE_STRING"; "M83"; "G1 X10 Y10 F1800"; ";TYPE:WALL-OUTER"; "G1 X11 Y10 E1"; "G1 X11 Y11 E1";
   "G1 X10 Y11 E1"; "G1 X10 Y10 E1"; ";TYPE:FILL"; "G1 X30 Y10 E1"; "M107"]%string.

Lemma cura_wall_texts :
  Forall (fun s => SpecMachine.command_name s <> Some "G20"%string /\ markable s /\
                   startswith ";CURA_PROFILE_STRING:" s = false) (program_text cura_wall).
Proof.
  repeat (apply Forall_cons; [split; [vm_compute; discriminate|split; [split; [reflexivity|left; reflexivity]|reflexivity]]|]).
  apply Forall_nil.
Qed.

Lemma cura_wall_ends : exists g : gcode B64, load_gen false home0 cura_wall = Ok g /\
  forallb (fun y => negb (ends_moving (ly_lines y))) (g_layers g) = true.
Proof. exists (loadF cura_wall). split; [apply loadF_ok|]; vm_compute; reflexivity. Qed.

Lemma cura_wall_stretched : gcode_stretch 100 cura_wall =
  Ok ["; CURA_PROFILE_STRING"; "M83"; "G1 X10 Y10 F1800"; ";TYPE:WALL-OUTER"; "G1 X11.024 Y9.976 E0.96606 F959.000";
      "G1 X11.024 Y11.024 E0.96606 F959.000"; "G1 X9.976 Y11.024 E0.96606 F959.000";
      "G1 X9.976 Y9.976 E0.96606 F959.000"; ";TYPE:FILL ; stretch-loop-stop"; "G1 X30 Y10 E1"; "M107"]%string.
Proof. vm_compute. reflexivity. Qed.

Definition walledF : option (num B64) * list (layer B64) :=
  get (None, []) (setup_filter no_profile Cura (g_layers (loadF cura_wall))).
Lemma walledF_ok : setup_filter no_profile Cura (g_layers (loadF cura_wall)) = Ok walledF.
Proof. apply is_ok_get. vm_compute. reflexivity. Qed.

(** ** Tests by computation *)

Lemma unstretched_test : forall (A : arith) (ls : list (line A)),
  forallb (fun l => negb (contains "stretch-" (raw l))) ls = true -> unstretched ls.
Proof.
  intros A ls H. rewrite forallb_forall in H. apply Forall_forall. intros l Hl.
  specialize (H l Hl). now destruct (contains "stretch-" (raw l)).
Qed.

Lemma layers_apart_test : forall (A : arith) (ys : list (layer A)),
  forallb (fun y => match last (slic3r_layer None None true (texts y)) None with None => true | Some _ => false end) ys = true ->
  Forall (fun y => last (slic3r_layer None None true (texts y)) None = None) ys.
Proof.
  intros A ys H. rewrite forallb_forall in H. apply Forall_forall. intros y Hy.
  specialize (H y Hy). now destruct (last _ _).
Qed.

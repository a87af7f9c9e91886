(** * P_VisitRefuted: witnesses for C37-C39, and examples *)
From Coq Require Import List Ascii String ZArith NArith Bool Lia.
From Verif Require Import PyBase Arith ArithQ ArithB64 Gcoder Filters Visit SpecLoad SpecVisit Samples.
From Verif Require Import P_MachineRefuted.
Import ListNotations.
Local Open Scope list_scope.

Definition pauseF (digits : nat) (L : list Z) (g : gcode B64) : gcode B64 :=
  get empty_program (pause digits L g).

Lemma pauseF_ok : forall digits L g, is_ok (pause digits L g) = true ->
  pause digits L g = Ok (pauseF digits L g).
Proof. intros. apply is_ok_get. assumption. Qed.

(** three equal layers: the pause for number 1 goes to number 0 *)
Definition equal_layers : list string :=
  ["M83"; "G91"; "G1 Z0.2"; "G1 X1 E1"; "G1 Z0.2"; "G1 X1 E1"; "G1 Z0.2"; "G1 X1 E1"]%string.

Lemma pause_equal_refuted :
  exists g g' : gcode B64,
    load_gen false home0 ["M83"; "G91"; "G1 Z0.2"; "G1 X1 E1"; "G1 Z0.2"; "G1 X1 E1"; "G1 Z0.2"; "G1 X1 E1"]%string
      = Ok g /\
    map (printed 2 g) (g_layers g) = [false; true; true; true; false] /\
    map (rank 2 g) (g_layers g) = [0; 0; 1; 2; 0] /\
    pause 2 [1%Z] g = Ok g' /\
    write g' = ["M83"; "G91"; "M226"; "G1 Z0.2"; "G1 X1 E1"; "G1 Z0.2"; "G1 X1 E1"; "G1 Z0.2"; "G1 X1 E1"]%string.
Proof.
  exists (loadF equal_layers), (pauseF 2 [1%Z] (loadF equal_layers)).
  split; [apply loadF_ok; vm_compute; reflexivity|].
  split; [vm_compute; reflexivity|]. split; [vm_compute; reflexivity|].
  split; [apply pauseF_ok; vm_compute; reflexivity|vm_compute; reflexivity].
Qed.

(** the head is lifted and lowered within a layer: it is paused twice *)
Definition hop : list string :=
  ["M83"; "G90"; "G1 Z0.2"; "G1 X1 E1"; "G1 Z0.6"; "G1 Z0.2"; "G1 X2 E1"; "G1 Z0.4"; "G1 X1 E1"]%string.

Lemma pause_hop_refuted :
  exists g g' : gcode B64,
    load_gen false home0
      ["M83"; "G90"; "G1 Z0.2"; "G1 X1 E1"; "G1 Z0.6"; "G1 Z0.2"; "G1 X2 E1"; "G1 Z0.4"; "G1 X1 E1"]%string = Ok g /\
    pause 2 [0%Z] g = Ok g' /\
    write g' = ["M83"; "G90"; "M226"; "G1 Z0.2"; "G1 X1 E1"; "G1 Z0.6"; "M226"; "G1 Z0.2"; "G1 X2 E1";
                "G1 Z0.4"; "G1 X1 E1"]%string.
Proof.
  exists (loadF hop), (pauseF 2 [0%Z] (loadF hop)).
  split; [apply loadF_ok; vm_compute; reflexivity|].
  split; [apply pauseF_ok; vm_compute; reflexivity|vm_compute; reflexivity].
Qed.

(** something is extruded before any Z is given *)
Lemma mod_unknown_refuted :
  exists g : gcode B64, load_gen false home0 ["G1 X1 E1"; "G1 Z1"]%string = Ok g /\
    gcode_mod (A:=B64) (ModOptions None None false None) ["G1 X1 E1"; "G1 Z1"]%string = Err TypeError.
Proof.
  exists (loadF ["G1 X1 E1"; "G1 Z1"]%string).
  split; [apply loadF_ok; vm_compute; reflexivity|vm_compute; reflexivity].
Qed.

(** ** For the examples *)

Definition distinct_check (digits : nat) (L : list Z) (g : gcode B64) : bool :=
  let n := List.length (g_layers g) in
  forallb (fun i => forallb (fun j =>
    negb (Nat.ltb i j) ||
    match nth_error (g_layers g) i, nth_error (g_layers g) j with
    | Some a, Some b => negb (wants_pause digits L g b) ||
        negb (wants_pause digits L g a) && negb (lines_eqb (g_light g) (ly_lines a) (ly_lines b))
    | _, _ => true
    end) (seq 0 n)) (seq 0 n).

Lemma distinct_check_ok : forall digits L g, distinct_check digits L g = true -> distinguishable digits L g.
Proof.
  intros digits L g H i j a b m Hij Ha Hb Hw _. unfold distinct_check in H.
  rewrite forallb_forall in H.
  assert (Hi : i < List.length (g_layers g)) by (apply nth_error_Some; congruence).
  assert (Hj : j < List.length (g_layers g)) by (apply nth_error_Some; congruence).
  specialize (H i ltac:(apply in_seq; lia)). rewrite forallb_forall in H.
  specialize (H j ltac:(apply in_seq; lia)). rewrite Ha, Hb, Hw in H.
  apply Nat.ltb_lt in Hij. rewrite Hij in H. cbn [negb orb] in H.
  apply andb_prop in H as [H1 H2]. apply negb_true_iff in H1, H2. rewrite H1. exact H2.
Qed.

(** the text of an event, to show one *)
Definition show_event (e : event B64) : string * nat * Z * bool :=
  match e with
  | WillVisit y i => ("will"%string, in_number i, in_line i, in_printed i)
  | VisitLine l i => (raw l, in_number i, in_line i, in_printed i)
  | DidVisit y i => ("did"%string, in_number i, in_line i, in_printed i)
  end.

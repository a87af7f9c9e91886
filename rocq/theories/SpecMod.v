(** * SpecMod: what the relative-extrusion conversion and gcode_mod should leave alone *)
From Coq Require Import List Ascii String ZArith Bool Reals.
From Verif Require Import PyBase SpecText SpecMachine SpecFilter.
Import ListNotations.
Local Open Scope list_scope.

(** the line moves axis [a] *)
Definition drives (a : axis) (s : string) : bool :=
  match op_of s with Move w _ _ => named w a | _ => false end.

(** how many lines move axis [a] *)
Definition drive_count (a : axis) (ss : list string) : nat := List.length (filter (drives a) ss).

(** the program does not switch to inches *)
Definition metric (ss : list string) : Prop := Forall (fun s => op_of s <> Inches) ss.

(** the program stays in absolute mode and never sets the logical position of
    axis [a] *)
Definition fixed_axis (a : axis) (ss : list string) : Prop :=
  Forall (fun s => match op_of s with
                   | Relative => False
                   | SetPosition w e => named w a = false /\ bare w e = false
                   | _ => True
                   end) ss.

(** the line has an E word that the extruder obeys *)
Definition has_e (s : string) : bool :=
  match op_of s with Move _ (Some _) _ | SetPosition _ (Some _) => true | _ => false end.
Definition e_count (ss : list string) : nat := List.length (filter has_e ss).

(** no inches and no G92 without a word *)
Definition settled (s : string) : Prop :=
  match op_of s with Inches => False | SetPosition w e => bare w e = false | _ => True end.

(** As [e_step], but without G90 after M83 too: E stays in the mode that the
    last of M82 and M83 selected. *)
Definition m_step (p : e_phase) (s : string) : option e_phase :=
  match p, op_of s with Native, Absolute => None | _, _ => e_step p s end.
Fixpoint m_ready_from (p : e_phase) (ss : list string) : bool :=
  match ss with
  | [] => true
  | s :: t => match m_step p s with None => false | Some q => m_ready_from q t end
  end.
Definition m_ready (ss : list string) : bool := m_ready_from Begin ss.

(** [with_pauses n ss out]: [out] is [ss] with [n] pauses put in. *)
Inductive with_pauses : nat -> list string -> list string -> Prop :=
| wp_nil : with_pauses 0 [] []
| wp_line n s ss out : with_pauses n ss out -> with_pauses n (s :: ss) (s :: out)
| wp_pause n ss out : with_pauses n ss out -> with_pauses (S n) ss ("M226"%string :: out).

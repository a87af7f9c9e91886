(** * SpecBinary64: words the theorems about IEEE doubles use

    The reference machine reads the numbers of a program exactly, as real
    numbers; the code computes with doubles. *)
From Coq Require Import List String ZArith Bool Reals Floats.SpecFloat.
From Flocq Require Import Core BinarySingleNaN.
From Verif Require Import PyBase Arith ArithR ArithB64 Gcoder SpecText SpecMachine SpecFilter.
Import ListNotations.
Local Open Scope R_scope.

(** the real number a double stands for (0 for the infinities and NaN) *)
Definition fval (x : num B64) : R := SF2R radix2 x.

(** the double is a number (and is represented as IEEE 754 says) *)
Definition fin (x : num B64) : Prop := valid_binary prec emax x = true /\ is_finite_SF x = true.

(** the double nearest to a real number, ties to even, unbounded exponents *)
Definition rnd (x : R) : R := round radix2 (SpecFloat.fexp prec emax) ZnearestE x.

(** no coordinate, feed rate or E word of the line is beyond a million *)
Definition modest (s : string) : Prop :=
  forall k v, number_of (letter_code k) (words s) = Some v -> Rabs v <= 10 ^ 6.

(** Line by line, [ss'] run from [k'] extrudes what [ss] run from [k] does, up to
    [d] on every line that moves the extruder. *)
Fixpoint feed_within (d : R) (ss ss' : list string) (k k' : machine) : Prop :=
  match ss, ss' with
  | [], [] => True
  | s :: t, s' :: t' =>
      Rabs (advance s' k' - advance s k) <= (if feeds s then d else 0) /\
      feed_within d t t' (exec_line s k) (exec_line s' k')
  | _, _ => False
  end.

(** the translation asked for on the command line, per axis *)
Definition famount (o : option (num B64)) : R := match o with Some x => fval x | None => 0 end.
Definition fshift_amount (x y : option (num B64)) (a : axis) : R :=
  match a with X => famount x | Y => famount y | Z => 0 end.

(** a shift that is a number, and no more than a million *)
Definition modest_shift (o : option (num B64)) : Prop :=
  match o with Some x => fin x /\ Rabs (fval x) <= 10 ^ 6 | None => True end.

(** A line in millimetres with modest numbers that the code and the machine
    understand alike: not a G28 whose axis words are all (next to) zero, not a
    bare G92. *)
Definition plain_line (s : string) : Prop :=
  modest s /\
  match op_of s with
  | Inches => False
  | Home w => (forall a, w a = None) \/ (exists a v, w a = Some v /\ / 10 ^ 20 <= Rabs v)
  | SetPosition w e => bare w e = false
  | _ => True
  end.

(** how many lines can add to the error of the tracked position: relative moves
    and G92 *)
Fixpoint drifts (ss : list string) (k : machine) : nat :=
  match ss with
  | [] => 0%nat
  | s :: t =>
      ((match op_of s with
        | SetPosition _ _ => 1
        | Move _ _ _ => if relative k then 1 else 0
        | _ => 0
        end) + drifts t (exec_line s k))%nat
  end.

(** the head never leaves a cube of two kilometres *)
Definition in_volume (ss : list string) (k : machine) : Prop :=
  forall i a, Rabs (head (run (firstn i ss) k) a) <= 10 ^ 6.

(** where the end stops are *)
Definition fhome_of (h : num B64 * num B64 * num B64) : axis -> R :=
  fun a => match a with X => fval (fst (fst h)) | Y => fval (snd (fst h)) | Z => fval (snd h) end.
Definition fhome_fin (h : num B64 * num B64 * num B64) : Prop :=
  fin (fst (fst h)) /\ fin (snd (fst h)) /\ fin (snd h).

(** the double is the real number up to [d] *)
Definition near (d : R) (x : num B64) (v : R) : Prop := fin x /\ Rabs (fval x - v) <= d.

(** the tracked position, and the position a line notes, are near the head *)
Definition state_near (d : R) (m : mstate B64) (k : machine) : Prop :=
  near d (m_x m) (head k X) /\ near d (m_y m) (head k Y) /\ near d (m_z m) (head k Z).
Definition notes_near (d : R) (l : line B64) (k : machine) : Prop :=
  exists x y z, t_x (lnotes l) = Some x /\ t_y (lnotes l) = Some y /\ t_z (lnotes l) = Some z /\
    near d x (head k X) /\ near d y (head k Y) /\ near d z (head k Z).

(** no more than a kilometre of filament is ever fed or withdrawn *)
Definition in_reach (ss : list string) (k : machine) : Prop :=
  forall i, Rabs (extruder (run (firstn i ss) k)) <= 10 ^ 6.

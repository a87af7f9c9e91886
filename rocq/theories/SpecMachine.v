(** * SpecMachine: a reference machine for the motion commands

    Independent of the tracking code: a machine over the reals that executes
    the documented meaning of each command. *)
From Coq Require Import List Ascii String ZArith NArith Bool Reals.
From Verif Require Import PyBase Arith ArithR Gcoder SpecText.
Import ListNotations.

(** The name of the command on a line: its first word ("G1"), None for
    comments and free text. *)
Definition command_name (s : string) : option string :=
  match words s with
  | [] => None
  | (c, v) :: _ => if String.eqb c "" then None else Some (upper c ++ v)%string
  end.

(** The number behind a letter: the last word with that letter and a number,
    read exactly. *)
Fixpoint number_of (l : string) (ws : list token) : option R :=
  match ws with
  | [] => None
  | (c, v) :: t =>
      match number_of l t with
      | Some x => Some x
      | None => if String.eqb c l && negb (is_empty v) then py_float (A:=RA) v else None
      end
  end.

Inductive axis := X | Y | Z.
Definition axis_letter (a : axis) : string :=
  match a with X => "x" | Y => "y" | Z => "z" end.

Inductive op :=
| Move (w : axis -> option R) (e : option R) (f : option R)
| Home (w : axis -> option R)
| SetPosition (w : axis -> option R) (e : option R)
| Inches | Millimetres
| Absolute | Relative
| AbsoluteE | RelativeE
| Tool (n : string)
| Other.

(** What a line asks for. *)
Definition op_of (s : string) : op :=
  let w a := number_of (axis_letter a) (words s) in
  let e := number_of "e" (words s) in
  let f := number_of "f" (words s) in
  match command_name s with
  | None => Other
  | Some c =>
      if str_mem c ["G0"; "G1"; "G2"; "G3"]%string then Move w e f
      else if String.eqb c "G28" then Home w
      else if String.eqb c "G92" then SetPosition w e
      else if String.eqb c "G20" then Inches
      else if String.eqb c "G21" then Millimetres
      else if String.eqb c "G90" then Absolute
      else if String.eqb c "G91" then Relative
      else if String.eqb c "M82" then AbsoluteE
      else if String.eqb c "M83" then RelativeE
      else match c with String "T" n => Tool n | _ => Other end
  end.

Local Open Scope R_scope.

Record machine := Machine {
  inches : bool; relative : bool; relative_e : bool;
  head : axis -> R;          (* position of the head, machine coordinates *)
  origin : axis -> R;        (* machine coordinate of the logical zero *)
  home : axis -> R;          (* where the end stops are *)
  extruder : R; extruder_origin : R }.

Definition start (h : axis -> R) : machine :=
  Machine false false false (fun _ => 0) (fun _ => 0) h 0 0.

(** millimetres *)
Definition mm (k : machine) (v : R) : R := if inches k then 254 / 10 * v else v.

Definition named (w : axis -> option R) (a : axis) : bool :=
  match w a with Some _ => true | None => false end.

(** no axis and no extruder word: "G92" alone stands for zero everywhere *)
Definition bare (w : axis -> option R) (e : option R) : bool :=
  negb (named w X || named w Y || named w Z || match e with Some _ => true | None => false end).

Definition exec (o : op) (k : machine) : machine :=
  match o with
  | Move w e _ =>
      Machine (inches k) (relative k) (relative_e k)
        (fun a => match w a with
                  | None => head k a
                  | Some v => (if relative k then head k a else origin k a) + mm k v
                  end)
        (origin k) (home k)
        (match e with
         | None => extruder k
         | Some v => (if relative_e k then extruder k else extruder_origin k) + mm k v
         end)
        (extruder_origin k)
  | Home w =>
      let all := negb (named w X || named w Y || named w Z) in
      Machine (inches k) (relative k) (relative_e k)
        (fun a => if all || named w a then home k a else head k a)
        (fun a => if all || named w a then 0 else origin k a)
        (home k) (extruder k) (extruder_origin k)
  | SetPosition w e =>
      Machine (inches k) (relative k) (relative_e k) (head k)
        (fun a => match w a with
                  | Some v => head k a - mm k v
                  | None => if bare w e then head k a else origin k a
                  end)
        (home k) (extruder k)
        (match e with
         | Some v => extruder k - mm k v
         | None => if bare w e then extruder k else extruder_origin k
         end)
  | Inches => Machine true (relative k) (relative_e k) (head k) (origin k) (home k)
                      (extruder k) (extruder_origin k)
  | Millimetres => Machine false (relative k) (relative_e k) (head k) (origin k) (home k)
                           (extruder k) (extruder_origin k)
  | Absolute => Machine (inches k) false false (head k) (origin k) (home k)
                        (extruder k) (extruder_origin k)
  | Relative => Machine (inches k) true true (head k) (origin k) (home k)
                        (extruder k) (extruder_origin k)
  | AbsoluteE => Machine (inches k) (relative k) false (head k) (origin k) (home k)
                         (extruder k) (extruder_origin k)
  | RelativeE => Machine (inches k) (relative k) true (head k) (origin k) (home k)
                         (extruder k) (extruder_origin k)
  | Tool _ | Other => k
  end.

Definition exec_line (s : string) (k : machine) : machine := exec (op_of s) k.
Definition run (ss : list string) (k : machine) : machine :=
  fold_left (fun k s => exec_line s k) ss k.

(** logical coordinate of the head *)
Definition logical (k : machine) (a : axis) : R := head k a - origin k a.

(** The lines on which the code and the machine agree: not a G28 whose axis
    words are all zero, not a bare G92. *)
Definition clear_words (s : string) : Prop :=
  match op_of s with
  | Home w => (forall a, w a = None) \/ (exists a v, w a = Some v /\ v <> 0)
  | SetPosition w e => bare w e = false
  | _ => True
  end.

(** no re-basing of the extruder *)
Definition no_rebase_e (s : string) : Prop :=
  match op_of s with
  | SetPosition w e => e = None /\ bare w e = false
  | _ => True
  end.

(** Modal state after some lines, by the last mode command among them. *)
Definition mode_relative (ss : list string) : bool :=
  fold_left (fun r s => match op_of s with
                        | Absolute => false | Relative => true | _ => r end) ss false.
Definition mode_relative_e (ss : list string) : bool :=
  fold_left (fun r s => match op_of s with
                        | Absolute | AbsoluteE => false
                        | Relative | RelativeE => true | _ => r end) ss false.

Local Close Scope R_scope.

Section Track.
Context {A : arith}.
Variable E : exact A.
Notation val := (val E).

(** the tracked state describes the machine *)
Definition tracks (m : mstate A) (k : machine) : Prop :=
  m_imperial m = inches k /\ m_relative m = relative k /\ m_relative_e m = relative_e k /\
  val (m_x m) = head k X /\ val (m_y m) = head k Y /\ val (m_z m) = head k Z /\
  val (m_ox m) = origin k X /\ val (m_oy m) = origin k Y /\ val (m_oz m) = origin k Z /\
  val (m_hx m) = home k X /\ val (m_hy m) = home k Y /\ val (m_hz m) = home k Z.

(** a line notes the position of the machine *)
Definition notes_head (l : line A) (k : machine) : Prop :=
  exists x y z, t_x (lnotes l) = Some x /\ t_y (lnotes l) = Some y /\ t_z (lnotes l) = Some z /\
    val x = head k X /\ val y = head k Y /\ val z = head k Z.

Definition home_of (h : num A * num A * num A) : axis -> R :=
  fun a => match a with X => val (fst (fst h)) | Y => val (snd (fst h)) | Z => val (snd h) end.

(** the machine a tracked state describes *)
Definition machine_of (m : mstate A) : machine :=
  Machine (m_imperial m) (m_relative m) (m_relative_e m)
    (fun a => match a with X => val (m_x m) | Y => val (m_y m) | Z => val (m_z m) end)
    (fun a => match a with X => val (m_ox m) | Y => val (m_oy m) | Z => val (m_oz m) end)
    (fun a => match a with X => val (m_hx m) | Y => val (m_hy m) | Z => val (m_hz m) end)
    (val (m_e m)) (val (m_oe m)).

End Track.

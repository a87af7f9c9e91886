(** * SpecLoop: the loops that the comments of the slicers delimit *)
From Coq Require Import List Ascii String Bool.
From Verif Require Import PyBase Arith Gcoder Stretch SpecStretch.
Import ListNotations.
Local Open Scope list_scope.

(** ** Slic3r *)

Inductive slic3r_comment := ExternalPerimeter | Perimeter | FirstPoint | Unretract | Something.

Definition slic3r_says (t : string) : slic3r_comment :=
  if contains "; perimeter external" t then ExternalPerimeter
  else if contains "; perimeter" t then Perimeter
  else if contains "; move to first perimeter point" t then FirstPoint
  else if contains "unretract" t then Unretract
  else Something.

(** is the next perimeter an external one? *)
Fixpoint next_perimeter (ts : list string) : option bool :=
  match ts with
  | [] => None
  | t :: rest =>
      match slic3r_says t with
      | ExternalPerimeter => Some true
      | Perimeter => Some false
      | _ => next_perimeter rest
      end
  end.

(** the loop drawn at the line [t], after the loop [now]; the first external
    perimeter of a layer is an outer edge, the others are inner edges.  Second:
    no external perimeter has been drawn yet *)
Definition slic3r_step (now : option loop) (first : bool) (t : string) (rest : list string) : option loop * bool :=
  let external := (Some (if first then Outer else Inner), false) in
  match slic3r_says t with
  | ExternalPerimeter =>
      match now with Some Inner | Some Outer => (now, first) | _ => external end
  | Perimeter => (Some Plain, first)
  | FirstPoint =>
      match next_perimeter rest with
      | Some true => external
      | Some false => (Some Plain, first)
      | None => (now, first)
      end
  | Unretract => (now, first)
  | Something => (None, first)
  end.

(** The loops in force at the lines of a layer.  A loop left open by the layer
    before ([carried]) stays in force until a loop of this layer begins. *)
Fixpoint slic3r_layer (carried now : option loop) (first : bool) (ts : list string) : list (option loop) :=
  match ts with
  | [] => []
  | t :: rest =>
      let '(now1, first1) := slic3r_step now first t rest in
      let c := match now1, now with
               | Some k, _ => Some k
               | None, Some _ => None
               | None, None => carried
               end in
      c :: slic3r_layer c now1 first1 rest
  end.

(** ** Cura *)

Inductive cura_comment := Wall (k : loop) | Fill | Nothing.

Definition cura_says (t : string) : cura_comment :=
  if contains "TYPE:WALL-OUTER" t then Wall Outer
  else if contains "TYPE:WALL-INNER" t then Wall Inner
  else if contains "TYPE:SKIN" t then Wall Plain
  else if contains "TYPE:FILL" t then Fill
  else Nothing.

(** [inside]: a loop has begun and not ended; [next]: the loop that begins at
    this line.  The last line of a layer ends its loop. *)
Fixpoint cura_layer (carried : option loop) (inside : bool) (next : option loop) (ts : list string) :
  list (option loop) :=
  match ts with
  | [] => []
  | t :: rest =>
      let inside1 := match next with Some _ => true | None => inside end in
      let '(inside2, next2) :=
        match cura_says t with
        | Wall k => (false, Some k)
        | Fill => (false, None)
        | Nothing => (inside1, None)
        end in
      let inside3 := match rest with [] => false | _ => inside2 end in
      let c := match next with
               | Some k => Some k
               | None => if inside && negb inside3 then None else carried
               end in
      c :: cura_layer c inside3 next2 rest
  end.

(** ** Skeinforge *)

(** the command and the text of a line *)
Definition skeinforge_step (carried : option loop) (l : option string * string) : option loop :=
  let '(c, t) := l in
  if cmd_is c "M101" || cmd_is c "M103" then carried
  else if startswith "(<loop>" t then Some Plain
  else if startswith "(<edge> outer" t then Some Outer
  else if startswith "(<edge>" t then Some Inner
  else if startswith "(</edge>)" t || startswith "(</loop>)" t then None
  else carried.

Fixpoint skeinforge_layer (carried : option loop) (ls : list (option string * string)) : list (option loop) :=
  match ls with
  | [] => []
  | l :: rest => let c := skeinforge_step carried l in c :: skeinforge_layer c rest
  end.

(** ** Programs *)

Section Program.
Context {A : arith}.

Definition texts (y : layer A) : list string := map raw (ly_lines y).

(** the loops in force at the lines of a layer *)
Definition layer_loops (d : dialect) (carried : option loop) (y : layer A) : list (option loop) :=
  match d with
  | Slic3r => slic3r_layer carried None true (texts y)
  | Cura => cura_layer carried false None (texts y)
  | Skeinforge => skeinforge_layer carried (map (fun l => (command l, raw l)) (ly_lines y))
  end.

(** the loops in force at the lines of a program *)
Fixpoint loops (d : dialect) (carried : option loop) (ys : list (layer A)) : list (option loop) :=
  match ys with
  | [] => []
  | y :: t => let cs := layer_loops d carried y in cs ++ loops d (last cs carried) t
  end.

(** no text speaks of stretching *)
Definition unstretched (ls : list (line A)) : Prop :=
  Forall (fun l => contains "stretch-" (raw l) = false) ls.
End Program.

(** ** Edge widths *)

Definition blank (s : string) : Prop := s <> ""%string /\ str_all is_space s = true.
Definition number_text (s : string) : Prop :=
  s <> ""%string /\ str_all (fun c => Ascii.eqb c "." || is_digit c) s = true.

(** the text [t] declares the edge width written [v] *)
Definition declares (d : dialect) (t v : string) : Prop :=
  number_text v /\
  match d with
  | Slic3r => exists a b rest, blank a /\ blank b /\
      t = ("; external perimeters extrusion width" ++ a ++ "=" ++ b ++ v ++ "mm" ++ rest)%string
  | Skeinforge => exists rest, t = ("(<edgeWidth> " ++ v ++ rest)%string /\
      (forall c r, rest = String c r -> (Ascii.eqb c "." || is_digit c) = false)
  | Cura => False
  end.

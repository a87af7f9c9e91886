(** * SpecStretch: vocabulary for statements about the stretch filters *)
From Coq Require Import List Ascii String ZArith NArith Bool Reals.
From Verif Require Import PyBase Arith ArithR Gcoder Filters SpecText SpecLoad SpecMachine SpecFilter Stretch.
Import ListNotations.
Local Open Scope list_scope.

(** ** Texts *)

(** the remarks a stretch filter may append to a line *)
Definition remarks : list string :=
  ["stretch-extrusion-on"; "stretch-extrusion-off"; "stretch-loop-start";
   "stretch-loop-start stretch-inner-edge-start"; "stretch-loop-start stretch-outer-edge-start";
   "stretch-loop-stop"]%string.

(** [marked s t]: the text [t] is [s] with remarks appended as comments *)
Inductive marked : string -> string -> Prop :=
| marked_none s : marked s s
| marked_more s t sep r :
    marked s t -> In sep [" ; "; "; "]%string -> In r remarks -> marked s (t ++ sep ++ r)%string.

(** the text is one line and marks appended to it are comments *)
Definition markable (s : string) : Prop :=
  lacks nl s = true /\
  (no_outer_paren s = true \/ exists c, s = String "(" (c ++ ")") /\ lacks "(" c = true /\ lacks ")" c = true).

(** ** Loops *)

Inductive loop := Inner | Outer | Plain.

(** the kind of loop a text opens *)
Definition opened (t : string) : option loop :=
  if contains "stretch-loop-start stretch-inner-edge-start" t then Some Inner
  else if contains "stretch-loop-start stretch-outer-edge-start" t then Some Outer
  else if contains "stretch-loop-start" t then Some Plain
  else None.

(** the loop that is open after these texts, latest first: the one of the most
    recent start mark, unless a stop mark came later *)
Fixpoint loop_of (texts : list string) : option loop :=
  match texts with
  | [] => None
  | t :: before =>
      match opened t with
      | Some k => Some k
      | None => if contains "stretch-loop-stop" t then None else loop_of before
      end
  end.

Section Moves.
Context {A : arith}.

(** a G0 or G1 with an X or a Y word *)
Definition xy_move (l : line A) : bool :=
  (is_command "G0" l || is_command "G1" l) &&
  (match l_x l with Some _ => true | None => false end ||
   match l_y l with Some _ => true | None => false end).

(** the largest displacement for an edge width and a loop *)
Definition limit (o : options (A:=A)) (w : option (num A)) (k : option loop) : num A :=
  match w, k with
  | Some w, Some Inner => n_mul w (n_mul (o_inside o) (o_strength o))
  | Some w, Some Outer => n_mul w (n_mul (o_outside o) (o_strength o))
  | Some w, Some Plain => n_mul w (n_mul (o_loop o) (o_strength o))
  | _, _ => n0
  end.

(** Below, [seen] are the marked lines read so far, latest first. *)

(** the latest line is a move of a loop *)
Definition loop_move (seen : list (line A)) : bool :=
  match seen with
  | [] => false
  | l :: _ => xy_move l && match loop_of (map raw seen) with Some _ => true | None => false end
  end.

(** the latest line is a move of a loop with a positive limit *)
Definition to_stretch (o : options) (w : option (num A)) (seen : list (line A)) : bool :=
  loop_move seen && n_ltb n0 (limit o w (loop_of (map raw seen))).

(** the point the moves of loops have reached *)
Fixpoint point_of (seen : list (line A)) : num A * num A :=
  match seen with
  | [] => (n0, n0)
  | l :: before =>
      let '(x, y) := point_of before in
      if loop_move seen then
        (match l_x l with Some v => v | None => x end, match l_y l with Some v => v | None => y end)
      else (x, y)
  end.

(** the feedrate the moves of loops have reached *)
Fixpoint feed_of (seen : list (line A)) : num A :=
  match seen with
  | [] => lit 9590 1
  | l :: before =>
      if loop_move seen then
        match l_f l with
        | Some f => if truthy f then f else feed_of before
        | None => feed_of before
        end
      else feed_of before
  end.

(** the lines up to number [k], latest first *)
Definition upto (k : nat) (ls : list (line A)) : list (line A) := rev (firstn (S k) ls).

(** the lines of a list of layers *)
Definition lines_of (ys : list (layer A)) : list (line A) := List.concat (map ly_lines ys).

(** same line with another text *)
Definition same_but_text (l l' : line A) : Prop :=
  command l' = command l /\ is_move l' = is_move l /\ largs l' = largs l /\ lnotes l' = lnotes l.

(** same line, though the command of a line without any word may have changed *)
Definition reads_alike (l l' : line A) : Prop :=
  (recognised (raw l) = true -> command l' = command l) /\
  is_move l' = is_move l /\ largs l' = largs l /\ lnotes l' = lnotes l.

(** the last line is such a move *)
Definition ends_moving (ls : list (line A)) : bool := xy_move (last ls (new_line "")).

(** the edge width (None: unknown) and the marked lines of a program *)
Definition marking profile d (g : gcode A) (w : option (num A)) (ms : list (line A)) : Prop :=
  exists ys, setup_filter profile d (g_layers g) = Ok (w, ys) /\ ms = lines_of ys.

End Moves.

(** ** Directions *)

(** [j] comes after [i] in this direction, or is [i] *)
Definition beyond (dir : direction) (i j : BinNums.Z) : Prop :=
  match dir with Forward => (i <= j)%Z | Backward => (j <= i)%Z end.

(** ** Where the loops of Slic3r begin and end *)

Definition is_start (t : string) : bool := contains "stretch-loop-start" t.
Definition is_off (t : string) : bool := contains "stretch-extrusion-off" t.

(** [p] holds of none of the texts numbered [lo] to [hi] (exclusive) *)
Definition none_between (p : string -> bool) (ts : list string) (lo hi : nat) : bool :=
  negb (existsb p (firstn (hi - lo) (skipn lo ts))).

(** the first text from number [k] on with property [p] *)
Fixpoint first_from (p : string -> bool) (ts : list string) (k : nat) : option nat :=
  match ts with
  | [] => None
  | t :: rest =>
      match k with
      | O => if p t then Some O else option_map S (first_from p rest O)
      | S k' => option_map S (first_from p rest k')
      end
  end.

(** the text number [k] has property [p] *)
Definition at_ (p : string -> bool) (ts : list string) (k : nat) : bool :=
  match nth_error ts k with Some t => p t | None => false end.

(** the last text before number [n] with property [p] *)
Fixpoint last_before (p : string -> bool) (ts : list string) (n : nat) : option nat :=
  match n with
  | O => None
  | S k => if at_ p ts k then Some k else last_before p ts k
  end.

(** The marks around the line number [i] of a layer delimit its loop: no other
    loop starts before the extrusion stops, and the extrusion has not stopped
    since the loop began.  (A line that begins the loop may stop the extrusion
    itself, but then the line before it does not.) *)
Definition enclosed (ts : list string) (i : nat) : bool :=
  match first_from is_off ts (S i) with
  | Some f => none_between is_start ts (S i) f
  | None => true
  end &&
  (if at_ is_off ts i then
     at_ is_start ts i && match i with O => true | S j => negb (at_ is_off ts j) end
   else
     match last_before is_start ts (S i) with
     | Some a => none_between is_off ts (S a) i
     | None => true
     end).

(** the loop of the line number [i] of a layer begins and ends in the layer *)
Definition ends_here (ts : list string) (i : nat) : bool :=
  match last_before is_start ts (S i), first_from is_off ts (S i) with Some _, Some _ => true | _, _ => false end.

(** [p] holds of all moves of loops of these layers, each given by the lines of
    its layer and its number; [seen] are the lines before, latest first *)
Fixpoint for_loop_moves {A : arith} (p : list (line A) -> nat -> bool) (seen : list (line A)) (ys : list (layer A)) : bool :=
  match ys with
  | [] => true
  | y :: t =>
      let ls := ly_lines y in
      forallb (fun i => negb (loop_move (rev (firstn (S i) ls) ++ seen)) || p ls i) (seq 0 (List.length ls)) &&
      for_loop_moves p (rev ls ++ seen) t
  end.

(** all moves of loops of these layers are enclosed *)
Definition all_enclosed {A : arith} (seen : list (line A)) (ys : list (layer A)) : bool :=
  for_loop_moves (fun ls i => enclosed (map raw ls) i) seen ys.
(** all loops begin and end in one layer *)
Definition all_end_here {A : arith} (seen : list (line A)) (ys : list (layer A)) : bool :=
  for_loop_moves (fun ls i => ends_here (map raw ls) i) seen ys.

(** Cura marks the ends of its walls otherwise, and what the marks delimit also
    depends on the moves beside them.  The walk ahead notices the stop of a wall
    only right after a move, the walk back notices the start only at a move. *)
Definition is_stop (t : string) : bool := contains "stretch-loop-stop" t.
Definition moves_at {A : arith} (ls : list (line A)) (k : nat) : bool :=
  match nth_error ls k with Some l => xy_move l | None => false end.
Definition stop_seen {A : arith} (ls : list (line A)) (k : nat) : bool :=
  at_ is_stop (map raw ls) k && match k with O => false | S j => moves_at ls j end.
Definition start_seen {A : arith} (ls : list (line A)) (k : nat) : bool :=
  at_ is_start (map raw ls) k && moves_at ls k.

(** no number from [lo] to [hi - 1] has property [p] *)
Definition no_number (p : nat -> bool) (lo hi : nat) : bool := negb (existsb p (seq lo (hi - lo))).
Definition next_number (p : nat -> bool) (lo hi : nat) : option nat := find p (seq lo (hi - lo)).
Definition last_number (p : nat -> bool) (hi : nat) : option nat := find p (rev (seq 0 hi)).

(** The marks around the line number [i] delimit its wall: the wall has not
    stopped since it started, and no other one starts before it stops. *)
Definition walled {A : arith} (ls : list (line A)) (i : nat) : bool :=
  let start := at_ is_start (map raw ls) in
  let stop := at_ is_stop (map raw ls) in
  let n := List.length ls in
  match next_number (stop_seen ls) (S i) n with Some f => no_number start (S i) f | None => true end &&
  match next_number stop (S i) n with Some f => no_number (start_seen ls) (S i) f | None => true end &&
  match last_number start (S i) with Some a => no_number (stop_seen ls) (S a) (S i) | None => true end &&
  no_number stop (match last_number (start_seen ls) (S i) with Some a => a | None => 0 end) (S i).
(** the wall of the line number [i] of a layer begins and ends in the layer *)
Definition wall_here (ts : list string) (i : nat) : bool :=
  match last_before is_start ts (S i), first_from is_stop ts (S i) with Some _, Some _ => true | _, _ => false end.
Definition all_walls_here {A : arith} (seen : list (line A)) (ys : list (layer A)) : bool :=
  for_loop_moves (fun ls i => wall_here (map raw ls) i) seen ys.
Definition all_walled {A : arith} (seen : list (line A)) (ys : list (layer A)) : bool := for_loop_moves walled seen ys.

(** a line that is a move remains one when it is read again, and so does a line
    that is none *)
Definition steady {A : arith} (l : line A) : Prop := forall l', reparse l = Ok l' -> xy_move l' = xy_move l.

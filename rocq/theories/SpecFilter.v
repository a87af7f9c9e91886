(** * SpecFilter: what a filter pass, the relative-extrusion conversion and a
    translation should mean *)
From Coq Require Import List Ascii String ZArith NArith Bool Reals.
From Verif Require Import PyBase Arith ArithR Gcoder Filters SpecText SpecLoad SpecMachine.
Import ListNotations.
Local Open Scope list_scope.

(** Cut a list into pieces of the given lengths. *)
Fixpoint chop {T} (ns : list nat) (xs : list T) : list (list T) :=
  match ns with
  | [] => []
  | n :: t => firstn n xs :: chop t (skipn n xs)
  end.

Section Rewriting.
Context {A : arith}.

(** the lines of a program in reading order *)
Definition all_lines (g : gcode A) : list (line A) := List.concat (blocks g).

(** what the answer of a filter puts in place of a line *)
Definition replacement (l : line A) (r : fresult) : list (line A) :=
  match r with FNone => [l] | FLine x => [x] | FList xs => xs end.

(** [rewrites f s ls outs s']: the filter [f] reads the lines [ls] one after the
    other, starting in state [s] and ending in [s']; [outs] are the lines put in
    place of each. *)
Inductive rewrites {St} (f : St -> line A -> res (St * fresult)) :
  St -> list (line A) -> list (list (line A)) -> St -> Prop :=
| rw_nil s : rewrites f s [] [] s
| rw_cons s l s1 r ls outs s2 :
    f s l = Ok (s1, r) -> rewrites f s1 ls outs s2 ->
    rewrites f s (l :: ls) (replacement l r :: outs) s2.

(** The two programs have the same layers, contents apart, and the same rest. *)
Definition same_frame (g g' : gcode A) : Prop :=
  map ly_z (g_layers g') = map ly_z (g_layers g) /\
  map ly_dur (g_layers g') = map ly_dur (g_layers g) /\
  g_light g' = g_light g /\ g_lines g' = g_lines g /\ g_zs g' = g_zs g /\
  g_lidx g' = g_lidx g /\ g_kidx g' = g_kidx g /\ g_append_id g' = g_append_id g /\
  g_m g' = g_m g /\
  g_xmin g' = g_xmin g /\ g_xmax g' = g_xmax g /\ g_ymin g' = g_ymin g /\
  g_ymax g' = g_ymax g /\ g_zmin g' = g_zmin g /\ g_zmax g' = g_zmax g /\
  g_filament g' = g_filament g /\ g_total g' = g_total g /\ g_est g' = g_est g.

(** *** Relative extrusion, line by line *)

Definition is_command (c : string) (l : line A) : bool :=
  match command l with Some d => String.eqb d c | None => false end.
Definition is_motion (l : line A) : bool :=
  match command l with Some d => str_mem d ["G0"; "G1"; "G2"; "G3"]%string | None => false end.

(** E is read as relative after these lines: the last of M82 and M83 was M83 *)
Definition relative_after (ls : list (line A)) : bool :=
  fold_left (fun r l => if is_command "M83" l then true
                        else if is_command "M82" l then false else r) ls false.

(** the absolute E reached after these lines: the last E word of an absolute
    move or of a G92, 0 after a bare G92 *)
Fixpoint e_after_from (rel : bool) (e : num A) (ls : list (line A)) : num A :=
  match ls with
  | [] => e
  | l :: t =>
      if is_command "M83" l then e_after_from true e t
      else if is_command "M82" l then e_after_from false e t
      else if is_command "G92" l then
        match l_e l with
        | Some v => e_after_from rel v t
        | None => e_after_from rel (match l_x l, l_y l, l_z l with
                                    | None, None, None => n0 | _, _, _ => e end) t
        end
      else if is_motion l && negb rel then
        match l_e l with Some v => e_after_from rel v t | None => e_after_from rel e t end
      else e_after_from rel e t
  end.
Definition e_after (ls : list (line A)) : num A := e_after_from false n0 ls.

(** [l'] is what the conversion must make of [l], given the lines before it. *)
Definition converted (before : list (line A)) (l l' : line A) : Prop :=
  if is_command "M82" l then
    plain_command "M83" l' /\ command l' = Some "M83"%string
  else if is_motion l && negb (relative_after before) then
    match l_e l with
    | None => l' = l
    | Some e =>
        command l' = command l /\ is_move l' = is_move l /\
        l_e l' = Some (n_sub e (e_after before)) /\
        (forall k, k <> LE -> get_arg k (largs l') = get_arg k (largs l)) /\
        raw l' = unsplit_text (match command l with Some c => c | None => "" end) (largs l') /\
        t_x (lnotes l') = t_x (lnotes l) /\ t_y (lnotes l') = t_y (lnotes l) /\
        t_z (lnotes l') = t_z (lnotes l) /\ t_extruding (lnotes l') = t_extruding (lnotes l)
    end
  else l' = l.

(** every move with an E word comes after an M82 or M83 *)
Definition e_declared (ls : list (line A)) : Prop :=
  forall i l, nth_error ls i = Some l -> is_motion l = true -> l_e l <> None ->
    exists l0, In l0 (firstn i ls) /\ (is_command "M82" l0 = true \/ is_command "M83" l0 = true).

(** *** Translation, line by line *)

(** the translation an argument stands for: none given is 0 *)
Definition shift_of (o : option (num A)) : num A :=
  match o with Some x => if n_eqb x n0 then n0 else x | None => n0 end.

(** positioning mode after some lines: Some true for G90, Some false for G91 *)
Definition absolute_after (ls : list (line A)) : option bool :=
  fold_left (fun r l => if is_command "G90" l then Some true
                        else if is_command "G91" l then Some false else r) ls None.

(** a G92 that sets the axis [k], or sets E only or nothing *)
Definition rebases (k : letter) (l : line A) : bool :=
  is_command "G92" l &&
  (match get_arg k (largs l) with Some _ => true | None => false end ||
   match l_x l, l_y l, l_z l with None, None, None => true | _, _, _ => false end).

(** the shift of axis [k] still asked for after some lines *)
Definition pending (k : letter) (t : num A) (before : list (line A)) : option (num A) :=
  if existsb (rebases k) before then None else Some t.

Definition shifted (t : option (num A)) (v : num A) : num A :=
  match t with
  | Some x => if n_eqb x n0 then v else n_add v x
  | None => v
  end.

(** [l'] is what a translation by [x], [y] must make of [l]. *)
Definition translated (x y : num A) (before : list (line A)) (l l' : line A) : Prop :=
  let px := pending LX x before in
  let py := pending LY y before in
  if is_motion l then
    match absolute_after before with
    | Some true =>
        command l' = command l /\ is_move l' = is_move l /\ lnotes l' = lnotes l /\
        l_x l' = option_map (shifted px) (l_x l) /\
        l_y l' = option_map (shifted py) (l_y l) /\
        (forall k, k <> LX -> k <> LY -> get_arg k (largs l') = get_arg k (largs l)) /\
        (l' = l \/ raw l' = unsplit_text (match command l with Some c => c | None => "" end) (largs l'))
    | _ => l' = l
    end
  else if is_command "G92" l then
    command l' = command l /\ is_move l' = is_move l /\ lnotes l' = lnotes l /\
    (let minus (p : option (num A)) v := match p with Some t => n_sub v t | None => v end in
     let opp (p : option (num A)) := match p with Some t => n_opp t | None => n0 end in
     match l_x l, l_y l, l_z l with
     | None, None, None => l_x l' = Some (opp px) /\ l_y l' = Some (opp py)
     | _, _, _ => l_x l' = option_map (minus px) (l_x l) /\ l_y l' = option_map (minus py) (l_y l)
     end) /\
    (forall k, k <> LX -> k <> LY -> get_arg k (largs l') = get_arg k (largs l)) /\
    raw l' = unsplit_text "G92" (largs l')
  else l' = l.

End Rewriting.

(** *** What the printer does *)

Local Open Scope R_scope.

(** the line moves the extruder *)
Definition feeds (s : string) : bool :=
  match op_of s with Move _ (Some _) _ => true | _ => false end.

Definition advance (s : string) (k : machine) : R := extruder (exec_line s k) - extruder k.

(** Line by line, [ss'] run from [k'] extrudes what [ss] run from [k] does, up to
    the rounding of one E word. *)
Fixpoint same_feed (ss ss' : list string) (k k' : machine) : Prop :=
  match ss, ss' with
  | [], [] => True
  | s :: t, s' :: t' =>
      Rabs (advance s' k' - advance s k) <= (if feeds s then / 2 / 10 ^ 5 else 0) /\
      same_feed t t' (exec_line s k) (exec_line s' k')
  | _, _ => False
  end.

(** Programs for which the conversion is right, read from the start:
    - [Begin]: no E move yet, modes as set by G90/G91;
    - [Native]: M83 came first and M82 never: nothing is converted;
    - [Abs]: after M82 (and no later M83);
    - [Rel]: back to M83 after an M82;
    - [Stale]: M82 after M83, and E not set by G92 since.
    G20 is excluded everywhere, G90 and G91 (which also switch E) where the
    conversion relies on the modes of M82 and M83. *)
Inductive e_phase := Begin | Native | Abs | Rel | Stale.

Definition e_step (p : e_phase) (s : string) : option e_phase :=
  match op_of s with
  | Inches => None
  | Move _ (Some _) _ => match p with Begin | Stale => None | _ => Some p end
  | Absolute => match p with Begin | Native => Some p | _ => None end
  | Relative => match p with Abs | Stale => None | _ => Some p end
  | AbsoluteE => match p with Begin | Abs => Some Abs | _ => Some Stale end
  | RelativeE => match p with Begin | Native => Some Native | _ => Some Rel end
  | SetPosition w e =>
      match p with
      | Stale => Some (match e with
                       | Some _ => Abs
                       | None => if bare w e then Abs else Stale
                       end)
      | _ => Some p
      end
  | _ => Some p
  end.

Fixpoint e_ready_from (p : e_phase) (ss : list string) : bool :=
  match ss with
  | [] => true
  | s :: t => match e_step p s with None => false | Some q => e_ready_from q t end
  end.
Definition e_ready (ss : list string) : bool := e_ready_from Begin ss.

(** how many lines move the extruder *)
Definition feed_count (ss : list string) : nat := List.length (filter feeds ss).

(** Programs whose translation moves the part.  Per axis:
    - [Homed]: not moved since the last homing of the axis;
    - [Placed]: moved since;
    - [Based]: as [Homed], but the logical zero was set by G92 since;
    - [BasedPlaced]: moved since that. *)
Inductive t_phase := Homed | Placed | Based | BasedPlaced.

(** does the line set the logical position of axis [a] in the translated
    program: the axis is named, or is X or Y and no axis is named *)
Definition resets (w : axis -> option R) (a : axis) : bool :=
  named w a ||
  (match a with Z => false | _ => true end && negb (named w X || named w Y || named w Z)).

Definition t_step (a : axis) (p : t_phase) (s : string) : option t_phase :=
  match op_of s with
  | Inches | Relative => None
  | Move w _ _ => Some (if named w a then
                          match p with Homed | Placed => Placed | _ => BasedPlaced end
                        else p)
  | Home w =>
      if negb (named w X || named w Y || named w Z) || named w a then
        match p, a with Homed, _ | Placed, _ | _, Z => Some Homed | _, _ => None end
      else Some p
  | SetPosition w e =>
      if bare w e then None
      else if resets w a then match p with Homed => Some Based | _ => None end
      else Some p
  | _ => Some p
  end.

Fixpoint t_run (a : axis) (p : t_phase) (ss : list string) : option t_phase :=
  match ss with
  | [] => Some p
  | s :: t => match t_step a p s with None => None | Some q => t_run a q t end
  end.

(** no move before the first G90 *)
Fixpoint declared (ss : list string) : bool :=
  match ss with
  | [] => true
  | s :: t => match op_of s with
              | Absolute => true
              | Move _ _ _ => false
              | _ => declared t
              end
  end.

Definition moved (p : t_phase) : bool :=
  match p with Placed | BasedPlaced => true | _ => false end.

(** a line that neither re-bases the extruder nor leaves absolute mode *)
Definition e_plain (s : string) : Prop :=
  match op_of s with Relative | RelativeE | SetPosition _ _ | Inches => False | _ => True end.

(** the translation asked for, per axis *)
Definition amount {A : arith} (E : exact A) (o : option (num A)) : R :=
  match o with Some x => val E x | None => 0 end.
Definition shift_amount {A : arith} (E : exact A) (x y : option (num A)) (a : axis) : R :=
  match a with X => amount E x | Y => amount E y | Z => 0 end.

(** * Gcoder: model of gcodeutils/gcoder.py

    Every definition cites the lines of /repo/gcodeutils/gcoder.py it models.
    Lines are immutable values here; in the code they are mutable objects
    shared between [GCode.lines] and the layers. *)
From Coq Require Import List Ascii String ZArith NArith Bool.
From Verif Require Import PyBase Arith.
Import ListNotations.
Local Open Scope string_scope.

(** ** Tokenizer: gcoder.py 27-33 *)

(** gcoder.py 27-29: the characters of [to_parse] *)
Definition word_letters : list ascii :=
  ["x"; "y"; "e"; "f"; "z"; "i"; "j"; "g"; "t"; "m"; "n"]%char.

Definition is_word_letter (c : ascii) : bool := in_chars c word_letters.

(** A match of [gcode_exp]: its two groups, both empty for a comment. *)
Definition token := (string * string)%type.

(** gcoder.py 30, number part [[-+]?[0-9]*\.?[0-9]*] : greedy, never fails *)
Definition scan_number (s : string) : string * string :=
  let '(sg, s1) :=
    match s with
    | String "-" t => ("-", t)
    | String "+" t => ("+", t)
    | _ => ("", s)
    end in
  let '(ip, s2) := span is_digit s1 in
  let '(pt, s3) :=
    match s2 with
    | String "." t => (".", t)
    | _ => ("", s2)
    end in
  let '(fp, s4) := span is_digit s3 in
  (sg ++ ip ++ pt ++ fp, s4).

(** [\([^\(\)]*\)] after the opening parenthesis: the rest after the match *)
Fixpoint scan_paren (s : string) : option string :=
  match s with
  | EmptyString => None
  | String c t =>
      if Ascii.eqb c ")" then Some t
      else if Ascii.eqb c "(" then None
      else scan_paren t
  end.

(** [last char of s is ')'] *)
Fixpoint ends_paren (s : string) : bool :=
  match s with
  | EmptyString => false
  | String c EmptyString => Ascii.eqb c ")"
  | String _ t => ends_paren t
  end.

(** [^\(.*\)$] after the opening parenthesis (only tried at the start of the
    text): the rest after the match *)
Definition scan_paren_line (s : string) : option string :=
  let '(seg, rest) := span not_nl s in
  if ends_paren seg &&
     (is_empty rest || String.eqb rest (String nl EmptyString))
  then Some rest else None.

(** [;.*] after the semicolon: the rest after the match *)
Definition scan_to_nl (s : string) : string := snd (span not_nl s).

(** [[/\*].*\n] after the first character: the rest after the match *)
Definition scan_past_nl (s : string) : option string :=
  match snd (span not_nl s) with
  | EmptyString => None
  | String _ t => Some t
  end.

(** One attempt of [gcode_exp] (gcoder.py 30) at the start of [s]; [start]
    tells whether this is position 0 of the text.  Result: the groups and the
    text after the match. *)
Definition match_at (start : bool) (s : string) : option (token * string) :=
  match s with
  | EmptyString => None
  | String c t =>
      if Ascii.eqb c "(" then
        match scan_paren t with
        | Some r => Some (("", ""), r)
        | None =>
            if start then
              match scan_paren_line t with
              | Some r => Some (("", ""), r)
              | None => None
              end
            else None
        end
      else if Ascii.eqb c ";" then Some (("", ""), scan_to_nl t)
      else if Ascii.eqb c "/" || Ascii.eqb c "*" then
        match scan_past_nl t with
        | Some r => Some (("", ""), r)
        | None => None
        end
      else if is_word_letter c then
        let '(n, r) := scan_number t in Some ((String c "", n), r)
      else None
  end.

(** [gcode_exp.findall(s)], leftmost non-overlapping matches.  Each match
    consumes at least one character, so [length s] steps are enough. *)
Fixpoint findall_fuel (fuel : nat) (start : bool) (s : string) : list token :=
  match fuel with
  | O => []
  | S f =>
      match s with
      | EmptyString => []
      | String _ t =>
          match match_at start s with
          | Some (tok, r) => tok :: findall_fuel f false r
          | None => findall_fuel f false t
          end
      end
  end.
Definition findall (s : string) : list token :=
  findall_fuel (String.length s) true s.

(** gcoder.py 33, [specific_exp % code] with a one-letter code, searched with
    [re.findall]: the text of the first non-empty group, without its letter
    (gcoder.py 122-128). *)
Fixpoint find_code_fuel (fuel : nat) (code : ascii) (s : string) : option string :=
  match fuel with
  | O => None
  | S f =>
      match s with
      | EmptyString => None
      | String c t =>
          if Ascii.eqb c "(" then
            match scan_paren t with
            | Some r => find_code_fuel f code r
            | None => find_code_fuel f code t
            end
          else if Ascii.eqb c ";" then find_code_fuel f code (scan_to_nl t)
          else if Ascii.eqb c "/" || Ascii.eqb c "*" then
            match scan_past_nl t with
            | Some r => find_code_fuel f code r
            | None => find_code_fuel f code t
            end
          else if Ascii.eqb c code then Some (fst (scan_number t))
          else find_code_fuel f code t
      end
  end.
Definition find_code (code : ascii) (s : string) : option string :=
  find_code_fuel (String.length s) code s.

(** ** Command tables: gcoder.py 34-43 *)

Definition str_mem (s : string) (l : list string) : bool := existsb (String.eqb s) l.

Definition move_gcodes : list string := ["G0"; "G1"; "G2"; "G3"].
Definition linear_move_gcodes : list string := ["G0"; "G1"].

(** The arguments a line object can carry, in the order of
    [gcode_possible_arguments] (gcoder.py 36). *)
Inductive letter := LX | LY | LZ | LE | LF | LI | LJ.
Definition all_letters : list letter := [LX; LY; LZ; LE; LF; LI; LJ].

Definition letter_code (l : letter) : string :=
  match l with
  | LX => "x" | LY => "y" | LZ => "z" | LE => "e" | LF => "f" | LI => "i" | LJ => "j"
  end.
Definition letter_upper (l : letter) : string := upper (letter_code l).

(** [setattr(line, code, v)]: which argument a word letter names; [None] for
    the letters of [gcode_parsed_nonargs] (gcoder.py 28) and for comments. *)
Definition letter_of_code (c : string) : option letter :=
  find (fun l => String.eqb (letter_code l) c) all_letters.

Definition cmd_is (o : option string) (c : string) : bool :=
  match o with Some s => String.eqb s c | None => false end.
Definition cmd_in (o : option string) (l : list string) : bool :=
  match o with Some s => str_mem s l | None => false end.

Local Open Scope list_scope.

Section Gcoder.
Context {A : arith}.
Notation num := (num A).

(** ** Lines: PyLine, gcoder.py 46-94 *)

Record args := Args { a_x : option num; a_y : option num; a_z : option num;
                      a_e : option num; a_f : option num; a_i : option num;
                      a_j : option num }.

Definition no_args : args := Args None None None None None None None.

Definition get_arg (l : letter) (a : args) : option num :=
  match l with
  | LX => a_x a | LY => a_y a | LZ => a_z a | LE => a_e a
  | LF => a_f a | LI => a_i a | LJ => a_j a
  end.

Definition put_arg (l : letter) (v : option num) (a : args) : args :=
  match l with
  | LX => Args v (a_y a) (a_z a) (a_e a) (a_f a) (a_i a) (a_j a)
  | LY => Args (a_x a) v (a_z a) (a_e a) (a_f a) (a_i a) (a_j a)
  | LZ => Args (a_x a) (a_y a) v (a_e a) (a_f a) (a_i a) (a_j a)
  | LE => Args (a_x a) (a_y a) (a_z a) v (a_f a) (a_i a) (a_j a)
  | LF => Args (a_x a) (a_y a) (a_z a) (a_e a) v (a_i a) (a_j a)
  | LI => Args (a_x a) (a_y a) (a_z a) (a_e a) (a_f a) v (a_j a)
  | LJ => Args (a_x a) (a_y a) (a_z a) (a_e a) (a_f a) (a_i a) v
  end.

(** What [_preprocess] notes on a line; every field is None until set
    (gcoder.py 59-60: unset attributes read as None). *)
Record notes := Notes {
  t_relative : option bool; t_relative_e : option bool; t_tool : option Z;
  t_extruding : option bool;
  t_x : option num; t_y : option num; t_z : option num;
  t_f : option num; t_e : option num }.

Definition no_notes : notes :=
  Notes None None None None None None None None None.

Record line := Line {
  raw : string;
  command : option string;
  is_move : bool;
  largs : args;
  lnotes : notes }.

(** gcoder.py 56-57 [PyLine(l)] *)
Definition new_line (s : string) : line := Line s None false no_args no_notes.

Definition l_x (l : line) := a_x (largs l).
Definition l_y (l : line) := a_y (largs l).
Definition l_z (l : line) := a_z (largs l).
Definition l_e (l : line) := a_e (largs l).
Definition l_f (l : line) := a_f (largs l).

Definition set_raw (s : string) (l : line) : line :=
  Line s (command l) (is_move l) (largs l) (lnotes l).
Definition set_command (c : option string) (m : bool) (l : line) : line :=
  Line (raw l) c m (largs l) (lnotes l).
Definition set_args (a : args) (l : line) : line :=
  Line (raw l) (command l) (is_move l) a (lnotes l).
Definition set_notes (n : notes) (l : line) : line :=
  Line (raw l) (command l) (is_move l) (largs l) n.
Definition set_arg (k : letter) (v : num) (l : line) : line :=
  set_args (put_arg k (Some v) (largs l)) l.

(** gcoder.py 54 *)
Definition eq_epsilon : num := lit 1 3.

(** gcoder.py 69-83: the comparison of one argument *)
Definition arg_eqb (a b : option num) : bool :=
  match a, b with
  | None, None => true
  | Some x, Some y => negb (n_ltb eq_epsilon (n_abs (n_sub x y)))
  | _, _ => false
  end.

Definition cmd_eqb (a b : option string) : bool :=
  match a, b with
  | None, None => true
  | Some x, Some y => String.eqb x y
  | _, _ => false
  end.

(** gcoder.py 62-85 [PyLine.__eq__] between two lines *)
Definition line_eqb (a b : line) : bool :=
  cmd_eqb (command a) (command b) &&
  forallb (fun k => arg_eqb (get_arg k (largs a)) (get_arg k (largs b))) all_letters.

(** gcoder.py 145-161 [split].  The second component is the list of words;
    for an unrecognised line the code returns [[line.raw]], which no caller
    reads because such a command never starts with "G" (here: []). *)
Definition split (l : line) : line * list token :=
  let toks := findall (lower (raw l)) in
  let toks :=
    match toks with
    | (c, _) :: t => if String.eqb c "n" then t else toks
    | [] => []
    end in
  match toks with
  | [] => (set_command (Some (raw l)) false l, [])
  | (c, v) :: _ =>
      let cmd := if String.eqb c "" && String.eqb v "" then command l
                 else Some (upper c ++ v)%string in
      (set_command cmd (cmd_in cmd move_gcodes) l, toks)
  end.

(** gcoder.py 139-143 [raw_to_line] *)
Definition raw_to_line (s : string) : line := fst (split (new_line s)).

(** gcoder.py 122-128 [find_specific_code]; [None] inside [Ok] is Python None *)
Definition find_specific_code (l : line) (code : ascii) : res (option num) :=
  match find_code code (raw l) with
  | None => Ok None
  | Some v => match py_float v with
              | Some x => Ok (Some x)
              | None => Err ValueError
              end
  end.

(** gcoder.py 167-170: one formatted word, blank included *)
Definition word_text (a : args) (k : letter) : string :=
  match get_arg k a with
  | None => ""
  | Some v => (" " ++ letter_upper k ++ fmt (match k with LE => 5 | _ => 3 end) v)%string
  end.

(** gcoder.py 164-171: the text built by [unsplit] *)
Definition unsplit_text (cmd : string) (a : args) : string :=
  (cmd ++ String.concat "" (map (word_text a) all_letters))%string.

(** gcoder.py 164-171 [unsplit].  (A line without command would raise
    TypeError; every caller passes a line with a command.) *)
Definition unsplit (l : line) : line :=
  set_raw (unsplit_text (match command l with Some c => c | None => "" end) (largs l)) l.

(** gcoder.py 181-184: one word; the factor 1 of the metric case is left out *)
Definition parse_word (imperial : bool) (l : line) (w : token) : res line :=
  let '(c, v) := w in
  match letter_of_code c with
  | None => Ok l
  | Some k =>
      if is_empty v then Ok l else
      match py_float v with
      | None => Err ValueError
      | Some x => Ok (set_arg k (if imperial then n_mul (lit 254 1) x else x) l)
      end
  end.

(** first character of a command, gcoder.py 178, 502, 505 *)
Definition first_char (s : string) : option ascii :=
  match s with EmptyString => None | String c _ => Some c end.
Definition first_is (c : ascii) (s : string) : bool :=
  match s with EmptyString => false | String d _ => Ascii.eqb d c end.

(** gcoder.py 174-184 [parse_coordinates] with [force=False] *)
Definition parse_coordinates (imperial : bool) (toks : list token) (l : line) : res line :=
  match command l with
  | None => Ok l
  | Some c => if first_is "G" c then foldM (parse_word imperial) toks l else Ok l
  end.

(** ** Machine state: gcoder.py 206-229 *)

Record mstate := MState {
  m_imperial : bool; m_relative : bool; m_relative_e : bool; m_tool : Z;
  m_f : num;
  m_x : num; m_y : num; m_z : num;          (* current position *)
  m_ox : num; m_oy : num; m_oz : num;       (* offsets *)
  m_hx : num; m_hy : num; m_hz : num;       (* home position *)
  m_e : num; m_oe : num; m_total : num; m_max : num }.

Definition init_mstate (home : num * num * num) : mstate :=
  let '(hx, hy, hz) := home in
  MState false false false 0 n0 n0 n0 n0 n0 n0 n0 hx hy hz n0 n0 n0 n0.

Definition set_modes (imp rel rele : bool) (s : mstate) : mstate :=
  MState imp rel rele (m_tool s) (m_f s) (m_x s) (m_y s) (m_z s)
         (m_ox s) (m_oy s) (m_oz s) (m_hx s) (m_hy s) (m_hz s)
         (m_e s) (m_oe s) (m_total s) (m_max s).
Definition set_tool (t : Z) (s : mstate) : mstate :=
  MState (m_imperial s) (m_relative s) (m_relative_e s) t (m_f s)
         (m_x s) (m_y s) (m_z s) (m_ox s) (m_oy s) (m_oz s) (m_hx s) (m_hy s) (m_hz s)
         (m_e s) (m_oe s) (m_total s) (m_max s).
Definition set_feed (f : num) (s : mstate) : mstate :=
  MState (m_imperial s) (m_relative s) (m_relative_e s) (m_tool s) f
         (m_x s) (m_y s) (m_z s) (m_ox s) (m_oy s) (m_oz s) (m_hx s) (m_hy s) (m_hz s)
         (m_e s) (m_oe s) (m_total s) (m_max s).
Definition set_pos (x y z : num) (s : mstate) : mstate :=
  MState (m_imperial s) (m_relative s) (m_relative_e s) (m_tool s) (m_f s)
         x y z (m_ox s) (m_oy s) (m_oz s) (m_hx s) (m_hy s) (m_hz s)
         (m_e s) (m_oe s) (m_total s) (m_max s).
Definition set_off (ox oy oz : num) (s : mstate) : mstate :=
  MState (m_imperial s) (m_relative s) (m_relative_e s) (m_tool s) (m_f s)
         (m_x s) (m_y s) (m_z s) ox oy oz (m_hx s) (m_hy s) (m_hz s)
         (m_e s) (m_oe s) (m_total s) (m_max s).
Definition set_ext (e oe total mx : num) (s : mstate) : mstate :=
  MState (m_imperial s) (m_relative s) (m_relative_e s) (m_tool s) (m_f s)
         (m_x s) (m_y s) (m_z s) (m_ox s) (m_oy s) (m_oz s) (m_hx s) (m_hy s) (m_hz s)
         e oe total mx.

(** gcoder.py 256-279: position in the machine's current coordinate system *)
Definition abs_x (s : mstate) := n_sub (m_x s) (m_ox s).
Definition abs_y (s : mstate) := n_sub (m_y s) (m_oy s).
Definition abs_z (s : mstate) := n_sub (m_z s) (m_oz s).
Definition abs_e (s : mstate) := n_sub (m_e s) (m_oe s).

(** gcoder.py 482-503: modes, units and tool; [c] is the command *)
Definition update_modes (c : string) (mv : bool) (s : mstate) : res mstate :=
  if mv then Ok s
  else if String.eqb c "G20" then Ok (set_modes true (m_relative s) (m_relative_e s) s)
  else if String.eqb c "G21" then Ok (set_modes false (m_relative s) (m_relative_e s) s)
  else if String.eqb c "G90" then Ok (set_modes (m_imperial s) false false s)
  else if String.eqb c "G91" then Ok (set_modes (m_imperial s) true true s)
  else if String.eqb c "M82" then Ok (set_modes (m_imperial s) (m_relative s) false s)
  else if String.eqb c "M83" then Ok (set_modes (m_imperial s) (m_relative s) true s)
  else match c with
       | String "T" n => match py_int n with
                         | Some t => Ok (set_tool t s)
                         | None => Err ValueError
                         end
       | _ => Ok s
       end.

(** gcoder.py 517-528: one axis of a move *)
Definition axis_move (rel : bool) (off cur : num) (v : option num) : num :=
  if rel then n_add cur (or_zero v)
  else match v with Some x => n_add x off | None => cur end.

Definition opt_truthy (o : option num) : bool :=
  match o with Some x => truthy x | None => false end.

(** gcoder.py 530-540: one axis of G28: new (offset, position) *)
Definition axis_home (all : bool) (v : option num) (home off cur : num) : num * num :=
  if all || is_some v then (n0, home) else (off, cur).

(** gcoder.py 542-545: one axis of G92: new offset *)
Definition axis_rebase (v : option num) (off cur : num) : num :=
  match v with Some x => n_sub cur x | None => off end.

(** gcoder.py 508-545: position, offsets and feedrate; [l] is the parsed line *)
Definition update_position (l : line) (s : mstate) : mstate :=
  if is_move l then
    let s := match l_f l with Some f => set_feed f s | None => s end in
    let rel := m_relative s in
    set_pos (axis_move rel (m_ox s) (m_x s) (l_x l))
            (axis_move rel (m_oy s) (m_y s) (l_y l))
            (axis_move rel (m_oz s) (m_z s) (l_z l)) s
  else if cmd_is (command l) "G28" then
    let all := negb (opt_truthy (l_x l) || opt_truthy (l_y l) || opt_truthy (l_z l)) in
    let '(ox, x) := axis_home all (l_x l) (m_hx s) (m_ox s) (m_x s) in
    let '(oy, y) := axis_home all (l_y l) (m_hy s) (m_oy s) (m_y s) in
    let '(oz, z) := axis_home all (l_z l) (m_hz s) (m_oz s) (m_z s) in
    set_off ox oy oz (set_pos x y z s)
  else if cmd_is (command l) "G92" then
    set_off (axis_rebase (l_x l) (m_ox s) (m_x s))
            (axis_rebase (l_y l) (m_oy s) (m_y s))
            (axis_rebase (l_z l) (m_oz s) (m_z s)) s
  else s.

(** gcoder.py 552-567: extrusion; returns the [extruding] note of the line *)
Definition update_extrusion (l : line) (s : mstate) : option bool * mstate :=
  match l_e l with
  | None => (None, s)
  | Some e =>
      if is_move l then
        if m_relative_e s then
          let total := n_add (m_total s) e in
          (Some (n_ltb n0 e),
           set_ext (n_add (m_e s) e) (m_oe s) total (n_max (m_max s) total) s)
        else
          let new_e := n_add e (m_oe s) in
          let total := n_add (m_total s) (n_sub new_e (m_e s)) in
          (Some (n_ltb (m_e s) new_e),
           set_ext new_e (m_oe s) total (n_max (m_max s) total) s)
      else if cmd_is (command l) "G92" then
        (None, set_ext (m_e s) e (m_total s) (m_max s) s)
      else (None, s)
  end.

(** gcoder.py 478-568: one line through the machine (everything of the loop
    body that does not depend on [build_layers]).  Lines without a command
    are left alone. *)
Definition motion_step (s : mstate) (l : line) : res (mstate * line) :=
  let '(l, toks) := split l in
  match command l with
  | None => Ok (s, l)
  | Some c =>
      do s1 <- update_modes c (is_move l) s;
      do l1 <- parse_coordinates (m_imperial s1) toks l;
      let s2 := update_position l1 s1 in
      let '(ext, s3) := update_extrusion l1 s2 in
      let n := Notes
        (if is_move l1 then Some (m_relative s1) else None)
        (if is_move l1 then Some (m_relative_e s1) else None)
        (if is_move l1 then Some (m_tool s1) else None)
        ext
        (Some (m_x s3)) (Some (m_y s3)) (Some (m_z s3))
        (Some (m_f s3)) (Some (m_e s3)) in
      Ok (s3, set_notes n l1)
  end.

(** ** Layers: gcoder.py 187-192 *)

Record layer := Layer { ly_lines : list line; ly_z : option num; ly_dur : num }.

Definition set_ly_lines (ls : list line) (y : layer) : layer :=
  Layer ls (ly_z y) (ly_dur y).

(** ** Layer building: gcoder.py 428-471 and 569-713 *)

(** Bounding box under construction; None stands for the initial infinities
    (gcoder.py 430-441), coordinates are taken to be finite. *)
Record bbox := BBox { b_xmin : option num; b_xmax : option num;
                      b_ymin : option num; b_ymax : option num }.
Definition empty_bbox : bbox := BBox None None None None.

Definition min_inf (a : option num) (v : num) : option num :=
  Some (match a with Some w => n_min w v | None => v end).
Definition max_inf (a : option num) (v : num) : option num :=
  Some (match a with Some w => n_max w v | None => v end).

Definition bbox_add (x y : num) (b : bbox) : bbox :=
  BBox (min_inf (b_xmin b) x) (max_inf (b_xmax b) x)
       (min_inf (b_ymin b) y) (max_inf (b_ymax b) y).

(** Duration estimation state, gcoder.py 448-456 *)
Record dstate := DState {
  d_x : num; d_y : num; d_z : num; d_e : num; d_f : num;
  d_dx : num; d_dy : num; d_total : num }.
Definition init_dstate : dstate := DState n0 n0 n0 n0 n0 n0 n0 n0.

Record lstate := LState {
  ls_bb : bbox;                      (* xmin.. : gcoder.py 431-436 *)
  ls_bbe : bbox;                     (* xmin_e.. : 438-441 *)
  ls_d : dstate;
  ls_begin : num;                    (* layerbeginduration *)
  ls_layers : list layer;            (* all_layers *)
  ls_zs : list (option num);         (* all_zs, a set *)
  ls_lidx : list nat;                (* layer_idxs *)
  ls_kidx : list nat;                (* line_idxs *)
  ls_layer_id : nat; ls_layer_line : nat;
  ls_last_z : option num;            (* last_layer_z *)
  ls_prev_z : option num;
  ls_prev_base : option (option num);(* prev_base_z; None is (None, None) *)
  ls_cur_z : option num;
  ls_cur : list line;                (* cur_lines *)
  ls_has_ext : bool;                 (* cur_layer_has_extrusion *)
  ls_est : option num }.             (* self.est_layer_height *)

Definition init_lstate : lstate :=
  LState empty_bbox empty_bbox init_dstate n0 [] [] [] [] 0 0
         None None None None [] false None.

Definition opt_default (d : num) (o : option num) : num :=
  match o with Some x => x | None => d end.

(** gcoder.py 589-654: time of one G0/G1, and the new estimation state *)
Definition move_duration (l : line) (d : dstate) : res dstate :=
  let x := opt_default (d_x d) (l_x l) in
  let y := opt_default (d_y d) (l_y l) in
  let z := opt_default (d_z d) (l_z l) in
  let e := opt_default (d_e d) (l_e l) in
  let f := match l_f l with Some f => n_div f (lit 60 0) | None => d_f d end in
  let dx := n_sub x (d_x d) in
  let dy := n_sub y (d_y d) in
  let lastf := if n_leb (n_add (n_mul dx (d_dx d)) (n_mul dy (d_dy d))) n0
               then n0 else d_f d in
  let travel0 := n_hypot dx dy in
  let travel :=
    if n_eqb travel0 n0 then
      match l_z l with
      | Some lz =>
          match t_relative (lnotes l) with
          | Some true => n_abs lz
          | _ => n_abs (n_sub lz (d_z d))
          end
      | None =>
          match l_e l with
          | Some le =>
              match t_relative_e (lnotes l) with
              | Some true => n_abs le
              | _ => n_abs (n_sub le (d_e d))
              end
          | None => travel0
          end
      end
    else travel0 in
  do t <-
    (if n_eqb f lastf then
       (if n_eqb f n0 then Ok n0 else Ok (n_div travel f))
     else
       let distance :=
         n_mul n2 (n_abs (n_div (n_mul (n_mul (n_add lastf f) (n_sub f lastf)) (lit 5 1))
                                (lit 2000 0))) in
       if n_leb distance travel && negb (n_eqb (n_add lastf f) n0) && negb (n_eqb f n0)
       then Ok (n_add (n_div (n_mul n2 distance) (n_add lastf f))
                      (n_div (n_sub travel distance) f))
       else py_div (n_mul n2 travel) (n_add lastf f));
  Ok (DState x y z e f dx dy (n_add (d_total d) t)).

(** gcoder.py 588-654 *)
Definition update_duration (l : line) (d : dstate) : res dstate :=
  if cmd_in (command l) linear_move_gcodes then move_duration l d
  else if cmd_is (command l) "G4" then
    do p <- find_specific_code l "P"%char;
    match p with
    | Some t => if truthy t
                then Ok (DState (d_x d) (d_y d) (d_z d) (d_e d) (d_f d) (d_dx d) (d_dy d)
                                (n_add (d_total d) (n_div t (lit 1000 0))))
                else Ok d
    | None => Ok d
    end
  else Ok d.

(** gcoder.py 656-664 *)
Definition update_cur_z (l : line) (cur_z : option num) : option num :=
  match l_z l with
  | None => cur_z
  | Some z =>
      if cmd_is (command l) "G92" then Some z
      else if is_move l then
        match t_relative (lnotes l), cur_z with
        | Some true, Some c => Some (n_add c z)
        | _, _ => Some z
        end
      else cur_z
  end.

(** gcoder.py 673-674: differences of consecutive elements, rounded *)
Fixpoint height_diffs (zs : list num) : list num :=
  match zs with
  | a :: ((b :: _) as t) => py_round 3 (n_sub b a) :: height_diffs t
  | _ => []
  end.

Fixpoint somes (l : list (option num)) : list num :=
  match l with
  | [] => []
  | Some x :: t => x :: somes t
  | None :: t => somes t
  end.

(** gcoder.py 673-681 *)
Definition estimate_layer_height (layers : list layer) : num :=
  let zs := py_sorted (somes (map ly_z layers)) in
  let heights := filter truthy (height_diffs zs) in
  match heights with
  | _ :: h :: _ => h
  | [h] => h
  | [] => lit 1 1
  end.

(** gcoder.py 669-686: base_z and the possibly updated est_layer_height *)
Definition compute_base_z (s : lstate) : option num * option num :=
  match ls_prev_z s, ls_last_z s with
  | Some pz, Some lz =>
      let offset := match ls_est s with
                    | Some h => if truthy h then h else lit 1 2
                    | None => lit 1 2
                    end in
      if n_ltb (n_abs (n_sub pz lz)) offset then
        let h := match ls_est s with
                 | Some h => h
                 | None => estimate_layer_height (ls_layers s)
                 end in
        (Some (py_round 2 (n_sub pz (n_mod pz h))), Some h)
      else (Some (py_round 2 pz), ls_est s)
  | _, _ => (ls_prev_z s, ls_est s)
  end.

Definition in_zs (z : option num) (zs : list (option num)) : bool :=
  existsb (opt_eqb z) zs.

(** gcoder.py 693-694, 743-744 *)
Definition add_z (has_ext : bool) (z : option num) (zs : list (option num)) :=
  if has_ext && negb (in_zs z zs) then zs ++ [z] else zs.

(** gcoder.py 668-703: close the current layer if Z changed *)
Definition update_layers (s : lstate) : lstate :=
  if opt_eqb (ls_cur_z s) (ls_prev_z s) then s
  else
    let '(base, est) := compute_base_z s in
    let same := match ls_prev_base s with
                | Some b => opt_eqb base b
                | None => false
                end in
    if same then
      LState (ls_bb s) (ls_bbe s) (ls_d s) (ls_begin s) (ls_layers s) (ls_zs s)
             (ls_lidx s) (ls_kidx s) (ls_layer_id s) (ls_layer_line s)
             (ls_last_z s) (ls_prev_z s) (Some base) (ls_cur_z s)
             (ls_cur s) (ls_has_ext s) est
    else
      LState (ls_bb s) (ls_bbe s) (ls_d s) (d_total (ls_d s))
             (ls_layers s ++ [Layer (ls_cur s) base (n_sub (d_total (ls_d s)) (ls_begin s))])
             (add_z (ls_has_ext s) (ls_prev_z s) (ls_zs s))
             (ls_lidx s) (ls_kidx s) (S (ls_layer_id s)) 0
             base (ls_prev_z s) (Some base) (ls_cur_z s)
             [] false est.

(** gcoder.py 571-586: bounding boxes; [mx] is max_e after the line *)
Definition update_bbox (l : line) (mx : num) (s : lstate) : bbox * bbox :=
  if is_move l then
    match t_x (lnotes l), t_y (lnotes l) with
    | Some x, Some y =>
        (if n_leb mx n0 then bbox_add x y (ls_bb s) else ls_bb s,
         match t_extruding (lnotes l) with
         | Some true => bbox_add x y (ls_bbe s)
         | _ => ls_bbe s
         end)
    | _, _ => (ls_bb s, ls_bbe s)
    end
  else (ls_bb s, ls_bbe s).

(** gcoder.py 705-710 *)
Definition push_line (l : line) (s : lstate) : lstate :=
  LState (ls_bb s) (ls_bbe s) (ls_d s) (ls_begin s) (ls_layers s) (ls_zs s)
         (ls_lidx s ++ [ls_layer_id s]) (ls_kidx s ++ [ls_layer_line s])
         (ls_layer_id s) (S (ls_layer_line s))
         (ls_last_z s) (ls_cur_z s) (ls_prev_base s) (ls_cur_z s)
         (ls_cur s ++ [l]) (ls_has_ext s) (ls_est s).

(** gcoder.py 565 and 569-703, for a line with a command *)
Definition layer_body (l : line) (mx : num) (s : lstate) : res lstate :=
  let has_ext := ls_has_ext s ||
                 match t_extruding (lnotes l) with Some b => b | None => false end in
  let '(bb, bbe) := update_bbox l mx s in
  do d <- update_duration l (ls_d s);
  Ok (update_layers
        (LState bb bbe d (ls_begin s) (ls_layers s) (ls_zs s)
                (ls_lidx s) (ls_kidx s) (ls_layer_id s) (ls_layer_line s)
                (ls_last_z s) (ls_prev_z s) (ls_prev_base s)
                (update_cur_z l (ls_cur_z s)) (ls_cur s) has_ext (ls_est s))).

(** gcoder.py 477-713: one iteration of the loop with [build_layers=True].
    [stored] is what is kept in the layer: the line itself for GCode, the
    light line (text only) for LightGCode. *)
Definition build_step (light : bool) (st : mstate * lstate * list line) (t : line)
  : res (mstate * lstate * list line) :=
  let '(s, ls, out) := st in
  do '(s', l) <- motion_step s t;
  do ls' <- (match command l with
             | Some _ => layer_body l (m_max s') ls
             | None => Ok ls
             end);
  let stored := if light then new_line (raw t) else l in
  Ok (s', push_line stored ls', out ++ [stored]).

(** ** Programs: GCode, gcoder.py 195-251 *)

Record gcode := GCode {
  g_light : bool;
  g_lines : list line;
  g_layers : list layer;                 (* all_layers, append layer last *)
  g_zs : list (option num);              (* all_zs *)
  g_lidx : list nat; g_kidx : list nat;  (* layer_idxs, line_idxs *)
  g_append_id : nat;                     (* append_layer_id *)
  g_m : mstate;
  g_xmin : num; g_xmax : num; g_ymin : num; g_ymax : num;
  g_zmin : num; g_zmax : num;
  g_filament : num;                      (* filament_length *)
  g_total : num;                         (* total duration in seconds *)
  g_est : option num }.

Definition g_width (g : gcode) := n_sub (g_xmax g) (g_xmin g).   (* gcoder.py 772 *)
Definition g_depth (g : gcode) := n_sub (g_ymax g) (g_ymin g).   (* gcoder.py 773 *)
Definition g_height (g : gcode) := n_sub (g_zmax g) (g_zmin g).  (* gcoder.py 774 *)
Definition g_duration (g : gcode) : Z := n_trunc (g_total g).    (* gcoder.py 777 *)

(** gcoder.py 716-778: finalisation *)
Definition finalize (light : bool) (m : mstate) (ls : lstate) (out : list line) : gcode :=
  let total := d_total (ls_d ls) in
  let '(layers, zs) :=
    match ls_cur ls with
    | [] => (ls_layers ls, ls_zs ls)
    | _ => (ls_layers ls ++ [Layer (ls_cur ls) (ls_prev_z ls) (n_sub total (ls_begin ls))],
            add_z (ls_has_ext ls) (ls_prev_z ls) (ls_zs ls))
    end in
  let allz := somes zs in
  let box := if n_ltb n0 (m_max m) then ls_bbe ls else ls_bb ls in
  GCode light out (layers ++ [Layer [] None n0]) zs (ls_lidx ls) (ls_kidx ls)
        (List.length layers) m
        (opt_default n0 (b_xmin box)) (opt_default n0 (b_xmax box))
        (opt_default n0 (b_ymin box)) (opt_default n0 (b_ymax box))
        (fold_left n_min allz n0) (fold_left n_max allz n0)
        (m_max m) total (ls_est ls).

(** gcoder.py 309-311: the stripped non-blank lines *)
Definition clean_lines (data : list string) : list string :=
  filter (fun s => negb (is_empty s)) (map strip data).

(** gcoder.py 300-322: [GCode(data, home_pos)] for a list or a file [data];
    without data the attributes are the class defaults.  The measures of an
    empty program are 0 here: so they are for an empty file, while an empty list
    leaves them None. *)
Definition load_gen (light : bool) (home : num * num * num) (data : list string)
  : res gcode :=
  match data with
  | [] => Ok (GCode light [] [Layer [] None n0] [] [] [] 0 (init_mstate home)
                    n0 n0 n0 n0 n0 n0 n0 n0 None)
  | _ =>
      do '(m, ls, out) <-
        foldM (build_step light) (map new_line (clean_lines data))
              (init_mstate home, init_lstate, []);
      Ok (finalize light m ls out)
  end.

Definition home0 : num * num * num := (n0, n0, n0).

(** gcoder.py 786-790 [write]: the printed lines, in order *)
Definition write (g : gcode) : list string :=
  map raw (List.concat (map ly_lines (g_layers g))).

(** gcoder.py 780-781 [idxs] *)
Definition idxs (g : gcode) (i : nat) : res (nat * nat) :=
  match nth_error (g_lidx g) i, nth_error (g_kidx g) i with
  | Some a, Some b => Ok (a, b)
  | _, _ => Err IndexError
  end.

Definition set_lines_layers (ls : list line) (ys : list layer) (li ki : list nat)
  (g : gcode) : gcode :=
  GCode (g_light g) ls ys (g_zs g) li ki (g_append_id g) (g_m g)
        (g_xmin g) (g_xmax g) (g_ymin g) (g_ymax g) (g_zmin g) (g_zmax g)
        (g_filament g) (g_total g) (g_est g).

Definition set_mstate (m : mstate) (g : gcode) : gcode :=
  GCode (g_light g) (g_lines g) (g_layers g) (g_zs g) (g_lidx g) (g_kidx g)
        (g_append_id g) m
        (g_xmin g) (g_xmax g) (g_ymin g) (g_ymax g) (g_zmin g) (g_zmax g)
        (g_filament g) (g_total g) (g_est g).

(** gcoder.py 336-342: end of the run of [k] starting at index [i] *)
Fixpoint run_end (k : nat) (l : list nat) (i : nat) : nat :=
  match l with
  | [] => i
  | x :: t => if Nat.eqb x k then run_end k t (S i) else i
  end.

(** gcoder.py 345-349: a command inserted by hand: split, but never a move *)
Definition inserted_line (s : string) : line :=
  let l := fst (split (new_line s)) in set_command (command l) false l.

(** gcoder.py 332, 361: strip, drop blanks, reverse *)
Definition reversed_commands (cmds : list string) : list string :=
  clean_lines (rev cmds).

(** gcoder.py 344-356: the insertion loop; [i] counts the inserted lines *)
Fixpoint prepend_loop (rcmds : list string) (i k start endi endl : nat)
  (lay : list line) (lines : list line) (li ki : list nat)
  : list line * list line * list nat * list nat :=
  match rcmds with
  | [] => (lay, lines, li, ki)
  | c :: t =>
      let gl := inserted_line c in
      prepend_loop t (S i) k start endi endl
        (gl :: lay) (insert_at start gl lines)
        (insert_at (endi + i) k li) (insert_at (endi + i) (endl + i + 1) ki)
  end.

(** gcoder.py 330-357 [prepend_to_layer] for a non-negative layer index *)
Definition prepend_to_layer (cmds : list string) (k : nat) (g : gcode)
  : res (gcode * list string) :=
  let rcmds := reversed_commands cmds in
  match nth_error (g_layers g) k with
  | None => Err IndexError
  | Some y =>
      match find_index (Nat.eqb k) (g_lidx g) with
      | None => Err ValueError
      | Some start =>
          let endi := run_end k (skipn start (g_lidx g)) start in
          match nth_error (g_kidx g) (endi - 1) with
          | None => Err IndexError
          | Some endl =>
              let '(lay, lines, li, ki) :=
                prepend_loop rcmds 0 k start endi endl
                  (ly_lines y) (g_lines g) (g_lidx g) (g_kidx g) in
              Ok (set_lines_layers lines (set_nth k (set_ly_lines lay y) (g_layers g))
                                   li ki g,
                  rev rcmds)
          end
      end
  end.

(** gcoder.py 359-387 [rewrite_layer] for a non-negative layer index *)
Definition rewrite_layer (cmds : list string) (k : nat) (g : gcode)
  : res (gcode * list string) :=
  let rcmds := reversed_commands cmds in
  match nth_error (g_layers g) k with
  | None => Err IndexError
  | Some y =>
      match find_index (Nat.eqb k) (g_lidx g) with
      | None => Err ValueError
      | Some start =>
          let endi := run_end k (skipn start (g_lidx g)) start in
          let n := List.length rcmds in
          let li := (firstn start (g_lidx g) ++ repeat k n ++ skipn endi (g_lidx g))%list in
          let ki := (firstn start (g_kidx g) ++ seq 0 n ++ skipn endi (g_kidx g))%list in
          let lines0 := (firstn start (g_lines g) ++ skipn endi (g_lines g))%list in
          let lines := fold_left (fun acc c => insert_at start (inserted_line c) acc)
                                 rcmds lines0 in
          let lay := fold_left (fun acc c => inserted_line c :: acc) rcmds [] in
          Ok (set_lines_layers lines (set_nth k (set_ly_lines lay y) (g_layers g)) li ki g,
              rev rcmds)
      end
  end.

(** gcoder.py 389-400 [append] with [store=True].  The append layer is the
    last element of [g_layers].  For LightGCode the stored line is the
    unparsed one (gcoder.py 473-480 parses a copy). *)
Definition append (cmd : string) (g : gcode) : res gcode :=
  let c := strip cmd in
  if is_empty c then Ok g
  else
    do '(m, l) <- motion_step (g_m g) (new_line c);
    let l := if g_light g then new_line c else l in
    match nth_error (g_layers g) (g_append_id g) with
    | None => Err IndexError
    | Some y =>
        let lay := (ly_lines y ++ [l])%list in
        Ok (set_mstate m
              (set_lines_layers (g_lines g ++ [l])
                 (set_nth (g_append_id g) (set_ly_lines lay y) (g_layers g))
                 (g_lidx g ++ [g_append_id g]) (g_kidx g ++ [List.length lay]) g))
    end.

(** ** Comparison: gcoder.py 792-850 *)

(** gcoder.py 845-850 [comment_stripper_generator] *)
Definition meaningful (g : gcode) : list line :=
  filter (fun l => is_some (command l)) (List.concat (map ly_lines (g_layers g))).

(** [zip] over two generators followed by the "are they empty" checks
    (gcoder.py 826-843).  [zip] takes from the left generator first: when the
    right one is exhausted the line already taken from the left is lost. *)
Fixpoint eq_loop (a b : list line) : bool :=
  match a, b with
  | x :: a', y :: b' => if line_eqb x y then eq_loop a' b' else false
  | [], _ => match b with [] => true | _ => false end
  | _ :: a', [] => match a' with [] => true | _ => false end
  end.

(** gcoder.py 819-843 [GCode.__eq__] between two programs *)
Definition gcode_eqb (g h : gcode) : bool := eq_loop (meaningful g) (meaningful h).

(** gcoder.py 792-817 [diff]: None or the kind of difference found *)
Inductive diff_result :=
| DiffAt (n : nat) (l1 l2 : string)
| DiffSelf (l : string)
| DiffOther (l : string).

Fixpoint diff_loop (n : nat) (a b : list line) : option diff_result :=
  match a, b with
  | x :: a', y :: b' =>
      if line_eqb x y then diff_loop (S n) a' b' else Some (DiffAt n (raw x) (raw y))
  | [], _ => match b with [] => None | y :: _ => Some (DiffOther (raw y)) end
  | _ :: a', [] => match a' with [] => None | x :: _ => Some (DiffSelf (raw x)) end
  end.

Definition diff (g h : gcode) : option diff_result :=
  diff_loop 0 (meaningful g) (meaningful h).

End Gcoder.

Arguments args : clear implicits.
Arguments notes : clear implicits.
Arguments line : clear implicits.
Arguments mstate : clear implicits.
Arguments layer : clear implicits.
Arguments bbox : clear implicits.
Arguments dstate : clear implicits.
Arguments lstate : clear implicits.
Arguments gcode : clear implicits.

(** [GCode(data, home)] and [LightGCode(data, home)] *)
Notation load := (load_gen false).
Notation load_light := (load_gen true).

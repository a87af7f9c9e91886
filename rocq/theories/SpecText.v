(** * SpecText: vocabulary for statements about the text of a line *)
From Coq Require Import List Ascii String ZArith NArith Bool.
From Verif Require Import PyBase Arith Gcoder.
Import ListNotations.

(** [s] does not contain the character [c] *)
Definition lacks (c : ascii) (s : string) : bool := str_all (fun d => negb (Ascii.eqb d c)) s.

Fixpoint str_any (p : ascii -> bool) (s : string) : bool :=
  match s with
  | EmptyString => false
  | String c t => p c || str_any p t
  end.

(** a text with at least one digit *)
Definition has_digit (s : string) : bool := str_any is_digit s.

(** The words of a line: (letter, number text), comments as ("", ""), without
    a leading line number. *)
Definition words (s : string) : list token :=
  match findall (lower s) with
  | (c, v) :: t => if String.eqb c "n" then t else (c, v) :: t
  | [] => []
  end.

(** The line carries a command or starts with a comment, i.e. it is not free
    text without any known word. *)
Definition recognised (s : string) : bool :=
  match words s with [] => false | _ => true end.

(** an optional sign followed by at least one digit and nothing else *)
Definition is_integer (s : string) : bool :=
  match s with
  | String "-" t => negb (is_empty t) && str_all is_digit t
  | String "+" t => negb (is_empty t) && str_all is_digit t
  | _ => negb (is_empty s) && str_all is_digit s
  end.

(** a word whose number is either missing or has a digit *)
Definition word_ok (w : token) : bool := is_empty (snd w) || has_digit (snd w).

(** Well-formed line: the words of a G command have proper numbers (the g, t,
    m and n words inside it are not read), a dwell time has a digit, a tool
    number is an integer.  Lines with other commands are always well-formed. *)
Definition line_ok (s : string) : bool :=
  match words s with
  | [] => true
  | (c, v) :: _ =>
      if String.eqb c "g" then
        forallb (fun w => word_ok w || str_mem (fst w) ["g"; "t"; "m"; "n"]%string) (words s)
        && (negb (String.eqb v "4") ||
            match find_code "P" s with Some p => has_digit p | None => true end)
      else if String.eqb c "t" then is_integer v
      else true
  end.

(** no F word of the line is negative *)
Definition feed_ok (s : string) : bool :=
  forallb (fun w => negb (String.eqb (fst w) "f" && startswith "-" (snd w))) (words s).

(** the line is not a comment that is one big parenthesis *)
Definition no_outer_paren (s : string) : bool :=
  negb (startswith "(" s && ends_paren s).

(** no closing parenthesis before the first opening one *)
Fixpoint opens_first (c : string) : bool :=
  match c with
  | EmptyString => true
  | String d t => if Ascii.eqb d ")" then false
                  else if Ascii.eqb d "(" then true else opens_first t
  end.

(** [s] is a comment line: it starts with a semicolon, or is one parenthesis,
    possibly with others nested inside *)
Definition comment_line (s : string) : Prop :=
  exists c, lacks nl c = true /\
    (s = String ";" c \/ (s = String "(" (c ++ ")") /\ opens_first c = true)).

(** [x] is a trailing ";" comment: blanks, a semicolon and a text without
    newline or closing parenthesis *)
Definition comment_tail (x : string) : Prop :=
  exists b c, x = (b ++ String ";" c)%string /\ str_all is_space b = true /\
    lacks nl b = true /\ lacks nl c = true /\ lacks ")" c = true.

(** the line [t] is the one-line text [s], possibly followed by a comment *)
Definition commented (s t : string) : Prop :=
  t = s \/ (lacks nl s = true /\ no_outer_paren s = true /\
            exists x, comment_tail x /\ t = (s ++ x)%string).

(** [t] is the command [s] as a host sends it: line number, command, checksum *)
Definition framed (s t : string) : Prop :=
  exists n k, str_all is_digit n = true /\ str_all is_digit k = true /\
    t = String "N" (n ++ String " " (s ++ String "*" k)).

(** [s] has no line number of its own *)
Definition unnumbered (s : string) : Prop :=
  forall v w, findall (lower s) <> ("n"%string, v) :: w.

Section Same.
Context {A : arith}.

(** same line up to its text *)
Definition same_reading (l1 l2 : line A) : Prop :=
  command l1 = command l2 /\ is_move l1 = is_move l2 /\ largs l1 = largs l2 /\ lnotes l1 = lnotes l2.

(** The two steps fail alike, or reach the same machine state with the same
    numeric arguments, and, if [rec], the same command and notes. *)
Definition agree (rec : bool) (r1 r2 : res (mstate A * line A)) : Prop :=
  match r1, r2 with
  | Ok (m1, l1), Ok (m2, l2) =>
      m1 = m2 /\ largs l1 = largs l2 /\
      (rec = true -> command l1 = command l2 /\ is_move l1 = is_move l2 /\ lnotes l1 = lnotes l2)
  | Err e1, Err e2 => e1 = e2
  | _, _ => False
  end.

(** The two programs report the same everything, texts excepted. *)
Definition same_report (g h : gcode A) : Prop :=
  Forall2 same_reading (g_lines g) (g_lines h) /\
  Forall2 (fun y z => ly_z y = ly_z z /\ ly_dur y = ly_dur z /\
                      List.length (ly_lines y) = List.length (ly_lines z))
          (g_layers g) (g_layers h) /\
  g_zs g = g_zs h /\ g_lidx g = g_lidx h /\ g_kidx g = g_kidx h /\
  g_append_id g = g_append_id h /\ g_m g = g_m h /\
  g_xmin g = g_xmin h /\ g_xmax g = g_xmax h /\ g_ymin g = g_ymin h /\ g_ymax g = g_ymax h /\
  g_zmin g = g_zmin h /\ g_zmax g = g_zmax h /\ g_filament g = g_filament h /\
  g_total g = g_total h.

(** both loads fail alike or give programs with the same report *)
Definition same_outcome (a b : res (gcode A)) : Prop :=
  match a, b with
  | Ok g, Ok h => same_report g h
  | Err e, Err f => e = f
  | _, _ => False
  end.

End Same.

(** * SpecLoops: what it means to redraw a loop, in any arithmetic

    These definitions use no geometry, so they apply to the doubles the program
    really computes with as well as to the reals. *)
From Coq Require Import List Ascii String Bool.
From Verif Require Import PyBase Arith Gcoder SpecText Stretch SpecStretch SpecBend.
Import ListNotations.
Local Open Scope list_scope.

Section S.
Context {A : arith}.

(** the line moves to the point [p], both coordinates named *)
Definition goes_to (l : line A) (p : num A * num A) : Prop :=
  xy_move l = true /\ l_x l = Some (fst p) /\ l_y l = Some (snd p).

(** [body] are the lines of a loop of kind [k], from the move with the start mark
    to its last move; then comes the line [z] that ends it.  There is no other
    mark of a start or an end.  Lines that do not move in X and Y may be in
    between. *)
Definition loop_lines (d : dialect) (k : loop) (body : list (line A)) (z : line A) : Prop :=
  exists a ms, body = a :: ms /\ ms <> [] /\
    opened (raw a) = Some k /\ ends_loop d (raw a) = false /\
    Forall (fun l => opened (raw l) = None /\ contains "stretch-loop-stop" (raw l) = false /\ ends_loop d (raw l) = false) ms /\
    xy_move a = true /\ xy_move (last ms a) = true /\
    Forall (fun l => xy_move l = false -> forall l', reparse l = Ok l' -> xy_move l' = false) ms /\
    ends_loop d (raw z) = true.

(** the text of the line is a command, a word X, a word Y and more, with a blank
    between them; the words are the pair of texts *)
Definition written_at (l : line A) (t : string * string) : Prop :=
  exists c rest, raw l = (c ++ " X" ++ fst t ++ " Y" ++ snd t ++ " " ++ rest)%string /\
    lacks " " c = true /\ lacks " " (fst t) = true /\ lacks " " (snd t) = true.

(** The filter is given a loop with the points [ps] and writes the words [ts] for
    them; [w] is the edge width and [most] the largest displacement. *)
Definition redraws_loop profile fuel d (o : options (A:=A)) (w most : num A)
  (ps : list (num A * num A)) (ts : list (string * string)) : Prop :=
  exists (g g' : gcode A) printed ys n y y' pre body z post k,
    let body' := firstn (List.length body) (skipn (List.length pre) (ly_lines y')) in
    stretch profile fuel d o g = Ok (g', printed) /\
    setup_filter profile d (g_layers g) = Ok (Some w, ys) /\
    nth_error ys n = Some y /\ ly_lines y = pre ++ body ++ z :: post /\ loop_lines d k body z /\
    most = limit o (Some w) (Some k) /\ n_ltb n0 most = true /\
    nth_error (g_layers g') n = Some y' /\
    Forall2 goes_to (filter xy_move body) ps /\
    Forall2 written_at (map snd (filter (fun ll => xy_move (fst ll)) (combine body body'))) ts.
End S.

(** the first and the last are the same *)
Definition comes_back {X : Type} (xs : list X) : Prop := exists p mid, xs = p :: mid ++ [p].

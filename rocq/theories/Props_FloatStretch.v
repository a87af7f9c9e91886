(** * Props_FloatStretch: what the stretch does to the numbers, for IEEE doubles

    C57, C59, C60 and C61 over the reals are in Props_Stretch.  Here the numbers are
    doubles, and the error of computing with them is bounded: a billionth of a
    millimetre beside the half unit of the last written digit. *)
From Coq Require Import List String Reals.
From Flocq Require Import Core.
From Verif Require Import PyBase Arith ArithB64 Gcoder Filters Stretch SpecLoad SpecText SpecFilter SpecStretch SpecLoop.
From Verif Require Import SpecBinary64 SpecFloatStretch Samples.
From Verif Require Import P_Load P_MachineRefuted P_Stretch P_StretchRefuted P_StretchSample P_FloatStretchWhole P_FloatStretchSample.
Import ListNotations.
Local Open Scope R_scope.

(** C57: a point moves by at most the limit.  Missing: programs in inches, numbers
    above a million, lines that a remark cannot be added to, and settings out of
    the ordinary. *)
Theorem C57_binary64_partial :
  forall profile fuel d (o : options (A:=B64)) home data (g g' : gcode B64) printed,
    load_gen false home data = Ok g -> Forall plain_text (program_text data) ->
    stretch profile fuel d o g = Ok (g', printed) ->
    exists w ms, marking profile d g w ms /\
      ((forall we, w = Some we -> ordinary o we) ->
       forall k l l', nth_error (all_lines g) k = Some l -> nth_error (all_lines g') k = Some l' ->
        to_stretch o w (upto k ms) = true ->
        exists x y dx dy x' y',
          (forall v, l_x l = Some v -> x = fval v) /\ (forall v, l_y l = Some v -> y = fval v) /\
          sqrt (dx * dx + dy * dy) <= fval (limit o w (loop_of (map raw (upto k ms)))) + / 1000000000 /\
          l_x l' = Some x' /\ Rabs (fval x' - (x + dx)) <= / 2000 + / 1000000000 /\
          l_y l' = Some y' /\ Rabs (fval y' - (y + dy)) <= / 2000 + / 1000000000).
Proof. exact loaded_point. Qed.
Print Assumptions C57_binary64_partial.

(** five moves of this square are stretched *)
Example C57_binary64_example :
  load_gen (A:=B64) false home0 small_square = Ok squareF /\ Forall plain_text (program_text small_square) /\
  (exists r, stretch no_profile 100 Slic3r default_options squareF = Ok r) /\
  marking no_profile Slic3r squareF (fst markedF) (lines_of (snd markedF)) /\
  (forall we, fst markedF = Some we -> ordinary default_options we) /\
  forall k, (1 <= k <= 5)%nat -> to_stretch default_options (fst markedF) (upto k (lines_of (snd markedF))) = true.
Proof.
  exact (conj squareF_loaded (conj square_plain (conj squareF_stretched (conj squareF_marking
    (conj squareF_ordinary squareF_to_stretch))))).
Qed.

(** C59: a stretched move keeps its command and its Z, and its E is scaled by a
    factor between one minus the limit and one.  Missing: as for C57, and limits
    above a millimetre. *)
Theorem C59_binary64_partial :
  forall profile fuel d (o : options (A:=B64)) home data (g g' : gcode B64) printed,
    load_gen false home data = Ok g -> Forall plain_text (program_text data) ->
    stretch profile fuel d o g = Ok (g', printed) ->
    exists w ms, marking profile d g w ms /\
      ((forall we, w = Some we -> ordinary o we) ->
       forall k l l', nth_error (all_lines g) k = Some l -> nth_error (all_lines g') k = Some l' ->
        to_stretch o w (upto k ms) = true ->
        fval (limit o w (loop_of (map raw (upto k ms)))) <= 1 ->
        command l' = command l /\
        match l_z l, l_z l' with
        | Some z, Some z' => Rabs (fval z' - fval z) <= / 2000 + / 1000000000
        | None, None => True
        | _, _ => False
        end /\
        match l_e l, l_e l' with
        | Some e, Some e' =>
            exists f, 1 - fval (limit o w (loop_of (map raw (upto k ms)))) - / 1000000000 <= f <= 1 /\
                      Rabs (fval e' - fval e * f) <= / 200000 + / 1000000000
        | None, None => True
        | _, _ => False
        end).
Proof. exact loaded_words. Qed.
Print Assumptions C59_binary64_partial.

(** the rest is as for C57 *)
Example C59_binary64_example :
  fval (limit default_options (fst markedF) (loop_of (map raw (upto 2 (lines_of (snd markedF)))))) <= 1.
Proof. exact squareF_limit. Qed.

(** C60: a stretched move has the feedrate of the latest F word, provided it belongs
    to a move of a loop.  Missing: as for C57, and feedrates set elsewhere, for
    which C60 is false. *)
Theorem C60_binary64_partial :
  forall profile fuel d (o : options (A:=B64)) home data (g g' : gcode B64) printed,
    load_gen false home data = Ok g -> Forall plain_text (program_text data) ->
    stretch profile fuel d o g = Ok (g', printed) ->
    exists w ms, marking profile d g w ms /\
      ((forall we, w = Some we -> ordinary o we) ->
       forall k l', nth_error (all_lines g') k = Some l' -> to_stretch o w (upto k ms) = true ->
        forall j lj f, (j <= k)%nat -> nth_error (all_lines g) j = Some lj -> loop_move (upto j ms) = true ->
          l_f lj = Some f -> fval f <> 0 ->
          (forall i li, (j < i <= k)%nat -> nth_error (all_lines g) i = Some li -> l_f li = None) ->
          exists f', l_f l' = Some f' /\ Rabs (fval f' - fval f) <= / 2000 + / 1000000000).
Proof. exact loaded_feed. Qed.
Print Assumptions C60_binary64_partial.

(** the feedrate of move 1 is the one of moves 1 to 5 *)
Example C60_binary64_example :
  loop_move (upto 1 (lines_of (snd markedF))) = true /\
  map (fun l => option_map (n_eqb (a:=B64) (lit 1800 0)) (l_f l)) (firstn 6 (all_lines squareF)) =
    [None; Some true; None; None; None; None].
Proof. exact squareF_feed. Qed.

(** C61: a coordinate that a stretched move does not name stays near the one of the
    move before it, provided that is a move of a loop with X and Y.  Missing: as for
    C57, and other previous moves, for which C61 is false. *)
Theorem C61_binary64_partial :
  forall profile fuel d (o : options (A:=B64)) home data (g g' : gcode B64) printed,
    load_gen false home data = Ok g -> Forall plain_text (program_text data) ->
    stretch profile fuel d o g = Ok (g', printed) ->
    exists w ms, marking profile d g w ms /\
      ((forall we, w = Some we -> ordinary o we) ->
       forall j k lj l l' x0 y0, (j < k)%nat -> nth_error (all_lines g) j = Some lj -> loop_move (upto j ms) = true ->
        l_x lj = Some x0 -> l_y lj = Some y0 ->
        (forall i li, (j < i < k)%nat -> nth_error (all_lines g) i = Some li -> xy_move li = false) ->
        nth_error (all_lines g) k = Some l -> nth_error (all_lines g') k = Some l' ->
        to_stretch o w (upto k ms) = true ->
        exists dx dy x' y',
          sqrt (dx * dx + dy * dy) <= fval (limit o w (loop_of (map raw (upto k ms)))) + / 1000000000 /\
          l_x l' = Some x' /\
          Rabs (fval x' - (fval (match l_x l with Some x => x | None => x0 end) + dx)) <= / 2000 + / 1000000000 /\
          l_y l' = Some y' /\
          Rabs (fval y' - (fval (match l_y l with Some y => y | None => y0 end) + dy)) <= / 2000 + / 1000000000).
Proof. exact loaded_from. Qed.
Print Assumptions C61_binary64_partial.

(** moves 1 and 2 follow each other and both are moves of the loop *)
Example C61_binary64_example :
  loop_move (upto 1 (lines_of (snd markedF))) = true /\
  to_stretch default_options (fst markedF) (upto 2 (lines_of (snd markedF))) = true /\
  map (fun l => (option_map (n_eqb (a:=B64) (lit 10 0)) (l_x l), option_map (n_eqb (a:=B64) (lit 10 0)) (l_y l)))
    (firstn 2 (all_lines squareF)) = [(None, None); (Some true, Some true)].

Proof. exact squareF_from. Qed.

(** * SpecLoad: what loading and writing a program should mean

    Independent vocabulary for the statements about gcoder.py.  Nothing here
    refers to the way [_preprocess] builds its layers. *)
From Coq Require Import List Ascii String ZArith NArith Bool.
From Verif Require Import PyBase Arith Gcoder.
Import ListNotations.

(** a line made of blanks only *)
Definition blank (s : string) : bool := str_all is_space s.

(** the program contained in a list of text lines *)
Definition program_text (data : list string) : list string :=
  map strip (filter (fun s => negb (blank s)) data).

(** [t] is [s] without its surrounding blanks *)
Definition stripped_of (s t : string) : Prop :=
  exists a b, s = (a ++ t ++ b)%string /\ blank a = true /\ blank b = true /\
    (forall c u, t = String c u -> is_space c = false) /\
    (forall u c, t = (u ++ String c "")%string -> is_space c = false).

(** The addresses (block, position in block) of the elements of a list of
    blocks, in reading order; [n] is the number of the first block. *)
Fixpoint positions {T} (n : nat) (blocks : list (list T)) : list (nat * nat) :=
  match blocks with
  | [] => []
  | b :: t => map (pair n) (seq 0 (List.length b)) ++ positions (S n) t
  end.

Section Spec.
Context {A : arith}.

(** the blocks of lines a program consists of *)
Definition blocks (g : gcode A) : list (list (line A)) := map ly_lines (g_layers g).

(** [idxs] is right: for every line number it gives the place of that very
    line in the layers, and beyond the end it raises IndexError. *)
Definition idxs_right (g : gcode A) : Prop :=
  (forall i l, nth_error (g_lines g) i = Some l ->
     exists n k b, idxs g i = Ok (n, k) /\ nth_error (blocks g) n = Some b /\
                   nth_error b k = Some l) /\
  (forall i, List.length (g_lines g) <= i -> idxs g i = Err IndexError) /\
  List.length (g_kidx g) = List.length (g_lines g).

(** Programs a user can hold: loaded, then edited by any number of successful
    calls of prepend_to_layer and rewrite_layer. *)
Inductive edited : gcode A -> Prop :=
| ed_load light home data g : load_gen light home data = Ok g -> edited g
| ed_prepend cmds k g g' r : edited g -> prepend_to_layer cmds k g = Ok (g', r) -> edited g'
| ed_rewrite cmds k g g' r : edited g -> rewrite_layer cmds k g = Ok (g', r) -> edited g'.

(** The two programs differ in the contents of layer [k] only. *)
Definition same_but_layer (k : nat) (g g' : gcode A) : Prop :=
  List.length (g_layers g') = List.length (g_layers g) /\
  (forall j, j <> k -> nth_error (g_layers g') j = nth_error (g_layers g) j) /\
  (forall y, nth_error (g_layers g) k = Some y ->
     exists y', nth_error (g_layers g') k = Some y' /\ ly_z y' = ly_z y /\ ly_dur y' = ly_dur y) /\
  g_light g' = g_light g /\ g_zs g' = g_zs g /\ g_m g' = g_m g /\
  g_append_id g' = g_append_id g /\
  g_xmin g' = g_xmin g /\ g_xmax g' = g_xmax g /\ g_ymin g' = g_ymin g /\
  g_ymax g' = g_ymax g /\ g_zmin g' = g_zmin g /\ g_zmax g' = g_zmax g /\
  g_filament g' = g_filament g /\ g_total g' = g_total g.

(** A line made of command text [s] that is not marked as a move and carries
    no coordinates. *)
Definition plain_command (s : string) (l : line A) : Prop :=
  raw l = s /\ is_move l = false /\ largs l = no_args /\ lnotes l = no_notes /\
  command l = command (raw_to_line (A:=A) s).

End Spec.

Section SpecAppend.
Context {A : arith}.

(** Programs a user can hold when append is used too. *)
Inductive used : gcode A -> Prop :=
| us_load light home data g : load_gen light home data = Ok g -> used g
| us_prepend cmds k g g' r : used g -> prepend_to_layer cmds k g = Ok (g', r) -> used g'
| us_rewrite cmds k g g' r : used g -> rewrite_layer cmds k g = Ok (g', r) -> used g'
| us_append cmd g g' : used g -> append cmd g = Ok g' -> used g'.

(** Appending several commands one after the other. *)
Definition append_all (cmds : list string) (g : gcode A) : res (gcode A) :=
  foldM (fun g c => append c g) cmds g.

End SpecAppend.

(** * Visit: model of gcodeutils/visit and of gcode_mod.py

    A visitor is a state with three call-backs.  [will_visit_layer] and
    [did_visit_layer] may change the program, [visit_line] may not (a visitor
    that changes a layer while its lines are being visited is not modelled).
    A call-back gets the layer or line and the four fields of
    [GCodeIteratorInformation] (its fifth field is the program).  Logging is
    left out. *)
From Coq Require Import List Ascii String ZArith NArith Bool.
From Verif Require Import PyBase Arith Gcoder Filters.
Import ListNotations.
Local Open Scope list_scope.

(** visit/iterator.py 15-24 [GCodeIteratorInformation] *)
Record info := Info {
  in_number : nat;    (* layer_number *)
  in_index : nat;     (* layer_index *)
  in_line : Z;        (* line_number *)
  in_printed : bool   (* is_printed *)
}.

Section Visit.
Context {A : arith}.
Notation num := (num A).
Notation line := (line A).
Notation layer := (layer A).
Notation gcode := (gcode A).

(** ** visit/iterator.py *)

(** iterator.py 37: [round(z, digits)] for z a float or None *)
Definition round_z (digits : nat) (z : option num) : res num :=
  match z with
  | Some z => Ok (py_round digits z)
  | None => Err TypeError
  end.

Fixpoint round_zs (digits : nat) (zs : list (option num)) : res (list num) :=
  match zs with
  | [] => Ok []
  | z :: t =>
      do r <- round_z digits z;
      do rs <- round_zs digits t;
      Ok (r :: rs)
  end.

(** iterator.py 32-40 [GCodeIterator.__init__]: the sorted list of heights *)
Definition iterator_zs (digits : nat) (g : gcode) : res (list num) :=
  do rs <- round_zs digits (g_zs g); Ok (py_sorted rs).

(** Equality of two layers that are different objects: lists of the same
    length with equal lines.  Lines of LightGCode have no [__eq__]: two of
    them are equal only if they are the same object. *)
Fixpoint lines_eqb (light : bool) (a b : list line) : bool :=
  match a, b with
  | [], [] => true
  | x :: a', y :: b' => negb light && line_eqb x y && lines_eqb light a' b'
  | _, _ => false
  end.

(** iterator.py 49: [all_layers.index(parsed_layer)], where the layer is
    number [i]: the first layer that is it or is equal to it *)
Fixpoint index_from (light : bool) (j i : nat) (y : layer) (ys : list layer) : nat :=
  match ys with
  | [] => i
  | y' :: t => if Nat.eqb j i || lines_eqb light (ly_lines y') (ly_lines y) then j
               else index_from light (S j) i y t
  end.
Definition layer_index (g : gcode) (i : nat) (y : layer) : nat :=
  index_from (g_light g) 0 i y (g_layers g).

(** iterator.py 50-56: layer_number and is_printed; [i] is
    parsed_layer_number.  The bare [except] takes the TypeError of
    [round(None)] and the ValueError of [index]. *)
Definition layer_numbering (digits : nat) (zs : list num) (i : nat) (y : layer) : nat * bool :=
  match ly_z y with
  | None => (i, false)
  | Some z =>
      match find_index (fun w => n_eqb w (py_round digits z)) zs with
      | Some n => (n, true)
      | None => (i, false)
      end
  end.

Record visitor (St : Type) := Visitor {
  v_will : St -> gcode -> layer -> info -> res (St * gcode);
  v_line : St -> gcode -> line -> info -> res St;
  v_did : St -> gcode -> layer -> info -> res (St * gcode)
}.
Arguments v_will {St}.
Arguments v_line {St}.
Arguments v_did {St}.

Section Accept.
Context {St : Type}.
Variable v : visitor St.

(** iterator.py 67-76: the loop over the lines of a layer *)
Fixpoint visit_lines (g : gcode) (num idx : nat) (printed : bool) (n : nat) (s : St)
  (ls : list line) : res (St * nat) :=
  match ls with
  | [] => Ok (s, n)
  | l :: t =>
      do s1 <- v_line v s g l (Info num idx (Z.of_nat n) printed);
      visit_lines g num idx printed (S n) s1 t
  end.

(** iterator.py 48-86: the loop over the layers, from number [i] on; [n] is
    parsed_line_number.  The number of layers is that at the start: no method
    of GCode changes it. *)
Fixpoint visit_layers (digits : nat) (zs : list num) (i k n : nat) (s : St) (g : gcode)
  : res (St * gcode) :=
  match k with
  | O => Ok (s, g)
  | S k' =>
      match nth_error (g_layers g) i with
      | None => Ok (s, g)
      | Some y =>
          let idx := layer_index g i y in
          let '(num, printed) := layer_numbering digits zs i y in
          do '(s1, g1) <- v_will v s g y (Info num idx (Z.of_nat n) printed);
          match nth_error (g_layers g1) i with
          | None => Ok (s1, g1)
          | Some y1 =>
              do '(s2, n2) <- visit_lines g1 num idx printed n s1 (ly_lines y1);
              do '(s3, g3) <- v_did v s2 g1 y1 (Info num idx (Z.of_nat n2 - 1) printed);
              visit_layers digits zs (S i) k' n2 s3 g3
          end
      end
  end.

(** iterator.py 42-86 [accept] *)
Definition accept (digits : nat) (zs : list num) (s : St) (g : gcode) : res (St * gcode) :=
  visit_layers digits zs 0 (List.length (g_layers g)) 0 s g.

(** [GCodeIterator(gcode, digits).accept(visitor)] *)
Definition iterate (digits : nat) (s : St) (g : gcode) : res (St * gcode) :=
  do zs <- iterator_zs digits g; accept digits zs s g.

End Accept.

(** ** visit/pause_at_layer.py *)

Definition pause_command : string := "M226".

(** pause_at_layer.py 14-30 [PauseAtLayer] (call-backs not defined there come
    from visitor.py 10-26 and do nothing) *)
Definition pause_at_layer (layers : list Z) : visitor unit :=
  Visitor unit
    (fun s g _ _ => Ok (s, g))
    (fun s _ _ _ => Ok s)
    (fun s g _ i =>
       if in_printed i && existsb (Z.eqb (Z.of_nat (in_number i))) layers
       then do '(g', _) <- prepend_to_layer [pause_command] (in_index i) g; Ok (s, g')
       else Ok (s, g)).

(** [GCodeIterator(gcode, digits).accept(PauseAtLayer(layers))] *)
Definition pause (digits : nat) (layers : list Z) (g : gcode) : res gcode :=
  do '(_, g') <- iterate (pause_at_layer layers) digits tt g; Ok g'.

(** ** gcode_mod.py *)

(** gcode_mod.py 24-33: the options; [-e] is counted, only its presence
    matters *)
Record mod_options := ModOptions {
  o_x : option num; o_y : option num; o_e : bool; o_p : option Z }.

(** gcode_mod.py 57-71: from the lines of the input file to the lines of the
    output file *)
Definition gcode_mod (o : mod_options) (data : list string) : res (list string) :=
  do g0 <- load_gen false home0 data;
  do g1 <- (if is_some (o_x o) || is_some (o_y o) then translate (o_x o) (o_y o) g0 else Ok g0);
  do g2 <- (if o_e o then to_relative_extrusion g1 else Ok g1);
  do zs <- iterator_zs 2 g2;
  do g3 <- (match o_p o with
            | Some p => do '(_, g') <- accept (pause_at_layer [p]) 2 zs tt g2; Ok g'
            | None => Ok g2
            end);
  Ok (write g3).

End Visit.

Arguments visitor A St : clear implicits.
Arguments Visitor {A St}.

(** * SpecVisit: vocabulary for statements about visiting and pausing *)
From Coq Require Import List Ascii String ZArith NArith Bool Reals.
From Verif Require Import PyBase Arith Gcoder Filters Visit SpecLoad.
Import ListNotations.
Local Open Scope list_scope.

Section Spec.
Context {A : arith}.

(** ** Heights *)

(** the known heights at which something is printed, rounded *)
Definition heights (digits : nat) (g : gcode A) : list (num A) :=
  map (py_round digits) (somes (g_zs g)).

(** every height at which something is printed is known *)
Definition heights_known (g : gcode A) : Prop := ~ In None (g_zs g).

(** the layer has a height, and something is printed at that height *)
Definition printed (digits : nat) (g : gcode A) (y : layer A) : bool :=
  match ly_z y with
  | Some z => existsb (fun w => n_eqb w (py_round digits z)) (heights digits g)
  | None => false
  end.

(** its place among the heights in ascending order *)
Definition rank (digits : nat) (g : gcode A) (y : layer A) : nat :=
  match ly_z y with
  | Some z =>
      match find_index (fun w => n_eqb w (py_round digits z)) (py_sorted (heights digits g)) with
      | Some n => n
      | None => 0
      end
  | None => 0
  end.

(** number of heights below that of the layer *)
Definition count_below (digits : nat) (g : gcode A) (y : layer A) : nat :=
  match ly_z y with
  | Some z => List.length (filter (fun w => n_ltb w (py_round digits z)) (heights digits g))
  | None => 0
  end.

(** the number a visitor gets for layer [i]: its rank if it is printed, its
    position otherwise *)
Definition shown_number (digits : nat) (g : gcode A) (i : nat) (y : layer A) : nat :=
  if printed digits g y then rank digits g y else i.

(** ** Visiting *)

(** two layers hold equal lines *)
Definition same_lines (g : gcode A) (i j : nat) : bool :=
  match nth_error (g_layers g) i, nth_error (g_layers g) j with
  | Some a, Some b => lines_eqb (g_light g) (ly_lines a) (ly_lines b)
  | _, _ => false
  end.

(** the first layer with the lines of layer [i] *)
Definition place (g : gcode A) (i : nat) : nat :=
  match find (fun j => Nat.eqb j i || same_lines g j i) (seq 0 (S i)) with
  | Some j => j
  | None => i
  end.

Inductive event :=
| WillVisit (y : layer A) (i : info)
| VisitLine (l : line A) (i : info)
| DidVisit (y : layer A) (i : info).

(** the lines of a layer with their numbers *)
Definition numbered (n : nat) (ls : list (line A)) : list (nat * line A) :=
  combine (seq n (List.length ls)) ls.

(** what happens for layer [i], [n] lines into the program *)
Definition layer_events (digits : nat) (g : gcode A) (i n : nat) (y : layer A) : list event :=
  let about k := Info (shown_number digits g i y) (place g i) k (printed digits g y) in
  WillVisit y (about (Z.of_nat n))
  :: map (fun p => VisitLine (snd p) (about (Z.of_nat (fst p)))) (numbered n (ly_lines y))
  ++ [DidVisit y (about (Z.of_nat n + Z.of_nat (List.length (ly_lines y)) - 1)%Z)].

(** the lines before layer [i] *)
Definition lines_before (g : gcode A) (i : nat) : nat :=
  List.length (List.concat (firstn i (blocks g))).

(** everything that happens *)
Definition all_events (digits : nat) (g : gcode A) : list event :=
  List.concat (map (fun p => layer_events digits g (fst p) (lines_before g (fst p)) (snd p))
                   (combine (seq 0 (List.length (g_layers g))) (g_layers g))).

(** a visitor that only looks *)
Definition observer {St} (f : St -> event -> res St) : visitor A St :=
  Visitor (fun s g y i => do s' <- f s (WillVisit y i); Ok (s', g))
          (fun s _ l i => f s (VisitLine l i))
          (fun s g y i => do s' <- f s (DidVisit y i); Ok (s', g)).

(** ** Pausing *)

(** Programs as a user gets them: loaded, then edited, translated and
    converted, without emptying a layer. *)
Inductive prepared : gcode A -> Prop :=
| pr_load light home data g : load_gen light home data = Ok g -> prepared g
| pr_prepend cmds k g g' r : prepared g -> prepend_to_layer cmds k g = Ok (g', r) -> prepared g'
| pr_rewrite cmds k g g' r : prepared g -> program_text cmds <> [] ->
    rewrite_layer cmds k g = Ok (g', r) -> prepared g'
| pr_translate x y g g' : prepared g -> translate x y g = Ok g' -> prepared g'
| pr_relative g g' : prepared g -> to_relative_extrusion g = Ok g' -> prepared g'.

(** a layer that should get a pause *)
Definition wants_pause (digits : nat) (L : list Z) (g : gcode A) (y : layer A) : bool :=
  printed digits g y && existsb (Z.eqb (Z.of_nat (rank digits g y))) L.

(** the layer with [n] times the line [m] in front *)
Definition fronted (m : line A) (n : nat) (y : layer A) : layer A :=
  Layer (repeat m n ++ ly_lines y) (ly_z y) (ly_dur y).

Definition fronts (m : line A) (ns : list nat) (ys : list (layer A)) : list (layer A) :=
  map (fun p => fronted m (fst p) (snd p)) (combine ns ys).

(** everything but the lines is the same *)
Definition same_rest (g g' : gcode A) : Prop :=
  map ly_z (g_layers g') = map ly_z (g_layers g) /\ g_light g' = g_light g /\ g_zs g' = g_zs g /\
  g_m g' = g_m g /\ g_append_id g' = g_append_id g /\
  g_xmin g' = g_xmin g /\ g_xmax g' = g_xmax g /\ g_ymin g' = g_ymin g /\
  g_ymax g' = g_ymax g /\ g_zmin g' = g_zmin g /\ g_zmax g' = g_zmax g /\
  g_filament g' = g_filament g /\ g_total g' = g_total g.

(** No layer that should get a pause is equal to an earlier layer, with or
    without the pause this one gets. *)
Definition distinguishable (digits : nat) (L : list Z) (g : gcode A) : Prop :=
  forall i j a b m, i < j -> nth_error (g_layers g) i = Some a -> nth_error (g_layers g) j = Some b ->
    wants_pause digits L g b = true -> plain_command "M226" m ->
    lines_eqb (g_light g) (if wants_pause digits L g a then m :: ly_lines a else ly_lines a)
              (ly_lines b) = false.

End Spec.

Arguments event : clear implicits.

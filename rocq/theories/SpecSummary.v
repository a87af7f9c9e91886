(** * SpecSummary: what the texts of a report mean *)
From Coq Require Import List Ascii String ZArith NArith Bool Reals.
From Verif Require Import PyBase Arith ArithR.
Import ListNotations.

(** the text is a decimal number within half a unit of its [d]-th decimal *)
Definition shows (d : nat) (s : string) (v : R) : Prop :=
  exists w, py_float (A:=RA) s = Some w /\ (Rabs (w - v) <= / 2 / 10 ^ d)%R.

(** the text is a natural number *)
Definition counts (s : string) (n : N) : Prop :=
  s <> ""%string /\ str_all is_digit s = true /\ digits_val s = n.

(** a time of day with two-digit minutes and seconds, behind the number of days
    if there is at least one *)
Definition spells (s : string) (n : N) : Prop :=
  exists d h m ss : N, exists dt ht mt st,
    counts dt d /\ counts ht h /\ counts mt m /\ counts st ss /\
    String.length mt = 2 /\ String.length st = 2 /\
    (h < 24)%N /\ (m < 60)%N /\ (ss < 60)%N /\
    n = (86400 * d + 3600 * h + 60 * m + ss)%N /\
    s = ((if N.eqb d 0 then "" else dt ++ (if N.eqb d 1 then " day, " else " days, ")) ++
         ht ++ ":" ++ mt ++ ":" ++ st)%string.

(** a line of the report: two bounds and the distance between them *)
Definition range_line (axis s : string) (a b w : R) : Prop :=
  exists ta tb tw, shows 2 ta a /\ shows 2 tb b /\ shows 2 tw w /\
    s = (String (ascii_of_nat 9) "" ++ axis ++ ": " ++ ta ++ " - " ++ tb ++ " (" ++ tw ++ ")")%string.

(** a report of a program *)
Record measures := Measures {
  r_xmin : R; r_xmax : R; r_width : R; r_ymin : R; r_ymax : R; r_depth : R;
  r_zmin : R; r_zmax : R; r_height : R; r_filament : R; r_layers : N; r_seconds : N }.

Definition reports (ss : list string) (r : measures) : Prop :=
  exists x y z f l t,
    ss = ["Dimensions:"; x; y; z; "Filament used: " ++ f ++ "mm"; "Number of layers: " ++ l;
          "Estimated duration: " ++ t]%string /\
    range_line "X" x (r_xmin r) (r_xmax r) (r_width r) /\
    range_line "Y" y (r_ymin r) (r_ymax r) (r_depth r) /\
    range_line "Z" z (r_zmin r) (r_zmax r) (r_height r) /\
    shows 2 f (r_filament r) /\ counts l (r_layers r) /\ spells t (r_seconds r).

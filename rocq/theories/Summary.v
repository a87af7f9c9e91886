(** * Summary: the report of a program, gcoder.py 857-879 *)
From Coq Require Import List Ascii String ZArith NArith Bool.
From Verif Require Import PyBase Arith Gcoder.
Import ListNotations.
Local Open Scope string_scope.

(** [str(datetime.timedelta(seconds=n))] of the standard library: days if there
    are any, then hours, minutes and seconds.  Its limit of 999999999 days is
    not modelled. *)
Definition duration_text (n : Z) : string :=
  let days := (n / 86400)%Z in
  let rest := Z.to_N (n mod 86400) in
  (if Z.eqb days 0 then ""
   else (if Z.ltb days 0 then "-" else "") ++ N_to_string (Z.abs_N days) ++ " day" ++
        (if Z.eqb (Z.abs days) 1 then "" else "s") ++ ", ") ++
  N_to_string (rest / 3600)%N ++ ":" ++ digits_fixed 2 (rest / 60 mod 60)%N ++ ":" ++
  digits_fixed 2 (rest mod 60)%N.

Section Summary.
Context {A : arith}.

(** "%0.02f - %0.02f (%0.02f)", gcoder.py 868, 870, 872 *)
Definition range_text (a b w : num A) : string :=
  fmt 2 a ++ " - " ++ fmt 2 b ++ " (" ++ fmt 2 w ++ ")".

Definition tab : string := String (ascii_of_nat 9) "".

(** gcoder.py 295-298, [layers_count] *)
Definition layers_count (g : gcode A) : nat := List.length (g_zs g).

(** gcoder.py 866-875, with 295-298 and 783-784: what [main] prints about a
    program.  The two lines about the size of Python objects before it
    (862-863) are left out. *)
Definition summary (g : gcode A) : list string :=
  [ "Dimensions:";
    tab ++ "X: " ++ range_text (g_xmin g) (g_xmax g) (g_width g);
    tab ++ "Y: " ++ range_text (g_ymin g) (g_ymax g) (g_depth g);
    tab ++ "Z: " ++ range_text (g_zmin g) (g_zmax g) (g_height g);
    "Filament used: " ++ fmt 2 (g_filament g) ++ "mm";
    "Number of layers: " ++ N_to_string (N.of_nat (layers_count g));
    "Estimated duration: " ++ duration_text (g_duration g) ].

End Summary.

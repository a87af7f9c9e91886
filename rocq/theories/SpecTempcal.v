(** * SpecTempcal: what C40-C48 and C76 say *)
From Coq Require Import List Ascii String ZArith NArith Bool Reals.
From Verif Require Import PyBase Arith Gcoder Tempcal.
Import ListNotations.
Local Open Scope list_scope.

(** the lines that were added, in order *)
Definition added (out : list printed_line) : list string :=
  flat_map (fun p => match p with Added s => [s] | Copied _ => [] end) out.

(** the output without the added lines *)
Definition without_added (out : list printed_line) : list string :=
  flat_map (fun p => match p with Added _ => [] | Copied s => [s] end) out.

(** a number of tenths of a degree, with one decimal *)
Definition tenths (m : N) : string :=
  (N_to_string (m / 10) ++ "." ++ N_to_string (m mod 10))%string.

(** a line that sets a temperature within the safety bounds *)
Definition safe_line (s : string) : Prop :=
  exists m : N, (1500 <= m <= 2500)%N /\ s = ("M104 S" ++ tenths m)%string.

(** the line for the temperature [r]: rounded to the nearest tenth, blank if
    that is outside the bounds *)
Definition line_for (r : R) (s : string) : Prop :=
  exists m : Z, (Rabs (IZR m - 10 * r) <= / 2)%R /\
    ((1500 <= m <= 2500)%Z /\ s = ("M104 S" ++ tenths (Z.to_N m))%string \/
     ~ (1500 <= m <= 2500)%Z /\ s = EmptyString).

(** one added line list per layer *)
Fixpoint woven (adds : list (list string)) {A} (ys : list (layer A)) : list printed_line :=
  match adds, ys with
  | a :: adds', y :: ys' =>
      map Added a ++ map (fun l => Copied (raw l)) (ly_lines y) ++ woven adds' ys'
  | _, _ => []
  end.

Local Open Scope R_scope.

(** the temperature at [z] of a gradient from [s] at [z0] to [e] at [z1] *)
Definition linear (s e z0 z1 z : R) : R := s + (e - s) * ((z - z0) / (z1 - z0)).

(** the temperature of the step gradient: a steeper line, cut at the higher
    end *)
Definition steeper (n s e z0 z1 z : R) : R :=
  Rmin (Rmax s e) (s + (1 + / n) * (e - s) * ((z - z0) / (z1 - z0))).

Section Spec.
Context {A : arith}.
Variable E : exact A.
Notation val := (val E).

(** the heights at which the layers start, where known *)
Definition start_heights (ys : list (layer A)) : list (num A) :=
  flat_map (fun y => match ly_lines y with
                     | l :: _ => match t_z (lnotes l) with Some z => [z] | None => [] end
                     | [] => [] end) ys.

(** a layer starts at a known height *)
Definition starts_at (y : layer A) (z : num A) : Prop :=
  exists l t, ly_lines y = l :: t /\ t_z (lnotes l) = Some z.

(** [z] is the lowest height taken into account: the first one, or a lower one
    above [mz] *)
Definition lowest (mz : R) (hs : list (num A)) (z : R) : Prop :=
  match hs with
  | [] => False
  | h0 :: _ =>
      let taken w := w = val h0 \/ (exists h, In h hs /\ val h = w) /\ mz < w < val h0 in
      taken z /\ forall w, taken w -> z <= w
  end.

(** the target temperature at a height *)
Definition target (gr : gradient) (s e z0 z1 z : R) : R :=
  match gr with
  | Continuous => linear s e z0 z1 z
  | Steps (StepsInt n) => steeper (IZR n) s e z0 z1 z
  | Steps (StepsText _) => 0
  end.

(** a gradient object can be built *)
Definition constructible (gr : gradient) : Prop :=
  match gr with
  | Continuous => True
  | Steps (StepsInt n) => n <> 0%Z
  | Steps (StepsText _) => False
  end.

(** a gradient that makes sense: continuous, or at least one step *)
Definition usable (gr : gradient) : Prop :=
  match gr with
  | Continuous => True
  | Steps (StepsInt n) => (1 <= n)%Z
  | Steps (StepsText _) => False
  end.

End Spec.

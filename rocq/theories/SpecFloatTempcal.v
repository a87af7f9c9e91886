(** * SpecFloatTempcal: what C43, C44, C46, C47 and C76 say of IEEE doubles *)
From Coq Require Import List String ZArith Bool Reals Floats.SpecFloat.
From Verif Require Import PyBase Arith ArithB64 Gcoder Tempcal SpecTempcal SpecBinary64.
Import ListNotations.
Local Open Scope R_scope.

(** a number, and no more than a million *)
Definition modest_num (x : num B64) : Prop := fin x /\ Rabs (fval x) <= 10 ^ 6.

(** the heights and the temperatures are modest numbers *)
Definition modest_print (s e mz : num B64) (g : gcode B64) : Prop :=
  modest_num s /\ modest_num e /\ modest_num mz /\ modest_num (g_zmax g) /\
  Forall modest_num (start_heights (g_layers g)).

(** [lowest], for doubles *)
Definition flowest (mz : R) (hs : list (num B64)) (z : R) : Prop :=
  match hs with
  | [] => False
  | h0 :: _ =>
      let taken w := w = fval h0 \/ (exists h, In h hs /\ fval h = w) /\ mz < w < fval h0 in
      taken z /\ forall w, taken w -> z <= w
  end.

(** the line for a temperature that is [r] up to [d] *)
Definition line_near (d r : R) (l : string) : Prop :=
  exists r', Rabs (r' - r) <= d /\ line_for r' l.

(** continuous, or between one and a million steps *)
Definition modest_gradient (gr : gradient) : Prop :=
  match gr with
  | Continuous => True
  | Steps (StepsInt n) => (1 <= n <= 1000000)%Z
  | Steps (StepsText _) => False
  end.

(** * SpecOrders: programs that give the same orders, for C131 *)
From Coq Require Import List Bool String.
From Verif Require Import PyBase Arith Gcoder SpecEqual.

(** the command lines of the programs are, one by one, the same command with the
    same numbers *)
Definition same_orders {A : arith} (g h : gcode A) : Prop :=
  Forall2 (fun l l' => command l = command l' /\ largs l = largs l') (commands_of g) (commands_of h).

(** no command of the program is G4 *)
Definition never_waits {A : arith} (g : gcode A) : Prop :=
  Forall (fun l => command l <> Some "G4"%string) (commands_of g).

(** the size and height of the part, the heights printed at and the duration *)
Definition same_size {A : arith} (g h : gcode A) : Prop :=
  g_xmin g = g_xmin h /\ g_xmax g = g_xmax h /\ g_ymin g = g_ymin h /\ g_ymax g = g_ymax h /\
  g_zmin g = g_zmin h /\ g_zmax g = g_zmax h /\ g_zs g = g_zs h /\ g_total g = g_total h.

(** all moves are to absolute positions, in the coordinates of the machine *)
Definition plain_moves {A : arith} (g : gcode A) : Prop :=
  Forall (fun l => command l <> Some "G91"%string /\ command l <> Some "G92"%string /\ command l <> Some "G28"%string)
    (commands_of g).

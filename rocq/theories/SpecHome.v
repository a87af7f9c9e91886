(** * SpecHome: programs loaded with another home position, for C130 *)
From Coq Require Import List Bool String.
From Verif Require Import PyBase Arith Gcoder SpecText SpecLoad SpecMachine.

(** the line is a G28 command *)
Definition goes_home (s : string) : bool :=
  match command_name s with Some c => String.eqb c "G28" | None => false end.

(** the machine and the program with another home position and nothing else changed *)
Definition at_home {A : arith} (home : num A * num A * num A) (m : mstate A) : mstate A :=
  let '(hx, hy, hz) := home in
  MState (m_imperial m) (m_relative m) (m_relative_e m) (m_tool m) (m_f m) (m_x m) (m_y m) (m_z m)
         (m_ox m) (m_oy m) (m_oz m) hx hy hz (m_e m) (m_oe m) (m_total m) (m_max m).
Definition rehomed {A : arith} (home : num A * num A * num A) (g : gcode A) : gcode A :=
  GCode (g_light g) (g_lines g) (g_layers g) (g_zs g) (g_lidx g) (g_kidx g) (g_append_id g) (at_home home (g_m g))
        (g_xmin g) (g_xmax g) (g_ymin g) (g_ymax g) (g_zmin g) (g_zmax g) (g_filament g) (g_total g) (g_est g).

(** the layers have the same lines of text, heights and durations; the lines are
    found in the same places; the program is as high, lasts as long and needs as
    much filament *)
Definition same_but_place {A : arith} (g h : gcode A) : Prop :=
  Forall2 (fun y y' => ly_z y' = ly_z y /\ ly_dur y' = ly_dur y /\ map raw (ly_lines y') = map raw (ly_lines y))
          (g_layers g) (g_layers h) /\
  map raw (g_lines h) = map raw (g_lines g) /\ g_lidx h = g_lidx g /\ g_kidx h = g_kidx g /\ g_zs h = g_zs g /\
  g_zmin h = g_zmin g /\ g_zmax h = g_zmax g /\ g_filament h = g_filament g /\ g_total h = g_total g /\ g_est h = g_est g.

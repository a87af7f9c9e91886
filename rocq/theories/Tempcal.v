(** * Tempcal: model of gcodeutils/gcode_tempcal.py

    Temperatures and the number of steps are Python numbers; integers are
    taken as numbers of the same kind as floats (mixed comparisons and
    arithmetic agree with this for the sizes that occur).  The program is a
    [GCode] (lines of a [LightGCode] have no [current_z]).  Logging is left
    out. *)
From Coq Require Import List Ascii String ZArith NArith Bool.
From Verif Require Import PyBase Arith Gcoder.
Import ListNotations.
Local Open Scope list_scope.

(** A printed line, with the statement that printed it: [Added] for line 99,
    [Copied] for line 102. *)
Inductive printed_line := Added (s : string) | Copied (s : string).

Definition text_of (p : printed_line) : string :=
  match p with Added s => s | Copied s => s end.

(** What has been written, and the exception that ended it, if any. *)
Definition outcome := (list printed_line * option exn)%type.

(** The value of the [steps] argument: an integer, or (from the command line)
    a text. *)
Inductive steps_arg := StepsInt (n : Z) | StepsText (s : string).

Section Tempcal.
Context {A : arith}.
Notation num := (num A).
Notation layer := (layer A).
Notation gcode := (gcode A).

Definition n_of_Z (z : Z) : num := n_of_dec (z <? 0)%Z (Z.abs_N z) 0.

(** gcode_tempcal.py 19-20 *)
Definition min_temperature : num := lit 150 0.
Definition max_temperature : num := lit 250 0.

(** gcode_tempcal.py 34-45 [generate_temperature_gcode] *)
Definition temperature_gcode (t : num) : string :=
  if n_leb min_temperature t && n_leb t max_temperature
  then ("M104 S" ++ fmt 1 t)%string
  else EmptyString.

(** gcode_tempcal.py 52-53, 84-85: [layer[0].current_z], None inside Some is
    Python's None; None for an empty layer *)
Definition layer_start (y : layer) : option (option num) :=
  match ly_lines y with
  | [] => None
  | l :: _ => Some (t_z (lnotes l))
  end.

(** gcode_tempcal.py 60-62: one layer of the search for zmin *)
Definition zmin_step (min_z_change : num) (zmin : option num) (y : layer) : option num :=
  match layer_start y with
  | None => zmin
  | Some z =>
      match zmin with
      | None => z
      | Some m =>
          match z with
          | Some z => if n_ltb min_z_change z && n_ltb z m then Some z else zmin
          | None => zmin
          end
      end
  end.

(** gcode_tempcal.py 47-77 [_parse_gcode]: zmin *)
Definition find_zmin (min_z_change : num) (g : gcode) : res num :=
  match fold_left (zmin_step min_z_change) (g_layers g) None with
  | None => Err RuntimeError
  | Some zmin => if n_leb (g_zmax g) zmin then Err RuntimeError else Ok zmin
  end.

(** gcode_tempcal.py 87-92: the rounded target temperature for a layer that
    starts at [z], None if there is none; [temp] is
    [get_temp_for_current_layer] *)
Definition layer_target (temp : num -> res num) (zmin zmax : num) (z : option num)
  : res (option num) :=
  match z with
  | None => Ok None
  | Some z =>
      if truthy z && n_leb zmin z && n_leb z zmax then
        do t <- temp z; Ok (Some (py_round 1 t))
      else Ok None
  end.

(** gcode_tempcal.py 94-99: the line added in front of a layer, and the new
    [last_target_temperature] *)
Definition inject (last : option num) (target : option num) : list string * option num :=
  match target with
  | None => ([], last)
  | Some t =>
      if opt_eqb (Some t) last then ([], last)
      else ([temperature_gcode t], Some t)
  end.

(** gcode_tempcal.py 82-102: the loop of [write] *)
Fixpoint write_layers (temp : num -> res num) (zmin zmax : num) (last : option num)
  (ys : list layer) : outcome :=
  match ys with
  | [] => ([], None)
  | y :: t =>
      match layer_start y with
      | None => write_layers temp zmin zmax last t
      | Some z =>
          match layer_target temp zmin zmax z with
          | Err e => ([], Some e)
          | Ok target =>
              let '(added, last') := inject last target in
              let '(out, e) := write_layers temp zmin zmax last' t in
              (map Added added ++ map (fun l => Copied (raw l)) (ly_lines y) ++ out, e)
          end
      end
  end.

(** gcode_tempcal.py 118-126 [GCodeContinuousTempGradient]: the change per
    millimetre and the temperature *)
Definition continuous_delta (start_temp end_temp zmin zmax : num) : res num :=
  py_div (n_sub end_temp start_temp) (n_sub zmax zmin).
Definition continuous_temp (start_temp delta zmin z : num) : num :=
  n_add start_temp (n_mul delta (n_sub z zmin)).

(** gcode_tempcal.py 132-140 [GCodeStepTempGradient.__init__]: step_end_temp,
    steps and max_temp *)
Definition step_init (start_temp end_temp : num) (steps : steps_arg) : res (num * num * num) :=
  match steps with
  | StepsText _ => Err TypeError
  | StepsInt n =>
      do d <- py_div (n_sub end_temp start_temp) (n_of_Z n);
      Ok (n_add end_temp d, n_of_Z (n + 1), n_max end_temp start_temp)
  end.

(** gcode_tempcal.py 142-144 *)
Definition step_temp (start_temp step_end_temp steps max_temp zmin zmax z : num) : res num :=
  do p <- py_div (n_sub z zmin) (n_sub zmax zmin);
  do progress <- py_div (n_mul p steps) steps;
  Ok (n_min max_temp (n_add start_temp (n_mul progress (n_sub step_end_temp start_temp)))).

(** The two gradient classes. *)
Inductive gradient := Continuous | Steps (n : steps_arg).

(** gcode_tempcal.py 22-144: [cls(gcode, start_temp=.., end_temp=..,
    min_z_change=.., steps=..).write(output_file)] *)
Definition tempcal (gr : gradient) (start_temp end_temp min_z_change : num) (g : gcode) : outcome :=
  match gr with
  | Continuous =>
      match find_zmin min_z_change g with
      | Err e => ([], Some e)
      | Ok zmin =>
          match continuous_delta start_temp end_temp zmin (g_zmax g) with
          | Err e => ([], Some e)
          | Ok delta =>
              write_layers (fun z => Ok (continuous_temp start_temp delta zmin z))
                           zmin (g_zmax g) None (g_layers g)
          end
      end
  | Steps n =>
      match step_init start_temp end_temp n with
      | Err e => ([], Some e)
      | Ok (step_end, steps, max_temp) =>
          match find_zmin min_z_change g with
          | Err e => ([], Some e)
          | Ok zmin =>
              write_layers (step_temp start_temp step_end steps max_temp zmin (g_zmax g))
                           zmin (g_zmax g) None (g_layers g)
          end
      end
  end.

(** gcode_tempcal.py 147-198 [main]: start_temp and end_temp are integers;
    [--steps] has the default 10 and no type, so a given value is a text *)
Definition tempcal_main (continuous : bool) (steps : option string)
  (start_temp end_temp : Z) (min_z_change : num) (data : list string) : outcome :=
  match load_gen false home0 data with
  | Err e => ([], Some e)
  | Ok g =>
      tempcal (if continuous then Continuous
               else Steps (match steps with Some s => StepsText s | None => StepsInt 10 end))
              (n_of_Z start_temp) (n_of_Z end_temp) min_z_change g
  end.

End Tempcal.

(** * Files: what the four commands and the two Cura plug-ins do to files

    A file system maps the identity of a file (a path; links are not modelled)
    to its text, None if there is no such file.  What a run does to it is a
    list of operations in the order in which they reach the file system; a run
    can be cut off after any of them.  Written text is delivered character by
    character, which covers every way of buffering it.  Permissions, full
    disks, encodings and the special path "-" are not modelled. *)
From Coq Require Import List Ascii String ZArith Bool.
From Verif Require Import PyBase Arith Gcoder Filters Visit Tempcal Arc Stretch.
Import ListNotations.
Local Open Scope list_scope.

Definition path := string.
Definition files := path -> option string.

Inductive op := Truncate (p : path) | Put (p : path) (c : ascii).

Definition set_file (p : path) (s : string) (f : files) : files :=
  fun q => if String.eqb p q then Some s else f q.

Definition text_in (p : path) (f : files) : string :=
  match f p with Some s => s | None => EmptyString end.

Definition perform (f : files) (o : op) : files :=
  match o with
  | Truncate p => set_file p EmptyString f
  | Put p c => set_file p (text_in p f ++ String c EmptyString)%string f
  end.

Definition perform_all (ops : list op) (f : files) : files := fold_left perform ops f.

(** How a run ends: normally, with argparse's error message (exit status 2), or
    with an exception. *)
Inductive ending := Finished | Usage | Raised (e : exn).

(** The operations, the lines on standard output, and the end. *)
Record effect := Effect { e_ops : list op; e_printed : list string; e_end : ending }.

(** ** Text files *)

Definition LF : ascii := ascii_of_nat 10.
Definition CR : ascii := ascii_of_nat 13.

(** the universal newlines of text mode: "\r\n" and "\r" are read as "\n" *)
Fixpoint newlines (s : string) : string :=
  match s with
  | EmptyString => EmptyString
  | String c t =>
      if Ascii.eqb c CR then
        match t with
        | String d u => if Ascii.eqb d LF then String LF (newlines u) else String LF (newlines t)
        | EmptyString => String LF EmptyString
        end
      else String c (newlines t)
  end.

(** the lines of a text, with their "\n" *)
Fixpoint split_lines (s : string) : list string :=
  match s with
  | EmptyString => []
  | String c t =>
      if Ascii.eqb c LF then String LF EmptyString :: split_lines t
      else match split_lines t with
           | [] => [String c EmptyString]
           | l :: ls => String c l :: ls
           end
  end.

(** [f.readlines()] on a text file *)
Definition read_lines (s : string) : list string := split_lines (newlines s).

(** what [print(line, file=f)] adds for every line *)
Fixpoint lines_text (ls : list string) : string :=
  match ls with
  | [] => EmptyString
  | l :: t => (l ++ String LF (lines_text t))%string
  end.

Fixpoint put_text (p : path) (s : string) : list op :=
  match s with
  | EmptyString => []
  | String c t => Put p c :: put_text p t
  end.

(** ** The commands *)

Section Commands.
Context {A : arith}.
Notation num := (num A).

(** the Cura profile decoder (see [Stretch]) and the fuel of stretch *)
Variable profile : string -> res (option string).
Variable fuel : nat.

(** gcode_mod.py 24-33; gcode_tempcal.py 149-176; gcode_stretch.py 31-50;
    gcode_optimize_arcs.py 21: the options *)
Inductive command :=
| Mod (o : mod_options (A:=A))
| Tempcal (continuous : bool) (steps : option string) (start_temp end_temp : Z) (min_z_change : num)
| Stretching (o : options (A:=A))
| Arcs (inplace : bool).

(** the lines written to the output file, the lines printed on standard output
    besides them, and the exception that ended the run *)
Definition result := (list string * list string * option exn)%type.

Definition of_res (r : res (list string)) : result :=
  match r with Ok out => (out, [], None) | Err e => ([], [], Some e) end.

(** gcode_stretch.py 65-79; what is printed before an exception is left out *)
Definition stretch_result (o : options (A:=A)) (data : list string) : result :=
  match
    (do g <- load_gen false home0 data;
     do g1 <- to_relative_extrusion g;
     stretch profile fuel (if is_cura_gcode g1 then Cura else Slic3r) o g1)
  with
  | Ok (g2, printed) => (write g2, printed, None)
  | Err e => ([], [], Some e)
  end.

(** gcode_mod.py 57-71; gcode_tempcal.py 193-198; gcode_stretch.py 65-79;
    gcode_optimize_arcs.py 37-47: from the lines read to what is written *)
Definition process (c : command) (data : list string) : result :=
  match c with
  | Mod o => of_res (gcode_mod o data)
  | Tempcal continuous steps start_temp end_temp z =>
      let '(out, e) := tempcal_main continuous steps start_temp end_temp z data in
      (map text_of out, [], e)
  | Stretching o => stretch_result o data
  | Arcs _ => of_res (optimize_arcs_main (A:=A) data)
  end.

Definition ending_of (e : option exn) : ending :=
  match e with None => Finished | Some e => Raised e end.

(** gcode_optimize_arcs.py 47: the file to be opened for writing at the end
    instead of the output file: with [--inplace], the input file *)
Definition replaces (c : command) (infile : option path) : option path :=
  match c with Arcs true => infile | _ => None end.

Definition missing (f : files) (infile : option path) : bool :=
  match infile with
  | Some p => match f p with None => true | Some _ => false end
  | None => false
  end.

(** gcode_mod.py 35-38, 57-71; gcode_tempcal.py 157-160, 193-198;
    gcode_stretch.py 26-29, 65-79; gcode_optimize_arcs.py 17-20, 37-47:
    [cmd options infile outfile], None for a missing argument.  argparse opens
    both files, in this order, before anything is read; an input file that is
    not there ends the command. *)
Definition run (c : command) (infile outfile : option path) (stdin : string) (f : files) : effect :=
  if missing f infile then Effect [] [] Usage else
  let opened := match outfile with Some q => [Truncate q] | None => [] end in
  let text := match infile with Some p => text_in p (perform_all opened f) | None => stdin end in
  let '(out, printed, e) := process c (read_lines text) in
  match replaces c infile with
  | Some p =>
      Effect (opened ++ match e with
                        | None => Truncate p :: put_text p (lines_text out)
                        | Some _ => []
                        end) printed (ending_of e)
  | None =>
      match outfile with
      | Some q => Effect (opened ++ put_text q (lines_text out)) printed (ending_of e)
      | None => Effect [] (printed ++ out) (ending_of e)
      end
  end.

(** ** The Cura plug-ins: [filename] is the program Cura has written *)

(** [GCode(gcode_file)]: a file is true even when it is empty, hence the first
    line, which is blank and dropped (gcoder.py 308-311) *)
Definition load_file (text : string) : res (gcode A) :=
  load_gen false home0 (EmptyString :: read_lines text).

(** stretch.py 282-296 with the one setting given *)
Definition strength_options (strength : num) : options (A:=A) :=
  let o := default_options in
  Options (o_cross o) (o_loop o) (o_inside o) (o_outside o) (o_from o) strength.

(** stretch_plugin.py 17-24: the file is opened for writing at the end *)
Definition stretch_plugin (strength : num) (filename : path) (f : files) : effect :=
  match
    (do g <- load_file (text_in filename f);
     do g1 <- to_relative_extrusion g;
     stretch profile fuel Cura (strength_options strength) g1)
  with
  | Ok (g2, printed) =>
      Effect (Truncate filename :: put_text filename (lines_text (write g2))) printed Finished
  | Err e => Effect [] [] (Raised e)
  end.

(** tempcal_plugin.py 18-24: the file is opened for writing before the gradient
    is computed; the number of steps is taken to be whole *)
Definition tempcal_plugin (start_temp end_temp min_z_change : num) (steps : Z)
  (filename : path) (f : files) : effect :=
  match load_file (text_in filename f) with
  | Err e => Effect [] [] (Raised e)
  | Ok g =>
      let '(out, e) := tempcal (Steps (StepsInt steps)) start_temp end_temp min_z_change g in
      Effect (Truncate filename :: put_text filename (lines_text (map text_of out))) [] (ending_of e)
  end.

End Commands.

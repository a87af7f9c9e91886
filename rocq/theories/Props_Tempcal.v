(** * Properties C40-C48 and C76: temperature calibration *)
From Coq Require Import List String Ascii ZArith NArith Bool Reals.
From Verif Require Import PyBase Arith ArithQ ArithB64 Gcoder SpecMachine Samples Tempcal SpecTempcal.
From Verif Require Import P_Tempcal P_TempcalRefuted.
Import ListNotations.
Local Open Scope list_scope.

(** C40, also when writing is interrupted by an exception. *)
Theorem C40_bounds :
  forall (A : arith) (E : exact A) gr s e mz (g : gcode A) out x, tempcal gr s e mz g = (out, x) ->
    Forall (fun l => l = EmptyString \/ safe_line l) (added out).
Proof. exact @tempcal_safe. Qed.
Print Assumptions C40_bounds.

Example C40_example :
  added (fst (tempcal (A:=QA) Continuous (lit 240 0) (lit 260 0) (lit 1 1) towerQ)) =
  ["M104 S244.0"; "M104 S248.0"; ""; ""; ""]%string.
Proof. vm_compute. reflexivity. Qed.

(** C41: without the added lines the output is the program; they are in front
    of layers, at most one each... *)
Theorem C41_keeps :
  forall (A : arith) gr s e mz (g : gcode A) out, tempcal gr s e mz g = (out, None) ->
    without_added out = write g /\
    exists adds, List.length adds = List.length (g_layers g) /\ out = woven adds (g_layers g) /\
      Forall (fun a => List.length a <= 1) adds.
Proof. exact @tempcal_keeps. Qed.
Print Assumptions C41_keeps.

(** ... and the machine moves and extrudes as before. *)
Theorem C41_same_motion :
  forall (A : arith) gr s e mz (g : gcode A) out, tempcal gr s e mz g = (out, None) ->
    forall k, run (map text_of out) k = run (write g) k.
Proof. exact @tempcal_harmless. Qed.
Print Assumptions C41_same_motion.

Example C41_example : exists out,
  tempcal (A:=QA) (Steps (StepsInt 10)) (lit 220 0) (lit 210 0) (lit 1 1) towerQ = (out, None) /\
  List.length (added out) = 5.
Proof. eexists. split; vm_compute; reflexivity. Qed.

(** C42, also when writing is interrupted; blank lines stand for targets
    outside the bounds *)
Theorem C42_no_repeat :
  forall (A : arith) (E : exact A) gr s e mz (g : gcode A) out x, tempcal gr s e mz g = (out, x) ->
    forall i a b, nth_error (added out) i = Some a -> nth_error (added out) (S i) = Some b ->
      a <> b \/ a = EmptyString /\ b = EmptyString.
Proof. exact @tempcal_differ. Qed.
Print Assumptions C42_no_repeat.

Example C42_example :
  added (fst (tempcal (A:=QA) Continuous (lit 2400 1) (lit 2402 1) (lit 1 1) towerQ)) =
  ["M104 S240.0"; "M104 S240.1"; "M104 S240.2"]%string.
Proof. vm_compute. reflexivity. Qed.

(** Where the added lines come from, for both gradients: each is the line for
    the target at the height its layer starts at. *)
Theorem C43_added_lines :
  forall (A : arith) (E : exact A) gr s e mz (g : gcode A) out, usable gr -> tempcal gr s e mz g = (out, None) ->
    exists z0 adds, lowest E (val E mz) (start_heights (g_layers g)) z0 /\ (z0 < val E (g_zmax g))%R /\
      List.length adds = List.length (g_layers g) /\ out = woven adds (g_layers g) /\
      forall i a y, nth_error adds i = Some a -> nth_error (g_layers g) i = Some y ->
        a = [] \/ exists l z, a = [l] /\ starts_at y z /\ val E z <> 0%R /\ (z0 <= val E z <= val E (g_zmax g))%R /\
                  line_for (target gr (val E s) (val E e) z0 (val E (g_zmax g)) (val E z)) l.
Proof. exact @tempcal_adds. Qed.
Print Assumptions C43_added_lines.

(** C43: the target of the continuous gradient ([target Continuous] is
    [linear]) *)
Theorem C43_linear :
  forall s e z0 z1 : R, (z0 < z1)%R ->
    linear s e z0 z1 z0 = s /\ linear s e z0 z1 z1 = e /\
    (forall z, z0 <= z <= z1 -> Rmin s e <= linear s e z0 z1 z <= Rmax s e)%R /\
    (forall z z', z <= z' -> s <= e -> linear s e z0 z1 z <= linear s e z0 z1 z')%R /\
    (forall z z', z <= z' -> e <= s -> linear s e z0 z1 z' <= linear s e z0 z1 z)%R /\
    (forall z d, linear s e z0 z1 (z + d) - linear s e z0 z1 z = (e - s) / (z1 - z0) * d)%R.
Proof. exact linear_props. Qed.
Print Assumptions C43_linear.

Example C43_example :
  added (fst (tempcal (A:=QA) Continuous (lit 220 0) (lit 210 0) (lit 1 1) towerQ)) =
  ["M104 S218.0"; "M104 S216.0"; "M104 S214.0"; "M104 S212.0"; "M104 S210.0"]%string.
Proof. vm_compute. reflexivity. Qed.

(** C76: every layer that starts at a height in range is printed with the
    target for that height in force: it is the last temperature added before
    the layer. *)
Theorem C76_in_force :
  forall (A : arith) (E : exact A) gr s e mz (g : gcode A) out z0 pre y post z, usable gr ->
    tempcal gr s e mz g = (out, None) ->
    lowest E (val E mz) (start_heights (g_layers g)) z0 ->
    g_layers g = pre ++ y :: post -> starts_at y z -> val E z <> 0%R -> (z0 <= val E z <= val E (g_zmax g))%R ->
    exists before after l ls, out = before ++ map (fun l => Copied (raw l)) (ly_lines y) ++ after /\
      without_added before = map raw (List.concat (map ly_lines pre)) /\
      added before = ls ++ [l] /\
      line_for (target gr (val E s) (val E e) z0 (val E (g_zmax g)) (val E z)) l.
Proof. exact @tempcal_in_force. Qed.
Print Assumptions C76_in_force.

Example C76_example :
  (exists z, lowest exactQ (val exactQ (lit 1 1)) (start_heights (g_layers towerQ)) z /\
     (z < val exactQ (g_zmax towerQ))%R) /\
  map (fun z => fmt 1 z) (start_heights (g_layers towerQ)) =
    ["0.0"; "1.0"; "2.0"; "3.0"; "4.0"; "5.0"]%string.
Proof. split; [exact towerQ_lowest|vm_compute; reflexivity]. Qed.

(** C44, what holds: a rising step gradient stays between its ends, a falling
    one may go one step below the end. *)
Theorem C44_range_partial :
  forall (A : arith) (E : exact A) n s e mz (g : gcode A) out, (1 <= n)%Z ->
    tempcal (Steps (StepsInt n)) s e mz g = (out, None) ->
    forall l, In l (added out) -> exists r, line_for r l /\
      (val E s <= val E e -> val E s <= r <= val E e)%R /\
      (val E e <= val E s -> val E e + (val E e - val E s) / IZR n <= r <= val E s)%R.
Proof. exact @tempcal_range. Qed.
Print Assumptions C44_range_partial.

Example C44_example :
  added (fst (tempcal (A:=QA) (Steps (StepsInt 10)) (lit 210 0) (lit 220 0) (lit 1 1) towerQ)) =
  ["M104 S212.2"; "M104 S214.4"; "M104 S216.6"; "M104 S218.8"; "M104 S220.0"]%string.
Proof. vm_compute. reflexivity. Qed.

(** C44 as stated is false: from 220 down to 210 in ten steps reaches 209. *)
Theorem C44_overshoot_refuted :
  exists out, tempcal_main (A:=B64) false None 220 210 (lit 1 1)
    ["G90"; "M83"; "G1 Z1"; "G1 X1 E1"; "G1 Z2"; "G1 X1 E1"; "G1 Z3"; "G1 X1 E1";
     "G1 Z4"; "G1 X1 E1"; "G1 Z5"; "G1 X1 E1"]%string = (out, None) /\
    added out = ["M104 S217.8"; "M104 S215.6"; "M104 S213.4"; "M104 S211.2"; "M104 S209.0"]%string.
Proof. exact overshoot_refuted. Qed.
Print Assumptions C44_overshoot_refuted.

(** C45 is false: four different temperatures with two steps. *)
Theorem C45_steps_refuted :
  exists (g : gcode B64) out, load_gen false home0
    ["G90"; "M83"; "G1 Z1"; "G1 X1 E1"; "G1 Z2"; "G1 X1 E1"; "G1 Z3"; "G1 X1 E1";
     "G1 Z4"; "G1 X1 E1"; "G1 Z5"; "G1 X1 E1"]%string = Ok g /\
    tempcal (Steps (StepsInt 2)) (lit 200 0) (lit 220 0) (lit 1 1) g = (out, None) /\
    NoDup (added out) /\ List.length (added out) = 4.
Proof. exact steps_refuted. Qed.
Print Assumptions C45_steps_refuted.

(** C46, what holds: nothing is added at or below the limit if the first layer
    is above it. *)
Theorem C46_above_partial :
  forall (A : arith) (E : exact A) gr s e mz (g : gcode A) out h hs, usable gr ->
    tempcal gr s e mz g = (out, None) ->
    start_heights (g_layers g) = h :: hs -> (val E mz < val E h)%R ->
    exists adds, List.length adds = List.length (g_layers g) /\ out = woven adds (g_layers g) /\
      forall i a y, nth_error adds i = Some a -> nth_error (g_layers g) i = Some y -> a <> [] ->
        exists z, starts_at y z /\ (val E mz < val E z)%R.
Proof. exact @tempcal_above. Qed.
Print Assumptions C46_above_partial.

Example C46_example :
  exists g : gcode QA, load_gen false home0 ["G1 Z1"; "M83"; "G1 X1 E1"; "G1 Z0.2"; "G1 X2 E1"; "G1 Z3"; "G1 X1 E1"]%string
    = Ok g /\
  map (fun z => fmt 1 z) (start_heights (g_layers g)) = ["1.0"; "0.2"; "3.0"]%string /\
  added (fst (tempcal (A:=QA) Continuous (lit 210 0) (lit 220 0) (lit 5 1) g)) =
  ["M104 S210.0"; "M104 S220.0"]%string.
Proof. exact above_example. Qed.

(** C46 is false: below 3 mm the temperature is changed. *)
Theorem C46_min_z_refuted :
  exists out, tempcal_main (A:=B64) true None 220 210 (lit 3 0)
    ["G90"; "M83"; "G1 Z1"; "G1 X1 E1"; "G1 Z2"; "G1 X1 E1"; "G1 Z3"; "G1 X1 E1";
     "G1 Z4"; "G1 X1 E1"; "G1 Z5"; "G1 X1 E1"]%string = (out, None) /\
    firstn 6 (map text_of out) =
      ["G90"; "M83"; "M104 S218.0"; "G1 Z1"; "G1 X1 E1"; "M104 S216.0"]%string.
Proof. exact min_z_refuted. Qed.
Print Assumptions C46_min_z_refuted.

(** C47: [lowest] is the lowest considered height *)
Theorem C47_refuses :
  forall (A : arith) (E : exact A) gr s e mz (g : gcode A), constructible gr ->
    (forall z, lowest E (val E mz) (start_heights (g_layers g)) z -> val E (g_zmax g) <= z)%R ->
    tempcal gr s e mz g = ([], Some RuntimeError).
Proof. exact @tempcal_refuses. Qed.
Print Assumptions C47_refuses.

(** and in all other cases it works *)
Theorem C47_works :
  forall (A : arith) (E : exact A) gr s e mz (g : gcode A) z, usable gr ->
    lowest E (val E mz) (start_heights (g_layers g)) z -> (z < val E (g_zmax g))%R ->
    exists out, tempcal gr s e mz g = (out, None).
Proof. exact @tempcal_works. Qed.
Print Assumptions C47_works.

Example C47_example :
  tempcal (A:=QA) Continuous (lit 200 0) (lit 220 0) (lit 1 1) flatQ = ([], Some RuntimeError).
Proof. exact flatQ_refused. Qed.

(** C48 is false: every use of --steps fails, and writes nothing. *)
Theorem C48_steps_refuted :
  forall (A : arith) t s e (mz : num A) data,
    exists x, tempcal_main false (Some t) s e mz data = ([], Some x).
Proof. exact @main_steps. Qed.
Print Assumptions C48_steps_refuted.

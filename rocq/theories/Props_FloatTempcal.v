(** * Properties C43, C44, C46, C47 and C76 for IEEE doubles

    The same claims as in Props_Tempcal, for the numbers the code really
    computes with.  Heights and temperatures are modest: no more than a
    million. *)
From Coq Require Import List String ZArith Bool Reals.
From Verif Require Import PyBase Arith ArithB64 Gcoder Tempcal SpecTempcal SpecBinary64 SpecFloatTempcal Samples.
From Verif Require Import P_TempcalRefuted P_FloatWrite.
Import ListNotations.
Local Open Scope list_scope.

(** C43 (and where the lines of both gradients come from): each added line is
    the line for a temperature that is within a ten-millionth of a degree of
    the target at the height its layer starts at.  Missing: prints that are
    less than a millionth of a micrometre high, more than a million steps. *)
Theorem C43_binary64_partial :
  forall gr s e mz (g : gcode B64) out z0, modest_gradient gr -> modest_print s e mz g ->
    flowest (fval mz) (start_heights (g_layers g)) z0 -> (z0 + / 10 ^ 9 <= fval (g_zmax g))%R ->
    tempcal gr s e mz g = (out, None) ->
    exists adds, List.length adds = List.length (g_layers g) /\ out = woven adds (g_layers g) /\
      forall i a y, nth_error adds i = Some a -> nth_error (g_layers g) i = Some y ->
        a = [] \/ exists l z, a = [l] /\ starts_at y z /\ fval z <> 0%R /\ (z0 <= fval z <= fval (g_zmax g))%R /\
                  line_near (/ 10 ^ 7) (target gr (fval s) (fval e) z0 (fval (g_zmax g)) (fval z)) l.
Proof. exact tempcal_adds_B64. Qed.
Print Assumptions C43_binary64_partial.

Example C43_binary64_example :
  load_gen (A:=B64) false home0 tower = Ok towerF /\
  modest_print (lit 220 0) (lit 210 0) (lit 1 1) towerF /\
  (exists z0, flowest (fval (lit (A:=B64) 1 1)) (start_heights (g_layers towerF)) z0 /\
     (z0 + / 10 ^ 9 <= fval (g_zmax towerF))%R) /\
  added (fst (tempcal Continuous (lit 220 0) (lit 210 0) (lit 1 1) towerF)) =
    ["M104 S218.0"; "M104 S216.0"; "M104 S214.0"; "M104 S212.0"; "M104 S210.0"]%string.
Proof.
  split; [exact towerF_loaded|]. split; [exact towerF_modest|]. split; [exact towerF_lowest|]. vm_compute. reflexivity.
Qed.

(** C76 *)
Theorem C76_binary64_partial :
  forall gr s e mz (g : gcode B64) out z0 pre y post z,
    modest_gradient gr -> modest_print s e mz g -> tempcal gr s e mz g = (out, None) ->
    flowest (fval mz) (start_heights (g_layers g)) z0 -> (z0 + / 10 ^ 9 <= fval (g_zmax g))%R ->
    g_layers g = pre ++ y :: post -> starts_at y z -> fval z <> 0%R -> (z0 <= fval z <= fval (g_zmax g))%R ->
    exists before after l ls, out = before ++ map (fun l => Copied (raw l)) (ly_lines y) ++ after /\
      without_added before = map raw (List.concat (map ly_lines pre)) /\
      added before = ls ++ [l] /\
      line_near (/ 10 ^ 7) (target gr (fval s) (fval e) z0 (fval (g_zmax g)) (fval z)) l.
Proof. exact tempcal_in_force_B64. Qed.
Print Assumptions C76_binary64_partial.

Example C76_binary64_example :
  map (fun z => fmt 1 z) (start_heights (g_layers towerF)) = ["0.0"; "1.0"; "2.0"; "3.0"; "4.0"; "5.0"]%string /\
  fmt 1 (g_zmax towerF) = "5.0"%string.
Proof. vm_compute. split; reflexivity. Qed.

(** C44, what holds *)
Theorem C44_binary64_partial :
  forall n s e mz (g : gcode B64) out z0, (1 <= n <= 1000000)%Z -> modest_print s e mz g ->
    flowest (fval mz) (start_heights (g_layers g)) z0 -> (z0 + / 10 ^ 9 <= fval (g_zmax g))%R ->
    tempcal (Steps (StepsInt n)) s e mz g = (out, None) ->
    forall l, In l (added out) -> exists r, line_near (/ 10 ^ 7) r l /\
      (fval s <= fval e -> fval s <= r <= fval e)%R /\
      (fval e <= fval s -> fval e + (fval e - fval s) / IZR n <= r <= fval s)%R.
Proof. exact tempcal_range_B64. Qed.
Print Assumptions C44_binary64_partial.

Example C44_binary64_example :
  added (fst (tempcal (A:=B64) (Steps (StepsInt 10)) (lit 210 0) (lit 220 0) (lit 1 1) towerF)) =
  ["M104 S212.2"; "M104 S214.4"; "M104 S216.6"; "M104 S218.8"; "M104 S220.0"]%string.
Proof. vm_compute. reflexivity. Qed.

(** C46, what holds: comparisons of doubles are exact, so nothing is lost *)
Theorem C46_binary64_partial :
  forall gr s e mz (g : gcode B64) out h hs, modest_gradient gr -> modest_print s e mz g ->
    tempcal gr s e mz g = (out, None) -> start_heights (g_layers g) = h :: hs -> (fval mz < fval h)%R ->
    exists adds, List.length adds = List.length (g_layers g) /\ out = woven adds (g_layers g) /\
      forall i a y, nth_error adds i = Some a -> nth_error (g_layers g) i = Some y -> a <> [] ->
        exists z, starts_at y z /\ (fval mz < fval z)%R.
Proof. exact tempcal_above_B64. Qed.
Print Assumptions C46_binary64_partial.

Example C46_binary64_example :
  exists g : gcode B64, load_gen false home0 hanging = Ok g /\
    map (fun z => fmt 1 z) (start_heights (g_layers g)) = ["1.0"; "0.2"; "3.0"]%string /\
    added (fst (tempcal (A:=B64) Continuous (lit 210 0) (lit 220 0) (lit 5 1) g)) =
    ["M104 S210.0"; "M104 S220.0"]%string.
Proof. exact above_example_B64. Qed.

(** C47: however small the height of the print is *)
Theorem C47_binary64_refuses :
  forall gr s e mz (g : gcode B64), modest_gradient gr -> modest_print s e mz g ->
    (forall z, flowest (fval mz) (start_heights (g_layers g)) z -> fval (g_zmax g) <= z)%R ->
    tempcal gr s e mz g = ([], Some RuntimeError).
Proof. exact tempcal_refuses_B64. Qed.
Print Assumptions C47_binary64_refuses.

Theorem C47_binary64_works :
  forall gr s e mz (g : gcode B64) z0, modest_gradient gr -> modest_print s e mz g ->
    flowest (fval mz) (start_heights (g_layers g)) z0 -> (z0 < fval (g_zmax g))%R ->
    exists out, tempcal gr s e mz g = (out, None).
Proof. exact tempcal_works_B64. Qed.
Print Assumptions C47_binary64_works.

Example C47_binary64_example :
  tempcal (A:=B64) Continuous (lit 200 0) (lit 220 0) (lit 1 1) flatF = ([], Some RuntimeError).
Proof. exact flatF_refused. Qed.

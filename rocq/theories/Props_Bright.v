(** * Props_Bright: property theorems only.  The proofs are in Main_Bright.v. *)

From Coq Require Import ZArith Bool List String Lia Reals Lra Sorted Permutation.
From Verif Require Import Num F64 XReal Py Np NpFacts ArgsortFacts Util SpecUtil UtilFacts SepFacts LoadFacts Main_Util.
From Verif Require Import Main_Bright.
Import ListNotations.
Local Open Scope string_scope.
Local Open Scope list_scope.
Local Open Scope num_scope.

(** C06 (what holds): with brightest_n_lines = n the n brightest lines are taken, brightest
    first, and a line is kept if its signed distances to the next less bright one and from
    the next brighter one, of which the smaller counts, differ from zero by min_distance.
    This is the promise if the chosen lines, in order of brightness, happen to be in order
    of wavelength. *)
Theorem load_brightest_distance_partial :
  forall argsort (cat : catalogue xr) (a : load_args xr) rows n (d : R) out,
    (forall l, is_argsort l (argsort l)) ->
    la_brightest_n a = Some n -> la_min_distance a = Fin d -> (0 < d)%R ->
    read_linelist cat (la_linelist a) = Ok rows ->
    (forall r, In r rows -> (exists w, l_wl r = Fin w) /\ nisnan (l_int r) = false) ->
    load_calibration_lines argsort cat a = Ok out ->
    exists lo hi sel chosen rest kept,
      vacuum_limits a lo hi /\
      selection rows (la_elements a) lo hi (la_min_intensity a) sel /\
      Permutation (chosen ++ rest) sel /\
      List.length chosen = Nat.min n (List.length sel) /\
      (forall r q, In r rest -> In q chosen -> l_int r <=' l_int q = true) /\
      StronglySorted (fun r q => l_int q <=' l_int r = true) chosen /\
      subseq kept chosen /\
      (forall i p r q x y z, nth_error chosen i = Some p -> nth_error chosen (S i) = Some r -> nth_error chosen (S (S i)) = Some q ->
         l_wl p = Fin x -> l_wl r = Fin y -> l_wl q = Fin z ->
         (In r kept <-> (d <= Rabs (Rmin (z - y) (y - x)))%R)) /\
      (increasing_wl chosen -> forall r q, In r kept -> In q kept -> r <> q -> apart d r q) /\
      Forall2 (presented a) kept out.
Proof. exact load_brightest_distance_partial_main. Qed.
Print Assumptions load_brightest_distance_partial.

(** Three lines whose brightness decreases with the wavelength: the promise is kept; with
    the first two exchanged in brightness it is not. *)
Example load_brightest_distance_example :
  let cat l := mkCatalogue (l : list (line f64)) (fun _ => None) in
  let a := ex_args ["Xe"] ThNone (fz 10) (Some 1000%nat) in
  load_calibration_lines argsort_stable
    (cat [mkLine "Xe" (fz 100) (fz 30); mkLine "Xe" (fz 101) (fz 20); mkLine "Xe" (fz 200) (fz 10)]) a
  = Ok [mkLine "Xe" (fz 200) (fz 10)] /\
  load_calibration_lines argsort_stable
    (cat [mkLine "Xe" (fz 100) (fz 10); mkLine "Xe" (fz 101) (fz 30); mkLine "Xe" (fz 200) (fz 20)]) a
  = Ok [mkLine "Xe" (fz 101) (fz 30); mkLine "Xe" (fz 200) (fz 20); mkLine "Xe" (fz 100) (fz 10)].
Proof. exact load_brightest_distance_example_main. Qed.

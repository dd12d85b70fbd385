(** * Props_Crowded: property theorems only.  The proofs are in Main_Crowded.v. *)

From Coq Require Import ZArith String List Bool Arith Lia Sorted.
From Verif Require Import Num F64 XReal Py Np Util Models Atlas Calib Plot Chart SpecChart ArgsortFacts RansacFacts SpecUtil Main_Util Main_Chart.
From Verif Require Import Main_Crowded.
Import ListNotations.
Local Open Scope string_scope.
Local Open Scope list_scope.
Local Open Scope num_scope.

(** C100 fails for every line list in which two lines of a requested element round to
    one wavelength, on the grid or not: ValueError is raised, whatever the other
    arguments. *)
Theorem arc_crowded_refuted :
  forall (A : Type) (N : Num A) (O : NumOrder A) argsort around (cat : catalogue A) (a : arc_args A) lines e i j l1 l2,
    load_calibration_lines argsort cat (no_limits (ac_load a)) = Ok lines ->
    StronglySorted (fun a b : A => a <' b = true) (wave_grid around (la_min_wl (ac_load a)) (la_max_wl (ac_load a))) ->
    In e (la_elements (ac_load a)) ->
    i <> j -> nth_error lines i = Some l1 -> nth_error lines j = Some l2 -> l_el l1 = e -> l_el l2 = e ->
    around (l_wl l1) ==' around (l_wl l2) = true ->
    plot_calibration_lines argsort around cat a = Raise ValueError.
Proof. exact arc_crowded_refuted_main. Qed.
Print Assumptions arc_crowded_refuted.

(** Two helium lines 0.0002 A apart, one of neon elsewhere. *)
Example arc_crowded_example :
  let cat := mkCatalogue [he 40000010 3; mkLine "Ne" (fd 4000002 (-3)) (fz 5); he 40000012 9] (fun _ => None) in
  let a := arc_call None (fz 1) (fz 0) in
  load_calibration_lines argsort_stable cat (no_limits (ac_load a)) = Ok [he 40000010 3; he 40000012 9] /\
  StronglySorted (fun a b : f64 => a <' b = true) (wave_grid around3 (la_min_wl (ac_load a)) (la_max_wl (ac_load a))) /\
  around3 (l_wl (he 40000010 3)) ==' around3 (l_wl (he 40000012 9)) = true /\
  plot_calibration_lines argsort_stable around3 cat a = Raise ValueError.
Proof. exact arc_crowded_example_main. Qed.

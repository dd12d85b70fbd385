(** * Props_Smooth: property theorems only.  The proofs are in Main_Smooth.v. *)

From Coq Require Import ZArith Bool List String Lia Reals Lra Sorted.
From Verif Require Import Num XReal Py Np NpFacts ArgsortFacts Util EdlenFacts SampleFacts RecoverFacts Plot Chart SpecChart Main_Chart Smooth SpecSmooth.
From Verif Require Import Main_Smooth.
Import ListNotations.
Local Open Scope R_scope.

(** C130: the curve is the sum of one Gaussian profile per grid point, as high as the
    intensity there. *)
Theorem arc_curve_profiles :
  forall (pixel_scale : R) (i : list R),
    arc_curve (Fin pixel_scale) (map Fin i) = map Fin (map (profile_sum pixel_scale i) (seq 0 (List.length i))).
Proof. exact arc_curve_profiles_main. Qed.
Print Assumptions arc_curve_profiles.

(** C130: a single line gives a curve that is as high as the line's intensity at its
    wavelength, lower everywhere else, falling with the distance up to 100 Angstrom and
    symmetric. *)
Theorem arc_curve_single :
  forall (pixel_scale : R) (i : list R) (j : nat) (h : R),
    0 < h -> nth_error i j = Some h -> (forall m, m <> j -> nth m i 0 = 0) ->
    exists curve, arc_curve (Fin pixel_scale) (map Fin i) = map Fin curve /\
      List.length curve = List.length i /\ nth_error curve j = Some h /\
      (forall k v, nth_error curve k = Some v -> k <> j -> 0 <= v < h) /\
      (forall k k' v v', nth_error curve k = Some v -> nth_error curve k' = Some v' ->
         (Z.abs (Z.of_nat k - Z.of_nat j) < Z.abs (Z.of_nat k' - Z.of_nat j))%Z ->
         (Z.abs (Z.of_nat k - Z.of_nat j) <= 100000)%Z -> v' < v) /\
      (forall d v v', nth_error curve (j + d) = Some v -> (d <= j)%nat -> nth_error curve (j - d) = Some v' -> v = v').
Proof. exact arc_curve_single_main. Qed.
Print Assumptions arc_curve_single.

(** C130: smoothing never hides a line: at every grid point the curve is at least as high as
    the intensity put there; and further than 100 Angstrom from every line it is zero. *)
Theorem arc_curve_bounds :
  forall (pixel_scale : R) (i : list R), (forall x, In x i -> 0 <= x) ->
    exists curve, arc_curve (Fin pixel_scale) (map Fin i) = map Fin curve /\
      List.length curve = List.length i /\
      (forall k v x, nth_error curve k = Some v -> nth_error i k = Some x -> x <= v) /\
      (forall k v, nth_error curve k = Some v ->
         (forall j x, nth_error i j = Some x -> x <> 0 -> (100000 < Z.abs (Z.of_nat k - Z.of_nat j))%Z) -> v = 0).
Proof. exact arc_curve_bounds_main. Qed.
Print Assumptions arc_curve_bounds.

(** C130: on the drawn curve every line of a requested element reaches at least its
    intensity at its grid point (conditions of C100, where the lines are put right). *)
Theorem arc_curve_shows_lines :
  forall argsort around (cat : catalogue xr) (a : arc_args xr) (pixel_scale : R) lines sp lab files,
    load_calibration_lines argsort cat (no_limits (ac_load a)) = Ok lines ->
    let grid := wave_grid around (la_min_wl (ac_load a)) (la_max_wl (ac_load a)) in
    let els := la_elements (ac_load a) in
    StronglySorted (fun a b : xr => nltb a b = true) grid ->
    (forall e, In e els -> StronglySorted (fun l l' => nltb (around (l_wl l)) (around (l_wl l')) = true)
                              (filter (fun l => String.eqb (l_el l) e) lines)) ->
    (forall l, In l lines -> exists g, In g grid /\ neqb g (around (l_wl l)) = true) ->
    (forall l, In l lines -> exists r, l_int l = Fin r /\ 0 <= r) ->
    plot_calibration_lines argsort around cat a = Ok (sp, lab, files) ->
    exists curve, arc_curve (Fin pixel_scale) (map snd sp) = map Fin curve /\
      List.length curve = List.length sp /\
      forall k g v l r, nth_error (map fst sp) k = Some g -> nth_error curve k = Some v ->
        In l lines -> In (l_el l) els -> neqb g (around (l_wl l)) = true -> l_int l = Fin r -> r <= v.
Proof. exact arc_curve_shows_lines_main. Qed.
Print Assumptions arc_curve_shows_lines.

Example arc_curve_example :
  0 < 7 /\ nth_error [0; 7; 0] 1 = Some 7 /\ (forall m, m <> 1%nat -> nth m [0; 7; 0] 0 = 0) /\
  (forall x, In x [0; 7; 0] -> 0 <= x).
Proof. exact arc_curve_example_main. Qed.

(** Non-vacuity: one line of helium on a grid of one point. *)
Example arc_curve_shows_example :
  load_calibration_lines argsort_stable one_cat (no_limits (ac_load one_call)) = Ok [mkLine "He"%string (Fin 4000) (Fin 3)] /\
  wave_grid (fun x => x) (la_min_wl (ac_load one_call)) (la_max_wl (ac_load one_call)) = [Fin 4000] /\
  exists sp lab files, plot_calibration_lines argsort_stable (fun x => x) one_cat one_call = Ok (sp, lab, files).
Proof. exact arc_curve_shows_example_main. Qed.

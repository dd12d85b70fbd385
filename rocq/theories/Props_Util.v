(** * Props_Util: property theorems only.  The proofs are in Main_Util.v. *)

From Coq Require Import ZArith Bool List String Lia Permutation Sorted Reals Lra.
From Verif Require Import Num F64 XReal Py Np NpFacts Util SpecUtil SpecPoly.
From Verif Require Import UtilFacts SepFacts LoadFacts RefineFacts RefineFacts2 ArgsortFacts EdlenFacts PolyFacts.
From Verif Require Import Main_Util.
Import ListNotations.
Local Open Scope string_scope.
Local Open Scope list_scope.
Local Open Scope num_scope.

(** C01: filter_wavelengths returns, in strictly increasing wavelength, exactly
    the rows with lo <= wavelength <= hi that are the first of their wavelength. *)
Theorem filter_wavelengths_exact :
  forall (A : Type) (N : Num A) (O : NumOrder A) (lines : list (line A)) (lo hi : A),
    (forall r, In r lines -> nisnan (l_wl r) = false) ->
    increasing_wl (filter_wavelengths lines lo hi) /\
    (forall r, In r (filter_wavelengths lines lo hi) <->
               within lo hi (l_wl r) /\ exists i, earliest lines i r).
Proof. exact filter_wavelengths_exact_main. Qed.
Print Assumptions filter_wavelengths_exact.

Example filter_wavelengths_exact_example :
  (forall r, In r ex_lines -> nisnan (l_wl r) = false) /\
  filter_wavelengths ex_lines (fz 10) (fz 30) =
    [mkLine "Xe" (fz 10) (fz 2); mkLine "He" (fz 30) (fz 5)].
Proof. exact filter_wavelengths_exact_example_main. Qed.

(** C02: on non-decreasing wavelengths filter_separation marks exactly the lines
    at least s away from each neighbour; marked lines are pairwise s apart. *)
Theorem filter_separation_exact :
  forall (rs : list R) (s : R),
    (2 <= List.length rs)%nat -> StronglySorted Rle rs ->
    exists m, filter_separation (map Fin rs) (Fin s) = Ok m /\ List.length m = List.length rs /\
      (forall i w, nth_error rs i = Some w ->
         (nth_error m i = Some true <->
          forall j v, (j = S i \/ i = S j)%nat -> nth_error rs j = Some v -> (s <= Rabs (v - w))%R)) /\
      (forall i j w v, i <> j -> nth_error m i = Some true -> nth_error m j = Some true ->
         nth_error rs i = Some w -> nth_error rs j = Some v -> (s <= Rabs (v - w))%R).
Proof. exact filter_separation_exact_main. Qed.
Print Assumptions filter_separation_exact.

Example filter_separation_exact_example :
  (2 <= List.length [10; 11; 30; 45])%nat /\ StronglySorted Rle [10; 11; 30; 45]%R /\
  filter_separation [fz 10; fz 11; fz 30; fz 45] (fz 5) = Ok [false; false; true; true].
Proof. exact filter_separation_exact_example_main. Qed.

(** C03: the result of filter_intensity, when there is one. *)
Theorem filter_intensity_exact :
  forall (A : Type) (N : Num A) (elements : list string) (lines : list (line A)) (m : thr A) mask,
    filter_intensity elements lines m = Ok mask <->
    (valid_thr elements m /\ List.length mask = List.length lines /\
     forall i l, nth_error lines i = Some l ->
       exists t, threshold elements m (l_el l) t /\ nth_error mask i = Some (t <=' l_int l)).
Proof. exact filter_intensity_exact_main. Qed.
Print Assumptions filter_intensity_exact.

(** C03: when filter_intensity raises, and what. *)
Theorem filter_intensity_errors :
  forall (A : Type) (N : Num A) (elements : list string) (lines : list (line A)) (m : thr A) e,
    filter_intensity elements lines m = Raise e <->
    ((e = ValueError /\ m = ThOther) \/
     (e = AssertionError /\ exists l, m = ThList l /\ List.length l <> List.length elements) \/
     (e = KeyError /\ valid_thr elements m /\ exists l, In l lines /\ ~ In (l_el l) elements)).
Proof. exact filter_intensity_errors_main. Qed.
Print Assumptions filter_intensity_errors.

Example filter_intensity_example :
  filter_intensity ["He"; "Xe"; "Kr"] ex_lines (ThList [fz 5; fz 2; fz 10])
    = Ok [true; true; false; false] /\
  filter_intensity ["He"; "Xe"] ex_lines (ThNum (fz 1)) = Raise KeyError /\
  filter_intensity ["He"; "Xe"] ex_lines (ThList [fz 1]) = Raise AssertionError.
Proof. exact filter_intensity_example_main. Qed.

(** C04: without brightest_n_lines a successful load returns exactly the requested
    rows in the limits (converted to vacuum) that are bright enough, one per
    wavelength, minus (for d > 0) those with a neighbour nearer than d; in
    increasing order and pairwise at least d apart in vacuum wavelength. *)
Theorem load_exact :
  forall argsort (cat : catalogue xr) (a : load_args xr) rows (d : R) out,
    la_brightest_n a = None ->
    la_min_distance a = Fin d ->
    read_linelist cat (la_linelist a) = Ok rows ->
    (forall r, In r rows -> exists w, l_wl r = Fin w) ->
    load_calibration_lines argsort cat a = Ok out ->
    exists lo hi sel kept,
      vacuum_limits a lo hi /\
      selection rows (la_elements a) lo hi (la_min_intensity a) sel /\
      subseq kept sel /\
      (List.length sel <> 1%nat \/ (d <= 0)%R ->
       forall i r, nth_error sel i = Some r ->
         (In r kept <-> ((0 < d)%R -> forall j q, (j = S i \/ i = S j)%nat ->
                          nth_error sel j = Some q -> apart d r q))) /\
      ((0 < d)%R -> forall r q, In r kept -> In q kept -> r <> q -> apart d r q) /\
      Forall2 (presented a) kept out.
Proof. exact load_exact_main. Qed.
Print Assumptions load_exact.

(** A small catalogue in exact reals, loaded with and without conversion. *)
Example load_exact_example :
  load_calibration_lines argsort_stable (ex_cat ex_lines)
    (ex_args ["He"; "Xe"] (ThNum (fz 2)) (fz 5) None)
  = Ok [mkLine "Xe" (fz 10) (fz 2); mkLine "He" (fz 30) (fz 5)] /\
  exists out, load_calibration_lines (fun _ => [])
    (mkCatalogue [mkLine "Xe" (Fin 3000) (Fin 1); mkLine "Xe" (Fin 2500) (Fin 1)] (fun _ => None))
    (mkLoadArgs ["Xe"] (Fin 2000) (Fin 9000) ThNone (Fin (-1)) true (Fin 0) (Fin 300) (Fin 0)
                (LLStr "nist") None) = Ok out /\ map l_wl out = [Fin 2500; Fin 3000].
Proof. exact load_exact_example_main. Qed.

(** C05: with brightest_n_lines = n and no separation filter, the n brightest of
    the selected rows are returned, whatever the tie-breaking of the sort. *)
Theorem load_brightest_exact :
  forall (A : Type) (N : Num A) (O : NumOrder A) argsort (cat : catalogue A) (a : load_args A) rows n out,
    (forall l, is_argsort l (argsort l)) ->
    la_brightest_n a = Some n ->
    nZ 0 <' la_min_distance a = false ->
    read_linelist cat (la_linelist a) = Ok rows ->
    (forall r, In r rows -> nisnan (l_wl r) = false /\ nisnan (l_int r) = false) ->
    load_calibration_lines argsort cat a = Ok out ->
    exists lo hi sel chosen rest,
      vacuum_limits a lo hi /\
      selection rows (la_elements a) lo hi (la_min_intensity a) sel /\
      Permutation (chosen ++ rest) sel /\
      List.length chosen = Nat.min n (List.length sel) /\
      (forall r q, In r rest -> In q chosen -> l_int r <=' l_int q = true) /\
      Forall2 (presented a) chosen out.
Proof. exact load_brightest_exact_main. Qed.
Print Assumptions load_brightest_exact.

Example load_brightest_exact_example :
  (forall l : list f64, is_argsort l (argsort_stable l)) /\
  load_calibration_lines argsort_stable (ex_cat ex_lines)
    (ex_args ["He"; "Xe"; "Kr"] ThNone (fz 0) (Some 2%nat))
  = Ok [mkLine "He" (fz 30) (fz 5); mkLine "Xe" (fz 10) (fz 2)].
Proof. exact load_brightest_exact_example_main. Qed.

(** C06 REFUTED: with brightest_n_lines given, two returned lines can be nearer
    than min_distance (here 1 apart although 10 was asked for): the rows are in
    order of brightness when the separation filter compares neighbours. *)
Theorem load_min_distance_refuted :
  exists (cat : catalogue f64) (a : load_args f64) out r q,
    (forall l : list f64, is_argsort l (argsort_stable l)) /\
    load_calibration_lines argsort_stable cat a = Ok out /\
    la_brightest_n a = Some 1000%nat /\
    In r out /\ In q out /\ r <> q /\
    nabs (l_wl r -' l_wl q) <' la_min_distance a = true.
Proof. exact load_min_distance_refuted_main. Qed.
Print Assumptions load_min_distance_refuted.

(** C07 (part that holds): without a separation filter (min_distance <= 0) the
    selection is returned whatever its size, also when it has one or no line. *)
Theorem load_small_selection_partial :
  forall (A : Type) (N : Num A) (O : NumOrder A) argsort (cat : catalogue A) (a : load_args A) rows lo hi sel,
    la_brightest_n a = None ->
    nZ 0 <' la_min_distance a = false ->
    read_linelist cat (la_linelist a) = Ok rows ->
    (forall r, In r rows -> nisnan (l_wl r) = false) ->
    (forall l, la_min_intensity a = ThList l -> List.length l = List.length (la_elements a)) ->
    vacuum_limits a lo hi ->
    selection rows (la_elements a) lo hi (la_min_intensity a) sel ->
    exists out, load_calibration_lines argsort cat a = Ok out /\ Forall2 (presented a) sel out.
Proof. exact load_small_selection_partial_main. Qed.
Print Assumptions load_small_selection_partial.

(** C07 REFUTED: every request with min_distance > 0 whose selection is a single
    line returns nothing, and every one whose selection is empty raises. *)
Theorem load_small_selection_fails :
  forall argsort (cat : catalogue xr) (a : load_args xr) (d : R) rows lo hi,
    la_brightest_n a = None -> la_min_distance a = Fin d -> (0 < d)%R ->
    read_linelist cat (la_linelist a) = Ok rows ->
    (forall r, In r rows -> nisnan (l_wl r) = false) ->
    (forall l, la_min_intensity a = ThList l -> List.length l = List.length (la_elements a)) ->
    vacuum_limits a lo hi ->
    (selection rows (la_elements a) lo hi (la_min_intensity a) [] ->
       load_calibration_lines argsort cat a = Raise IndexError) /\
    (forall r, selection rows (la_elements a) lo hi (la_min_intensity a) [r] ->
       load_calibration_lines argsort cat a = Ok []).
Proof. exact load_small_selection_fails_main. Qed.
Print Assumptions load_small_selection_fails.

(** C04: such a request succeeds, unless a positive min_distance meets an empty
    selection or a list of thresholds has the wrong length. *)
Theorem load_succeeds :
  forall (A : Type) (N : Num A) (O : NumOrder A) argsort (cat : catalogue A) (a : load_args A) rows lo hi sel,
    la_brightest_n a = None ->
    read_linelist cat (la_linelist a) = Ok rows ->
    (forall r, In r rows -> nisnan (l_wl r) = false) ->
    (forall l, la_min_intensity a = ThList l -> List.length l = List.length (la_elements a)) ->
    vacuum_limits a lo hi ->
    selection rows (la_elements a) lo hi (la_min_intensity a) sel ->
    nZ 0 <' la_min_distance a = false \/ sel <> [] ->
    exists out, load_calibration_lines argsort cat a = Ok out.
Proof. exact load_succeeds_main. Qed.
Print Assumptions load_succeeds.

(** C07 REFUTED, concretely, in double precision. *)
Theorem load_small_selection_refuted :
  load_calibration_lines argsort_stable (ex_cat close_lines) (ex_args ["He"] ThNone (fz 10) None)
    = Raise IndexError /\
  load_calibration_lines argsort_stable (ex_cat ex_lines) (ex_args ["He"] ThNone (fz 10) None) = Ok [] /\
  load_calibration_lines argsort_stable (ex_cat ex_lines) (ex_args ["He"] ThNone (fz 0) None)
    = Ok [mkLine "He" (fz 30) (fz 5)].
Proof. exact load_small_selection_refuted_main. Qed.
Print Assumptions load_small_selection_refuted.

Example load_small_selection_example :
  read_linelist (ex_cat ex_lines) (LLStr "nist") = Ok ex_lines /\
  vacuum_limits (ex_args ["He"] ThNone (fz 0) None) (fz 1) (fz 1000) /\
  selection ex_lines ["He"] (fz 1) (fz 1000) ThNone [mkLine "He" (fz 30) (fz 5)] /\
  selection ex_lines ["Ar"] (fz 1) (fz 1000) ThNone [] /\
  selection ex_lines ["Xe"; "Kr"] (fz 1) (fz 1000) (ThList [fz 2; fz 3])
    [mkLine "Xe" (fz 10) (fz 2); mkLine "Kr" (fz 30) (fz 9)].
Proof. exact load_small_selection_example_main. Qed.
Local Open Scope R_scope.

(** C08: vacuum_to_air strictly shortens, air_to_vacuum strictly lengthens. *)
Theorem air_shorter_than_vacuum :
  forall w t p : R, 2000 < w -> 0 <= t <= 60 -> 0 < p ->
    (exists a, vacuum_to_air [Fin w] (Fin (t + 273.15)) (Fin p) (Fin 0) = [Fin a] /\ 0 < a < w) /\
    (exists v, air_to_vacuum [Fin w] (Fin (t + 273.15)) (Fin p) (Fin 0) = [Fin v] /\ w < v).
Proof. exact air_shorter_than_vacuum_main. Qed.
Print Assumptions air_shorter_than_vacuum.

(** C08: both conversions preserve the strict order of wavelengths. *)
Theorem conversion_preserves_order :
  forall w1 w2 t p : R, 2000 < w1 -> w1 < w2 -> 0 <= t <= 60 -> 0 < p ->
    (exists a1 a2, vacuum_to_air [Fin w1; Fin w2] (Fin (t + 273.15)) (Fin p) (Fin 0) = [Fin a1; Fin a2]
                   /\ a1 < a2) /\
    (p <= 120000 ->
     exists v1 v2, air_to_vacuum [Fin w1; Fin w2] (Fin (t + 273.15)) (Fin p) (Fin 0) = [Fin v1; Fin v2]
                   /\ v1 < v2).
Proof. exact conversion_preserves_order_main. Qed.
Print Assumptions conversion_preserves_order.

Example conversion_example :
  2000 < 5000 /\ 5000 < 5001 /\ 0 <= 10 <= 60 /\ 0 < 101325 <= 120000.
Proof. exact conversion_example_main. Qed.

(** C09: air to vacuum and back lengthens a wavelength by less than one part in
    10^7, and never by zero. *)
Theorem air_vacuum_round_trip :
  forall w t p : R, 2000 < w -> 0 <= t <= 60 -> 0 < p <= 120000 ->
    exists v a, air_to_vacuum [Fin w] (Fin (t + 273.15)) (Fin p) (Fin 0) = [Fin v] /\
      vacuum_to_air [Fin v] (Fin (t + 273.15)) (Fin p) (Fin 0) = [Fin a] /\
      0 < a - w < w * 0.0000001.
Proof. exact air_vacuum_round_trip_main. Qed.
Print Assumptions air_vacuum_round_trip.

(** C09: both conversions use one index of refraction function, evaluated at the
    wavelength that is passed in. *)
Theorem conversions_share_index :
  forall (A : Type) (N : Num A) (T P rh : A), exists n : A -> A,
    (forall ws, vacuum_to_air ws T P rh = map (fun w => w /' n w) ws) /\
    (forall ws, air_to_vacuum ws T P rh = map (fun w => w *' n w) ws).
Proof. exact conversions_share_index_main. Qed.
Print Assumptions conversions_share_index.

(** C10: no pressure and no humidity: nothing is changed. *)
Theorem no_atmosphere_identity :
  forall (ws : list R) (T : R),
    0.15 <= T <= 673.15 ->
    (forall w, In w ws -> w <> 0 /\ 1 / (w / 10000 * (w / 10000)) <> 130 /\
                          1 / (w / 10000 * (w / 10000)) <> 389 / 10) ->
    vacuum_to_air (map Fin ws) (Fin T) (Fin 0) (Fin 0) = map Fin ws /\
    air_to_vacuum (map Fin ws) (Fin T) (Fin 0) (Fin 0) = map Fin ws.
Proof. exact no_atmosphere_identity_main. Qed.
Print Assumptions no_atmosphere_identity.

Example no_atmosphere_example :
  0.15 <= 273.15 <= 673.15 /\
  (forall w, In w [5000; 7000] -> w <> 0 /\ 1 / (w / 10000 * (w / 10000)) <> 130 /\
                          1 / (w / 10000 * (w / 10000)) <> 389 / 10).
Proof. exact no_atmosphere_example_main. Qed.

(** C11: the conversions act element by element. *)
Theorem conversions_elementwise :
  forall (A : Type) (N : Num A) (conv : list A -> A -> A -> A -> list A),
    (conv = vacuum_to_air \/ conv = air_to_vacuum) ->
    forall (ws : list A) (T P rh : A),
      List.length (conv ws T P rh) = List.length ws /\
      forall k w, nth_error ws k = Some w ->
        exists w', conv [w] T P rh = [w'] /\ nth_error (conv ws T P rh) k = Some w'.
Proof. exact conversions_elementwise_main. Qed.
Print Assumptions conversions_elementwise.

(** C12: the gaussian weight. *)
Theorem gauss_weight :
  forall a x0 sigma : R, 0 <= a ->
    exists g : R -> R,
      (forall x, gauss (Fin x) (Fin a) (Fin x0) (Fin sigma) = Fin (g x)) /\
      (forall x, 0 <= g x <= a) /\
      (0 < a -> forall x, 0 < g x) /\
      g x0 = a /\
      (forall u, g (x0 + u) = g (x0 - u)) /\
      (forall x y, Rabs (x - x0) <= Rabs (y - x0) -> g y <= g x).
Proof. exact gauss_weight_main. Qed.
Print Assumptions gauss_weight.
Local Close Scope R_scope.

(** C13: the output of refine_peaks lies strictly inside the spectrum and consists
    of fitted centres shifted by (peak - width), for a subsequence of the peaks. *)
Theorem refine_peaks_output :
  forall (A : Type) (N : Num A) (cf : curve_fitter A) (sp peaks : list A) (width : Z) out,
    refine_peaks cf sp peaks width = Ok out ->
    (forall x, In x out -> nZ 0 <' x = true /\ x <' nZ (Z.of_nat (List.length sp)) = true) /\
    (List.length out <= List.length peaks)%nat /\
    exists picks : list (A * A),
      out = map (fun pc => fst pc -' nZ width +' snd pc) picks /\
      subseq (map fst picks) peaks /\
      forall pc, In pc picks -> fitted cf sp width (fst pc) (snd pc).
Proof. exact refine_peaks_output_main. Qed.
Print Assumptions refine_peaks_output.

Example refine_peaks_output_example :
  refine_peaks fit_peak ramp [fz 2; fz 6] 2 = Ok [fz 2; fz 6].
Proof. exact refine_peaks_output_example_main. Qed.

(** C14 (part that holds): for integer peaks at least [width] from the left edge,
    every returned location is (first sample of the window) + (fitted centre). *)
Theorem refine_location_partial :
  forall (cf : curve_fitter xr) sp peaks (width : Z) out,
    (forall p, In p peaks -> exists ip, p = Fin (IZR ip) /\ (0 <= width <= ip)%Z) ->
    refine_peaks cf sp peaks width = Ok out ->
    forall loc, In loc out ->
      exists ip c, In (Fin (IZR ip)) peaks /\ fitted cf sp width (Fin (IZR ip)) c /\
        loc = nadd (Fin (IZR (ip - width))) c.
Proof. exact refine_location_partial_main. Qed.
Print Assumptions refine_location_partial.

(** C14 REFUTED: for a peak nearer than [width] to the left edge the window starts
    at sample 0, yet a centre of 5 is reported as position 4 (peak 2, width 3); for
    a fractional peak 4.5 the window starts at 1, yet centre 2 is reported as 3.5. *)
Theorem refine_location_refuted :
  window_samples ramp 3 2 (map (fun v => v /' fz 4) (map fz [1; 2; 4; 2; 1]%Z)) /\
  refine_peaks (fit_const (fz 5)) ramp [fz 2] 3 = Ok [fz 4] /\
  window_samples ramp 3 4 (map (fun v => v /' fz 8) (map fz [2; 4; 2; 1; 3; 8]%Z)) /\
  refine_peaks (fit_const (fz 2)) ramp [fd 45 (-1)] 3 = Ok [fd 35 (-1)].
Proof. exact refine_location_refuted_main. Qed.
Print Assumptions refine_location_refuted.

(** C15 (part that holds): if the windows of the peaks do not overlap, every
    location returned is what its peak alone gives. *)
Theorem refine_independent_partial :
  forall (A : Type) (N : Num A) (cf : curve_fitter A) (sp peaks : list A) (width : Z) out,
    ForallOrdPairs (fun p q => exists a b, ntrunc p = Some a /\ ntrunc q = Some b /\
                      (0 <= width <= a)%Z /\ (width <= b)%Z /\ (2 * width <= Z.abs (a - b))%Z) peaks ->
    refine_peaks cf sp peaks width = Ok out ->
    exists outs, Forall2 (fun p o => refine_peaks cf sp [p] width = Ok o) peaks outs /\
      subseq out (List.concat outs).
Proof. exact refine_independent_partial_main. Qed.
Print Assumptions refine_independent_partial.

Example refine_independent_example :
  ForallOrdPairs (fun p q : f64 => exists a b, ntrunc p = Some a /\ ntrunc q = Some b /\
                      (0 <= 2 <= a)%Z /\ (2 <= b)%Z /\ (2 * 2 <= Z.abs (a - b))%Z) [fz 2; fz 6] /\
  refine_peaks fit_peak ramp [fz 2; fz 6] 2 = Ok [fz 2; fz 6].
Proof. exact refine_independent_example_main. Qed.

(** C15 REFUTED: the location found for the peak at 6 (3.25) changes to 3.0625
    when the peak at 2, whose window overlaps, is refined before it. *)
Theorem refine_independent_refuted :
  refine_peaks fit_first ramp [fz 6] 3 = Ok [fd 325 (-2)] /\
  exists b, refine_peaks fit_first ramp [fz 2; fz 6] 3 = Ok (b ++ [fd 30625 (-4)]) /\
            fd 325 (-2) ==' fd 30625 (-4) = false.
Proof. exact refine_independent_refuted_main. Qed.
Print Assumptions refine_independent_refuted.

(** C16 (part that holds): of the locations found, one for each of some of the peaks in
    their order, only those are returned that are not close to the one found just before. *)
Theorem refine_no_adjacent_duplicates_partial :
  forall (A : Type) (N : Num A) (cf : curve_fitter A) (sp peaks : list A) (width : Z) out,
    refine_peaks cf sp peaks width = Ok out ->
    exists picks : list (A * A),
      subseq (map fst picks) peaks /\
      (forall pc, In pc picks -> fitted cf sp width (fst pc) (snd pc)) /\
      let found := map (fun pc => fst pc -' nZ width +' snd pc) picks in
      subseq out found /\
      forall x, In x out -> exists i, nth_error found i = Some x /\
        forall p, nth_error found (i - 1) = Some p -> (0 < i)%nat -> np_isclose p x = false.
Proof. exact refine_no_adjacent_duplicates_partial_main. Qed.
Print Assumptions refine_no_adjacent_duplicates_partial.

(** C16 (part that holds): if the fits keep the order of the peaks, that is, no
    location fitted for a peak exceeds one fitted for a later peak of the list,
    no two returned locations are close, in either order. *)
Theorem refine_ordered_no_duplicates_partial :
  forall (cf : curve_fitter xr) (sp peaks : list xr) (width : Z) out,
    ForallOrdPairs (fun p q => forall c d, fitted cf sp width p c -> fitted cf sp width q d ->
                      p -' nZ width +' c <=' q -' nZ width +' d = true) peaks ->
    refine_peaks cf sp peaks width = Ok out ->
    ForallOrdPairs (fun x y => np_isclose x y = false /\ np_isclose y x = false) out.
Proof. exact refine_ordered_no_duplicates_partial_main. Qed.
Print Assumptions refine_ordered_no_duplicates_partial.

(** The hypothesis is met: a fitter that reports the centre of the window for the
    peaks 3 and 6 of a spectrum of ten samples. *)
Example refine_ordered_example :
  let cf : curve_fitter xr := fun _ _ _ _ => Ok (Fin 1, Fin 2) in
  let sp := map Fin [1; 1; 2; 8; 2; 1; 9; 1; 1; 1]%R in
  let peaks := [Fin (IZR 3); Fin (IZR 6)] in
  ForallOrdPairs (fun p q => forall c d, fitted cf sp 2 p c -> fitted cf sp 2 q d ->
                    p -' nZ 2 +' c <=' q -' nZ 2 +' d = true) peaks /\
  (forall p, In p peaks -> exists ip y, p = Fin (IZR ip) /\ window_samples sp 2 ip y).
Proof. exact refine_ordered_example_main. Qed.

(** C16 REFUTED: the peaks 5, 12, 6 are refined to 5, 12, 5. *)
Theorem refine_no_duplicates_refuted :
  refine_peaks fit_peak two_peaks [fz 5; fz 12; fz 6] 3 = Ok [fz 5; fz 12; fz 5].
Proof. exact refine_no_duplicates_refuted_main. Qed.
Print Assumptions refine_no_duplicates_refuted.
Local Open Scope R_scope.

(** C17: _derivative gives the coefficients of the derivative. *)
Theorem derivative_correct :
  forall p : list R, exists dp : list R,
    derivative (map Fin p) = map Fin dp /\ List.length dp = (List.length p - 1)%nat /\
    forall x, derivable_pt_lim (fun t => basis_sum powB p t) x (basis_sum powB dp x).
Proof. exact derivative_correct_main. Qed.
Print Assumptions derivative_correct.

Example derivative_example : derivative (map fz [5; 7; 2; 4]%Z) = map fz [7; 4; 12]%Z.
Proof. exact derivative_example_main. Qed.

(** C81 REFUTED: at 293.15 K and 100 % humidity the conversion uses a saturation
    pressure below 150 Pa (the formula is given the temperature in Celsius); the
    formula at the temperature in Kelvin gives 2300 to 2400 Pa.  The refractive
    index is too large by more than 7e-7. *)
Theorem humidity_vapour_pressure_refuted :
  let T := fd 29315 (-2) in
  let t := T -' fd 27315 (-2) in
  refraction_at (fz 5000) T (fz 101325) (fz 100) =
    edlen_refraction (fz 5000) t (fz 101325) (get_vapour_partial_pressure (fz 100) (get_vapour_pressure t)) /\
  get_vapour_pressure t <' fz 150 = true /\
  fz 2300 <' get_vapour_pressure T = true /\ get_vapour_pressure T <' fz 2400 = true /\
  fd 7 (-7) <'
    (refraction_at (fz 5000) T (fz 101325) (fz 100) -'
     edlen_refraction (fz 5000) t (fz 101325) (get_vapour_partial_pressure (fz 100) (get_vapour_pressure T))) = true.
Proof. exact humidity_vapour_pressure_refuted_main. Qed.
Print Assumptions humidity_vapour_pressure_refuted.

(** C81 (part that holds): in the conversion the humidity term is that of the Edlen
    formula, but with the vapour pressure formula evaluated at the Celsius number.
    The error of the index is therefore exactly proportional to the humidity, and
    absent for dry air. *)
Theorem humidity_error_partial :
  forall w T p rh : R,
    (0.15 <= T <= 400)%R -> (2000 < w)%R ->
    exists vC vK used right,
      get_vapour_pressure (Fin (T - 273.15)) = Fin vC /\ get_vapour_pressure (Fin T) = Fin vK /\
      refraction_at (Fin w) (Fin T) (Fin p) (Fin rh) = Fin used /\
      edlen_refraction (Fin w) (Fin (T - 273.15)) (Fin p)
        (get_vapour_partial_pressure (Fin rh) (get_vapour_pressure (Fin T))) = Fin right /\
      used - right = rh / 100 * (vK - vC) * (292.75 / T) * (3.7345 - 0.0401 * (10000 / w) ^ 2) / 10 ^ 10 /\
      (rh = 0 -> used = right).
Proof. exact humidity_error_partial_main. Qed.
Print Assumptions humidity_error_partial.

(** The hypotheses are met, with a humidity term that is not zero. *)
Example humidity_error_example :
  (0.15 <= 293.15 <= 400)%R /\ (2000 < 5000)%R /\ (3.7345 - 0.0401 * (10000 / 5000) ^ 2 <> 0)%R.
Proof. exact humidity_error_example_main. Qed.

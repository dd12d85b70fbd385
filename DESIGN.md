# Formal model of rascal in Rocq: design

## 1. Approach

`/repo/src/rascal` (python) is modelled function by function as total Gallina
functions in `/verif/rocq/theories`.  Properties are the entries of
`properties.jsonl` (C01, C02, ...); `MANIFEST.json` maps each to theorem names.

### 1.1 Numbers

All numeric code is written once, generic in a class `Num A` that has
**operations only, no laws** (add, sub, mul, div, abs, sqrt, exp, comparisons,
isnan, isfinite, truncation, decimal literals).  Two instances:

* `F64`: IEEE-754 binary64, from the standard library's `SpecFloat` (pure
  Gallina, no axioms), with NaN, infinities and signed zero.  It has no `exp`;
  the instance takes the exponential as a parameter, so statements over `F64`
  hold for every implementation of `exp`.
* `XR`: exact reals plus +inf, -inf, NaN with IEEE rules for special values
  (1/0 = inf, 0/0 = NaN, comparisons with NaN false).

Laws are stated in a separate class `NumOrder` (the comparisons form a total
preorder on non-NaN values) and proved for *both* instances.  Theorems that
need only the order are proved for every `Num` with `NumOrder`, so they hold of
real double precision arithmetic with rounding, infinities and signed zeros.
Theorems of algebra (evaluation, inversion, Edlen formula, slope limits) are
proved over `XR`/`R`, i.e. for exact arithmetic, and say so.
Counterexamples are computed in `F64` by `vm_compute`.

### 1.2 Python and numpy

* Exceptions are values: `res T = Ok t | Raise exn`.  Methods are functions
  `state -> args -> state * res T`; the state returned next to `Raise` is the
  state the object really has after the exception (partial updates included).
* `None`, python lists and numpy arrays are distinguished where the code
  behaves differently (`matched_peaks`, `hough_points`).
* Loops over a list that is being mutated are modelled with the index semantics
  of CPython list iterators.
* numpy primitives (sort, unique with first index, argmin, boolean and fancy
  indexing, minimum, diff, linspace, searchsorted, digitize, histogram(2d),
  insert, delete, sum, mean, ptp, polyval, legval, chebval) are defined in
  `Np.v`/`PolyEval.v` and are part of the trusted base (they model numpy, not
  /repo).

### 1.3 Oracles (external, universally quantified)

`argsort` (unstable: any permutation that sorts), `curve_fit`, `polyfit`,
`least_squares`, `np.random.choice`, `Delaunay.find_simplex`,
`RectBivariateSpline`, `minimize`, `inversefunc`, `exp`, the catalogue read from
csv.  Each is an ordinary argument of the model function; theorems quantify over
all of them, adding explicit hypotheses for the contract where one is needed.

### 1.4 Loops without bound

The RANSAC search is a loop that retries without bound.  It is modelled with
fuel and an explicit out-of-fuel result; theorems are either about runs that
return, for every fuel, or say that no fuel suffices.

### 1.5 Findings

Several documented promises are violated by the code.  For those the theorem has
the suffix `_refuted` (an explicit counterexample of the faithful model), next
to the strongest true statement that was found.  In MANIFEST such entries have
status `partial` with a note starting with REFUTED.

## 2. Files

| file | content |
|---|---|
| `Num.v`, `F64.v`, `XReal.v` | the class of number operations, the order laws, and the two instances |
| `Py.v`, `Np.v`, `PolyEval.v` | exceptions, python lists, numpy primitives, numpy's three polynomial evaluations |
| `Util.v` | `util.py` |
| `Models.v` | `models.py` |
| `Atlas.v` | `atlas.py` |
| `Synthetic.v` | `synthetic.py` |
| `Hough.v` | `houghtransform.py` |
| `Calib.v` | `calibrator.py` 20-133, 822-1550: the state and everything that configures it |
| `Cand.v` | `calibrator.py` 135-380: candidates, pruning, bijective matching |
| `Ransac.v` | `calibrator.py` 382-752: the search |
| `Fit.v` | `calibrator.py` 1552-1715 |
| `Calls.v` | what a call of `fit` (1552-1715) searched among and which trial fits it made, for statements about a whole call |
| `MatchPeaks.v` | `calibrator.py` 754-820, 1717-2124: match_peaks, editing of pairs, manual_refit |
| `Whole.v`, `WholeCand.v` | `refine_peaks`, `robust_polyfit` and the candidate pruning on integer arrays |
| `SynthRefs.v` | `SyntheticSpectrum` and the caller's coefficient list, which it shares |
| `Delim.v` | `save` of a Hough transform with any delimiter |
| `WholeMatch.v`, `SpecWholeMatch.v` | `match_peaks` and `_adjust_polyfit` with an integer array of coefficients (a NaN or infinity written into such an array is taken to raise) |
| `Interrupt.v` | the states in which an interruption (`KeyboardInterrupt`) can leave a calibrator during `fit`, stage by stage; the `HoughTransform` object in the middle of a transform may be in any state |
| `AssignSteps.v` | `match_peaks`, `manual_refit`, `add_pix_wave_pair`, `remove_pix_wave_pair` as the list of their assignments, for interruptions between them |
| `SetterSteps.v` | the setters (`calibrator.py` 859-1283, 1399-1423, 1507-1550) as the list of their assignments, and atlases to which some of the lines have been added (`atlas.py` 96-280), for interruptions between them |
| `Log.v` | the loggers of calibrators (`calibrator.py` 892-908): levels and number of handlers |
| `Seed.v` | the random generator shared by all calibrators (`calibrator.py` 299, 538, 550-553, 951-952): seeding and drawing in programs of several calibrators |
| `SaveSteps.v` | `HoughTransform.save` step by step (a file that is begun but not complete is one that `load` cannot read), and the kinds of numbers `json.dump` accepts |
| `RawPix.v`, `SpecRawPix.v` | `pix_to_rawpix` (calibrator.py 944-949) and the heights of the peaks in `plot_fit` |
| `Panel.v`, `SpecPanel.v` | labels, curves and axis ranges of `plot_fit` and `plot_arc` (`np.log10` is an argument) |
| `Listing.v` | the text printed by `Atlas.list` and `Calibrator.list_atlas` |
| `Refs.v` | which lists and arrays a Calibrator shares with its caller (objects with addresses) |
| `Csv.v` | `util.py` 355-423 on the text of the file (the other files take the rows as numbers; `line_list_clipped` connects the two) |
| `Plot.v`, `Chart.v`, `Smooth.v` | `plotting.py` and `calibrator.py` 2126-2324 |
| `World.v` | several calibrators and the Atlas objects they refer to (the reference stored by `set_atlas`) |
| `Spec*.v` | specifications used in the statements, independent of the model's helpers |
| `*Facts.v` | lemmas about the model |
| `Main_*.v` | the proofs of the property theorems (`foo_main`) and of their examples |
| `Props_*.v` | the property theorems only, each closed by `exact foo_main`, with examples and `Print Assumptions` |

## 3. Plan per property

What is modelled and how it is proved; in brackets the theorems (statements in `Props_*.v`).

* **C01** Wavelength filter is sorted, bounded, duplicate-free and complete: filter_wavelengths over any NumOrder; stable-sort + dedup lemmas by induction. [proved: `filter_wavelengths_exact`]
* **C02** Separation filter keeps exactly the lines far from both neighbours: mask formula over any NumOrder for neighbours; pairwise part over XR (monotone subtraction). [proved: `filter_separation_exact`]
* **C03** Intensity filter applies each element's own threshold: filter_intensity, all argument shapes; by induction on lines. [proved: `filter_intensity_exact`, `filter_intensity_errors`]
* **C04** Loaded lines satisfy every requested filter (no brightest-n cut): load_calibration_lines with brightest None; composition of C01-C03. [proved: `load_exact`, `load_succeeds`]
* **C05** brightest_n_lines keeps the n brightest: same function, argsort oracle with contract; sortedness of descending prefix. [proved: `load_brightest_exact`]
* **C06** min_distance is respected when brightest_n_lines is given: refuted by vm_compute in F64; true variant C04. [partial: `load_brightest_distance_partial`, `load_min_distance_refuted`, `load_exact`]
* **C07** An isolated line is returned and an empty selection is handled: refuted by vm_compute in F64 (lone line dropped; empty selection IndexError). [partial: `load_small_selection_partial`, `load_small_selection_fails`, `load_small_selection_refuted`]
* **C08** Air wavelengths are shorter than vacuum ones and keep order: Edlen over R; sign and monotonicity by nra/derivative-free argument. [proved: `air_shorter_than_vacuum`, `conversion_preserves_order`]
* **C09** Air/vacuum conversions invert each other closely: Edlen over R; bound by interval estimates of n. [proved: `air_vacuum_round_trip`, `conversions_share_index`]
* **C10** No atmosphere means no correction: Edlen over R, field simplification. [proved: `no_atmosphere_identity`]
* **C11** Conversions act element by element and keep length and order of positions: map structure, generic. [proved: `conversions_elementwise`]
* **C12** Gaussian weight is bounded, peaked and symmetric: gauss over R. [proved: `gauss_weight`]
* **C13** refine_peaks output is inside the spectrum and comes from the fits: refine_peaks with curve_fit oracle; induction on peaks. [proved: `refine_peaks_output`]
* **C14** refine_peaks locates the fitted centre correctly: exact where window inside and integer peak; refuted at the left edge. [partial: `refine_shift_partial`, `refine_location_partial`, `refine_location_refuted`]
* **C15** refine_peaks treats peaks independently: refuted in F64 with an oracle that returns data-dependent centre. [partial: `refine_independent_partial`, `refine_independent_refuted`]
* **C16** refine_peaks removes duplicates: refuted with an alternating oracle; adjacent-only statement proved. [partial: `refine_ordered_no_duplicates_partial`, `refine_no_adjacent_duplicates_partial`, `refine_no_duplicates_refuted`]
* **C17** derivative() differentiates a power series: _derivative over R against formal derivative and derivable_pt_lim. [proved: `derivative_correct`]
* **C18** polynomial() evaluates highest-first coefficients and checks the degree: polynomial over R, induction on coefficients. [proved: `polynomial_evaluates`]
* **C19** robust_polyfit undoes its normalisation exactly: robust_polyfit with least_squares oracle over R. [proved: `robust_polyfit_denormalises`, `robust_polyfit_default`]
* **C20** robust_polyfit starts from the supplied solution: refuted (starting vector differs). [partial: `robust_start_default_partial`, `robust_start_exact_partial`, `robust_start_refuted`]
* **C21** Each basis is evaluated as documented: Horner/Clenshaw against recurrences over R. [proved: `basis_evaluation`]
* **C22** Fit coefficients are usable with the chosen fit_type: refuted for legendre/chebyshev; proved for poly. [partial: `fit_type_consistent_partial`, `fit_type_consistent_refuted`]
* **C23** Synthetic wavelength limits always form an interval: state machine, induction over call list, any NumOrder. [proved: `set_wavelength_limit_exact`, `synthetic_limits_invariant`]
* **C24** get_pixels returns aligned pixel/wavelength lists of the in-range lines: get_pixels generic for filtering; inverse over R. [proved: `get_pixels_aligned`, `get_pixels_linear`]
* **C25** get_pixels inverts the model that was set: refuted for degree 1 and for set_model; true for degree >= 2 given inversefunc contract. [partial: `get_pixels_inverts_partial`, `get_pixels_linear_inverts_iff`, `set_model_ignored_refuted`, `get_pixels_inverts_refuted`]
* **C26** Hough constraints are set all-or-nothing: set_constraints, any NumOrder. [proved: `set_constraints_atomic`, `set_constraints_accepts`]
* **C27** Slope-sampled Hough points are exactly the in-range lines through the pairs: generate_hough_points against comprehension spec; XR for 'passes through'. [proved: `hough_points_exact`, `hough_points_sound`]
* **C28** Brute-force Hough points are exactly the admissible lines through two pairs: brute force over XR. [proved: `brute_force_exact`, `brute_force_lines`]
* **C29** add_hough_points only appends: history induction. [proved: `add_hough_points_history`, `add_hough_points_outcome`]
* **C30** Hough histogram conserves and correctly places counts: histogram2d over NumOrder with monotone edges hypothesis; edges monotone proved over XR. [proved: `bin_hough_points_exact`]
* **C31** Hough lines are all bin centres, most populated first: argsort oracle; permutation of grid. [proved: `bin_hough_points_exact`]
* **C32** Hough transform saved as npy is restored by load: file-system map model. [proved: `npy_round_trip`, `json_round_trip`]
* **C33** Save/load round-trips whatever the file name: refuted (name ending in .npy). [partial: `save_load_name_partial`, `npy_name_refuted`, `npy_name_affected_partial`]
* **C34** A loaded Hough transform is as usable as the saved one: refuted (json gives a list; hough_lines not restored). [partial: `loaded_npy_usable_partial`, `json_loaded_usable_refuted`, `loaded_lines_refuted`]
* **C35** Atlas is an append-only list with aligned columns: history induction, refinement to a list of triples. [proved: `atlas_history`]
* **C36** add_user_atlas is validated and atomic: case analysis on argument shapes. [proved: `add_user_atlas_atomic`]
* **C37** Removing a wavelength range never touches other lines: index-loop equals survivors function; counting lemmas. [proved: `remove_range_exact`, `remove_range_repeated`]
* **C38** After removing a range no line in it remains: refuted. [partial: `remove_range_complete_partial`, `remove_range_complete_refuted`]
* **C39** Recorded atlas range covers all lines: refuted; true for last call only. [partial: `recorded_range_partial`, `recorded_range_refuted`, `atlas_limits_last`]
* **C40** Atlas.add applies the range tolerance: refuted for constructor; proved for Atlas.add. [partial: `add_range_tolerance_partial`, `constructor_range_tolerance_refuted`, `constructor_ignores_tolerance`]
* **C41** Atlas.add is all-or-nothing: refuted. [partial: `atlas_add_partial`, `atlas_add_refuted`]
* **C42** Unset properties are kept, set properties take effect: history induction: value = last non-None argument. [proved: `properties_last_given`]
* **C43** RANSAC properties stay valid: history induction including raising calls. [proved: `ransac_properties_valid`]
* **C44** A rejected property call changes nothing: refuted. [partial: `rejected_call_partial`, `rejected_call_atomic_refuted`]
* **C45** Slope limits bracket every admissible straight-line solution: max_slope proved over R; min_slope proved iff range_tolerance <= 2*linearity_tolerance, refuted otherwise (defaults). [partial: `slope_limits_partial`, `slope_lower_limit_refuted`]
* **C46** Slope and intercept limits are consistent: over R. [proved: `limits_consistent`]
* **C47** Detector geometry given later is used: refuted. [partial: `pixel_list_used_partial`, `num_pix_ignored_refuted`]
* **C48** Exactly one plotting library is selected: history induction. [proved: `one_library`]
* **C49** use_plotly() is permanent: refuted. [partial: `use_plotly_partial`, `use_plotly_permanent_refuted`]
* **C50** Known pairs are validated before use: history induction. [proved: `known_pairs_valid`]
* **C51** Pixel-wavelength pairs are the full product of peaks and atlas lines: product spec. [proved: `pairs_full_product`]
* **C52** constrain_poly keeps exactly the pairs in the trapezoid: filter spec with hull oracle. [proved: `pairs_constrained`]
* **C53** Pairs follow the atlas: refuted for remove/clear; proved for set/add. [partial: `pairs_last_rebuilt_partial`, `pairs_follow_atlas_partial`, `pairs_follow_atlas_refuted`]
* **C54** The Hough lines used by fit belong to the current settings: refuted (stale, and loaded transform discarded). [partial: `fit_hough_current_partial`, `stale_hough_refuted`, `loaded_hough_discarded_refuted`]
* **C55** Linear candidates are exactly the pairs near a Hough line: filter spec; weight over XR. [proved: `linear_candidates_exact`, `linear_candidates_weight`]
* **C56** Candidate pruning returns genuine candidates: inclusion and counts with argsort oracle. [proved: `common_candidates`]
* **C57** Candidate pruning keeps the most common wavelengths: refuted. [partial: `most_common_ranks_partial`, `most_common_kept_partial`, `most_common_kept_refuted`]
* **C58** Matching is one-to-one and nearest: refinement to relational spec, any NumOrder. [proved: `bijective_matching`]
* **C59** An accepted RANSAC solution is a valid matching: loop invariant over fuel. [proved: `ransac_valid_matching`]
* **C60** An accepted RANSAC solution meets the user's quality limits: loop invariant; rms bound over XR. [partial: `fit_quality_partial`, `ransac_quality_partial`, `ransac_residuals_partial`, `ransac_residual_bound_refuted`]
* **C61** RANSAC never trades a better solution for a worse one: loop invariant; prefix monotonicity. [proved: `fit_more_tries`, `more_tries_not_worse`, `ransac_keeps_best`]
* **C62** max_tries bounds the work of fit: refuted: no fuel suffices; conditional termination proved. [partial: `fit_work_partial`, `ransac_work_partial`, `ransac_terminates_refuted`, `fit_terminates_refuted`, `brute_force_stuck`, `max_tries_ignored_refuted`]
* **C63** Known pairs take part in every trial fit: trace of polyfit calls; refuted for robust refit. [partial: `ransac_known_pairs_partial`, `fit_calls_known`, `ransac_refit_known_refuted`]
* **C64** A supplied initial solution is never lost: refuted. [partial: `supplied_fit_partial`, `supplied_fit_refuted`, `initial_solution_partial`, `initial_solution_refuted`]
* **C65** Utilisation figures are fractions: from C58/C59 over XR. [proved: `fit_utilisation`, `fit_stale_pairs_refuted`]
* **C66** Every peak can be drawn: refuted at a peak on a bin edge; proved otherwise. [partial: `fit_returns_clear_partial`, `fit_three_even_refuted`, `sampling_prob_partial`, `sampling_prob_refuted`]
* **C67** Hough density rewards likely fits: refuted: swapped arguments (model of evaluation with clamping). [partial: `hough_bonus_partial`, `hough_density_partial`, `hough_bonus_refuted`]
* **C68** sample_size is adjusted to be usable: case analysis; refuted with fit_coeff of other length. [partial: `sample_size_usable_partial`, `sample_size_usable_refuted`]
* **C69** match_peaks returns only matches within tolerance: match_peaks, generic. [proved: `match_peaks_within`]
* **C70** match_peaks is one-to-one: refuted. [partial: `match_peaks_one_to_one_partial`, `match_peaks_one_to_one_refuted`]
* **C71** match_peaks works for every flag combination and match multiplicity: refuted (three separate failures). [partial: `match_peaks_succeeds_partial`, `match_peaks_succeeds_refuted`]
* **C72** refine influences the result of match_peaks: refuted: result independent of the optimiser. [partial: `refine_used_partial`, `refine_used_refuted`]
* **C73** _adjust_polyfit is a pure cost: over XR / generic. [proved: `adjust_polyfit_nonnegative`, `adjust_polyfit_cost`]
* **C74** Editing matched pairs keeps them aligned: history induction. [proved: `edits_aligned`]
* **C75** add_pix_wave_pair keeps peaks in order and accepts every pixel: refuted. [partial: `add_pair_sorted_partial`, `add_pair_sorted_refuted`]
* **C76** manual_refit validates before changing state: case analysis. [proved: `manual_refit_validates`, `manual_refit_rejects`, `manual_refit_rms`]
* **C77** plot_fit does not alter its inputs: refuted (in-place log). [partial: `plot_fit_leaves_spectrum_partial`, `plot_fit_leaves_spectrum_refuted`]
* **C78** plot_fit shows the residuals of the fit it was given: refuted for matplotlib branch. [partial: `plot_fit_residuals_partial`, `plot_fit_residuals_refuted`, `plot_fit_residuals_instance_refuted`]
* **C79** Figures are saved exactly in the requested formats: string splitting, induction on strings. [proved: `plot_files`, `chart_files`]
* **C80** Merging candidates keeps the pairs: refuted. [partial: `merge_rows_partial`, `merge_keeps_pairs_refuted`]
* **C81** Humidity correction uses the vapour pressure of the given temperature: refractive index with humidity over R; refuted: the vapour pressure formula is given Celsius instead of Kelvin. [partial: `humidity_error_partial`, `humidity_vapour_pressure_refuted`]
* **C82** A single user line can be added with a str and a float: case analysis on the argument shapes of add_user_atlas; refuted for the documented scalar form. [partial: `add_single_user_line_partial`, `add_symbol_partial`, `add_symbol_refuted`, `add_single_user_line_refuted`]
* **C83** Element symbols are case insensitive: string comparison in load_calibration_lines; universally refuted. [partial: `element_spelling_partial`, `element_case_insensitive_refuted`]
* **C84** save_hough_transform returns the data on request: save of the Hough transform; refuted. [partial: `save_to_disk_partial`, `save_returns_data_refuted`]
* **C85** Polynomial candidates work for any numbers of peaks and lines: numpy broadcasting in the polynomial candidates; universally refuted for unequal sizes. [partial: `poly_candidates_partial`, `poly_offsets`, `poly_candidates_sizes_refuted`, `poly_candidates_single_refuted`, `poly_candidates_all_pairs_refuted`]
* **C86** fit leaves the user's settings alone: fit as a state transformer; refuted for sample_size and minimum_matches, every other setting by case analysis. [partial: `fit_keeps_settings_partial`, `fit_keeps_settings_refuted`]
* **C87** A failed fit keeps the previous solution: fit as a state transformer; refuted for the coefficients, proved for the rest of the state. [partial: `failed_fit_partial`, `failed_fit_refuted`]
* **C88** Removing close lines leaves well separated candidates: the function that drops close candidates, over exact reals. [proved: `filter_close_separates`, `fit_lines_separated`]
* **C89** Brute force tries every combination: brute-force Hough points as a list of pairs of positions. [proved: `brute_force_samples`, `brute_force_fits`, `brute_force_combinations`, `fit_brute_best`]
* **C90** A fit reports what was observed: composition of pairs, candidates, matching and the search invariant over all runs of fit. [proved: `fit_matches_observed`]
* **C91** fit returns what it stores: fit as a state transformer. [proved: `fit_returns_stored`]
* **C92** Refitting data that lie on a polynomial leaves no residuals: manual_refit over exact reals; refuted for Legendre and Chebyshev calibrators, proved for poly and for degree 1. [partial: `refit_exact_partial`, `refit_exact_refuted`]
* **C93** A failing manual_refit changes nothing: manual_refit as a state transformer; refuted before the first fit, proved afterwards. [partial: `manual_refit_atomic_partial`, `manual_refit_atomic_refuted`]
* **C94** match_peaks reports the residuals of the solution it returns: match_peaks; refuted with refine and without robust_refit, proved with robust_refit. [partial: `match_peaks_residuals_partial`, `match_peaks_residuals_refuted`]
* **C95** Asking for the JSON of a figure displays nothing: finish of the figures; refuted (always displayed). [partial: `plot_json_silent_partial`, `plot_json_silent_refuted`]
* **C96** A figure is saved under the name given: file name construction; universally refuted for names with extension. [partial: `plot_filename_partial`, `plot_filename_refuted`]
* **C97** plot_arc works for every calibrator: plot_arc; universally refuted without spectrum, exact with one. [partial: `plot_arc_without_spectrum_partial`, `plot_arc_without_spectrum_refuted`]
* **C98** The drawn search region bounds the pairs: pairs and the drawn lines over exact reals; convexity of the region. [proved: `pairs_in_drawn_region`, `region_as_drawn`]
* **C99** plot_search_space draws the pairs it names: plot_search_space and the row-sorting merge; universally refuted for 'Candidate Pairs', exact for the rest. [partial: `search_space_partial`, `search_space_candidates_refuted`]
* **C100** The simulated arc spectrum has each line's intensity at its wavelength: masked in-place addition of numpy on an increasing grid, by induction on the grid; refuted with brightest_n_lines. [partial: `arc_spectrum_partial`, `arc_grid_partial`, `arc_single_lines_partial`, `arc_spectrum_refuted`, `arc_crowded_refuted`]
* **C101** plot_calibration_lines labels the bright, separated lines: composition of load, filter_intensity and filter_separation; refuted when nothing is bright enough. [partial: `arc_labels_partial`, `arc_lines_increasing_partial`, `arc_labels_refuted`]
* **C102** The order of the elements does not matter: load_calibration_lines; the selection depends on membership only, a permutation of (element, threshold) pairs leaves the lookup unchanged. [proved: `load_elements_order`, `load_elements_permuted`]
* **C103** Stricter arguments never add lines: load_calibration_lines; sub-sequence order of the three filters, by induction on the selected rows. [proved: `load_narrower`, `load_distance_monotone`]
* **C104** Raising the threshold never adds lines: load_calibration_lines; refuted by a three-line list with a faint neighbour. [partial: `load_intensity_monotone_refuted`, `load_narrower`]
* **C105** A line with many pairs gets many votes: composition of the exact theorems on generate, bin and sort; counting over a flat_map. [proved: `hough_votes`]
* **C106** The pairs on the dominant line are candidates: C105 with the exact candidate selection and a triangle inequality. [proved: `hough_line_candidates`]
* **C107** Lines between the tried slopes are approximated: nearest grid slope by induction on the number of slopes. [proved: `hough_near_line`]
* **C108** The listing of matched pairs gives the positions to remove: the matched lists as sequences; positions of combine and delete by induction. [proved: `listing_exact`, `remove_listed`]
* **C109** Removing undoes adding: insert followed by delete at the same position. [proved: `remove_undoes_add`]
* **C110** Data that lie exactly on a polynomial are fitted by it: a trial on such data has zero error, so the decision depends on minimum_fit_error only; a polynomial is determined by degree + 1 points (roots argument); induction over the draws, the tries and the retry loop. [partial: `exact_data_refuted`, `exact_data_partial`]
* **C111** minimum_matches is lowered to what is possible and then honoured: the two clamps computed by cases in any total order; the acceptance test of the search bounds the number of matches. [proved: `fit_minimum_matches`]
* **C112** fit does not depend on earlier results: Relational proof: the search is simulated step by step from two states that differ in the matches of an earlier fit (SpecAgain.same_question, Main_Again). [proved: `fit_ignores_earlier_results`]
* **C113** Repeating a fit gives the same result: Refuted by a session evaluated in binary64; the positive part follows from C112 and from minimum_matches being adjusted idempotently. [partial: `fit_repeatable_refuted`, `fit_repeatable_partial`]
* **C114** Results never leak into the configuration: SpecSession.v: sessions of all calls (call_step, session_run), their configuring calls, and same_settings. By induction on the session: configuring calls preserve same_settings on both sides, the others preserve it on one. [proved: `session_settings`, `session_valid`]
* **C115** Matched peaks and lines stay paired through every session: Invariant aligned (SpecMatch.v) over session_run; the search is followed through every trial (kept). [proved: `session_matches`, `session_matches_restored`]
* **C116** A match_peaks that raises keeps the matched pairs: Refuted for all inputs without a line within tolerance; the positive part by cases over the points where match_peaks raises. [partial: `failed_match_keeps_pairs_refuted`, `failed_match_keeps_pairs_partial`]
* **C117** The order of configuring calls does not matter: A footprint (parts read and written) for each call; each step is shown to be a function of what it reads that changes only what it writes; disjoint footprints give commutation. The violating order is exhibited in binary64. [partial: `configure_order_refuted`, `configure_order_partial`]
* **C118** Repeating a settings call changes nothing: Case analysis over the calls of the model; the kept values, the derived limits, the pairs and the transform are recomputed to the same values. [proved: `settings_idempotent`]
* **C119** The order of peaks and lines does not matter to the transform: A relation 'equal up to order' between calibrators (SpecPermute.v), preserved with equal outcomes by every configuring call; exact reals. [proved: `peaks_order`, `lines_order`, `reordered_candidates`]
* **C120** Calibrators do not influence each other: World.v: Atlas objects behind addresses, calibrators holding addresses; invariant 'separate addresses' over every interleaving, and the view of each calibrator equals its own run. [partial: `calibrators_independent_refuted`, `calibrators_independent_partial`]
* **C121** robust_polyfit does not depend on the units: The standard deviations scale, so the optimiser is given the same normalised problem; the denormalised coefficients are compared as polynomials. [proved: `robust_polyfit_units`]
* **C122** Brute force finds the best combination: A thrown-back choice is thrown back again (the decision depends on the state only through the best cost), so a search that ends accepted each choice at its first try; with C61 the cost kept is least. [proved: `brute_force_fits`, `brute_force_best`, `fit_brute_best`]
* **C123** Larger tolerances never lose anything: Filters with a larger bound; the smaller region's corners are convex combinations of the larger region's. [proved: `candidates_monotone`, `pairs_monotone`]
* **C124** A solution has one coefficient more than its degree: Invariant of the search: a stored solution comes from robust_polyfit, whose start has degree + 1 entries. [proved: `fit_coefficient_count`, `match_coefficient_count`, `refit_coefficient_count`]
* **C125** Wrong candidates do not mislead the fit once right ones are drawn: SpecDecoy.v says what the problem is and what unambiguous means.  Main_Decoy.v carries through the loops the invariant: the best cost is never negative, a best cost of zero means the true polynomial is stored, and a true sample in the log makes it zero.  Main_Truth.v opens up a call of fit (fit_inside) to say it with the settings before the call. [proved: `decoys_session`, `decoys_fit`, `decoys_search`]
* **C126** Calibrator.add_atlas loads the lines of the calibrator's own range: SpecAdd.v states the load each element should give.  Main_Add.v follows both branches (new Atlas, existing atlas) and uses the theorems on Atlas.add and on brightest_n_lines. [proved: `calibrator_add_atlas`, `calibrator_add_atlas_range`]
* **C127** Conversions behave in humid air as in dry air: HumidFacts.v bounds the vapour pressure and the humidity term of the index; Main_Humid.v concludes for both conversions. [proved: `humid_air_shorter`, `humid_order`, `humid_round_trip`, `humidity_shrinks_shift`]
* **C128** Only user lines change the limits of an atlas: SpecMirror.v says when a call is accepted.  Main_Mirror.v: induction over the history with the step theorems of C36 and C41. [proved: `atlas_limits_kept`, `atlas_limits_last`, `cleared_atlas_refills`]
* **C129** The atlas of a calibrator follows the calls like an Atlas object: SpecMirror.v translates calls on the calibrator to calls on the atlas.  Main_Mirror.v: one step, then induction over the history (a simulation). [proved: `calibrator_atlas_mirror`, `set_atlas_history`, `calibrator_lines_history`]
* **C130** The simulated arc spectrum is a sum of line profiles: Smooth.v models kernel and convolution, SpecSmooth.v gives the profile as a formula.  Main_Smooth.v proves the curve equal to the sum and derives the rest. [proved: `arc_curve_profiles`, `arc_curve_single`, `arc_curve_bounds`, `arc_curve_shows_lines`]
* **C131** The linelist argument names one line list: Csv.v/Util.v read_linelist; spells_nist lists the sixteen spellings; case analysis on the characters shows str.lower() == 'nist' exactly for them. [proved: `linelist_argument`, `unknown_linelist_keeps_atlas`]
* **C132** A line list file is used as it is written: Csv.v models np.loadtxt on the text (comments, empty lines, commas, twelve characters) and load_calibration_lines on rows of text; a simulation shows it equals the model on numbers for the catalogue SpecCsv.rows_hold describes. [partial: `line_list_clipped`, `line_list_as_written_partial`, `line_list_as_written_refuted`, `line_list_rejected`, `line_list_needs_three`]
* **C133** refine_peaks looks only near the peaks: Induction over the peaks: two spectra that agree on the windows keep agreeing on them after the in-place normalisation of a window. [partial: `refine_looks_near_partial`, `refine_looks_near_refuted`, `refine_empty_window_fails`]
* **C134** robust_polyfit returns the best polynomial of its degree: SpecOptimal.v; the normalised problem and the original one are related by a bijection between coefficient lists (rescale) under which the residuals agree. [proved: `robust_polyfit_best`]
* **C135** Solutions are the best polynomials for the matched pairs: What fit returns is robust_polyfit of the matched pairs (the RANSAC invariant), so C134 applies; matched peaks and lines are pairwise different, hence not constant. [proved: `fit_best`, `match_best`, `refit_best`]
* **C136** A new calibrator numbers the pixels from zero: Inversion of the constructor; ceiling of 1.1 m. [proved: `default_pixels_spectrum`, `default_pixels_peaks`]
* **C137** A fit only matches what the limits allow: Lines after fit are the bin centres of the transform of the current pairs (do_hough_ready); a centre lies in the range of the data; matched pairs are near a line (fit_matched).  Refutation by computation. [partial: `fit_within_limits_partial`, `fit_within_limits_refuted`]
* **C138** Limits that leave only right pairs give the right solution: C137 gives that the matched pairs are right; the best polynomial for them (C135) has zero loss, and two polynomials of degree d agreeing on more than d points are equal. [proved: `fit_finds_truth`]
* **C139** No admissible pair is lost: The vote of the pair is in a bin; every bin centre is a line (the transform keeps all bins); the centre is half a bin away at most, so the pair is within the tolerance of that line. [proved: `admissible_pairs_kept`]
* **C140** A well posed session recovers its polynomial: C139 and C137 give that the candidates are exactly the right pairs; _get_most_common_candidates then yields one wavelength per peak; the state is an exact_problem (C110). [partial: `perfect_session_partial`, `perfect_session_refuted`]
* **C141** What fit returns is the best of the trial fits it made: Invariant of the search: the stored solution, its cost and its matches come from one trial in the log and satisfy every condition (trial_result in SpecRansac.v); with C61 no good trial in the log is cheaper.  fit_calls (Calls.v) is the log of the calls of numpy's fitters during fit. [proved: `fit_best_of_trials`, `fit_brute_best`]
* **C142** refine_peaks fits the scaled window, so the units of the intensities do not matter: refine_single_fit: the window as a split of the spectrum, largest sample by induction.  refine_scale_partial: invariant over the loop that the samples of the windows still to come are k times those of the other run; division cancels k for all extended reals.  Counterexample in binary64. [partial: `refine_single_fit`, `refine_scale_partial`, `refine_scale_refuted`]
* **C143** Calibrating a simulated arc gives the simulated solution back: SpecSim.v states the settings (no word on which line belongs to which peak). Main_Sim.v derives from get_pixels that the pixels lie on the polynomial, builds the session of C140 from it, and applies its theorems; the example simulates a quadratic. [partial: `simulated_arc_partial`, `simulated_arc_refuted`]
* **C144** Whole numbers are as good as floats: Whole.v models integer arrays (in-place division raises, assignment to an element cuts off decimals). Case analysis for every argument. [partial: `refine_no_peaks`, `refine_counts_refuted`, `whole_start_refuted`]
* **C145** What the caller later does to its own lists, or to the returned ones, does not change the calibrator: Objects with addresses and a caller who may change any object it knows (Refs.v); an invariant: addresses hidden from the caller keep their contents through every history. [partial: `peaks_private`, `known_private_partial`, `refit_private_partial`, `edited_private`, `known_shared_refuted`, `pixels_shared_refuted`, `results_shared_refuted`]
* **C146** A Hough transform saved by one calibrator can be loaded by any other later: Induction over the later saves: file names differ after the suffixes are appended, because appending is injective and the last four characters of the suffixes differ. [proved: `saved_npy_kept`, `saved_json_kept`, `load_only_transform`]
* **C147** The order of the peaks does not matter to a fit: Relate two calibrators equal up to the order of peaks, pairs and Hough points, with the additional invariant that the pairs of each pixel come in the same order. Every call keeps it; the candidate rows per pixel, hence x, y and the dictionary of the search, are then equal. F64 witnesses for linear=False and for reversed lines. [partial: `fit_peak_order`, `session_peak_order`, `fit_peak_order_poly_refuted`, `fit_line_order_refuted`]
* **C148** An Atlas holds the brightest lines of each element, brightest first: Model Atlas.__init__ as a call of Atlas.add with the limit 1000; describe each element's block by the selection of load_calibration_lines, a split into kept and dropped lines and the order of brightness. [proved: `constructor_lines`]
* **C149** The lines of an atlas are at least min_distance apart: Refute with a catalogue of six lines; prove what holds from load_exact element by element. [partial: `atlas_distance_partial`, `atlas_distance_refuted`]
* **C150** The model of a synthetic spectrum is the last one set: Model the object as limits, constructor coefficients and model; induction over the history. [proved: `synthetic_model_history`, `set_model_exact`]
* **C151** Candidates given as whole numbers are pruned like floats: Model the integer array by cutting each total to its integer part; compare with the float model per peak and lift to the loop. [partial: `whole_candidates_partial`, `whole_candidates_refuted`, `whole_votes_refuted`]
* **C152** The printed list of lines is complete and faithful: Model the printed lines as a list of strings; parse them from the right; reuse the mirror theorem for the Calibrator. [proved: `list_tells_lines`, `list_after_user`, `list_atlas_mirror`]
* **C153** A synthetic spectrum keeps the coefficients it was given: Model the caller's lists as a heap and the object as references into it, with the degree fixed at set_model; induction over the history. [partial: `synth_kept_partial`, `synth_model_kept_partial`, `synth_shared_refuted`, `synth_append_refuted`]
* **C154** Any delimiter can separate the formats of a saved Hough transform: Model str.split for any separator by structural recursion; prove that it undoes join; reduce save to the list of formats. [partial: `save_delimiter_partial`, `calibrator_delimiter`, `save_delimiter_refuted`]
* **C155** match_peaks refines whole-number coefficients like any others: WholeMatch models the in-place additions on an integer array; whole_refine_partial says what is stored for every minimiser, whole_refine_refuted that no correction below 1 has an effect. [partial: `whole_refine_partial`, `whole_refine_refuted`]
* **C156** plot_fit marks each peak on the spectrum: RawPix models interp1d and the look-up; the position of a listed pixel is its index for every order of the list, by sorting; rounding is refuted with a witness. [partial: `peak_marks_partial`, `peak_marks_drawn_partial`, `peak_marks_refuted`, `peak_rounding_refuted`]
* **C157** plot_fit labels each matched peak with its line: Panel models the labels; the nearest line of a listed wavelength has that wavelength. [partial: `fit_labels_partial`, `fit_labels_refuted`]
* **C158** log_spectrum shows the logarithm of the spectrum: Panel models the curve and the type of the axis, log10 is an argument; log10 y < y for y > 0 refutes the rest. [partial: `log_curve_partial`, `log_curve_refuted`]
* **C159** What is drawn is inside the axes: Panel models the ranges; the extremes of a list bound it; each gap is refuted for all inputs of its kind. [partial: `fit_ranges_partial`, `arc_ranges_partial`, `ranges_refuted`]
* **C160** The order of peaks and lines does not matter to match_peaks: Peaks and lines are permuted; the nearest distance of each peak and the set of lines within tolerance are invariant, sums over the extended reals are too, and a peak with several lines raises TypeError in every order. [proved: `match_order`]
* **C161** A Hough transform can be saved as json whatever kind of numbers the limits are: SaveSteps models the kinds of numbers and save step by step; the steps are shown to amount to the save of Hough.v when json accepts the limits, and refuted for all transforms otherwise. [partial: `save_kinds_partial`, `save_kinds_refuted`]
* **C162** An interrupted save loses nothing that was saved before: The disk is a map from names to contents; save is a list of steps (begun, complete) and an interruption a prefix of it; induction over the steps. [partial: `interrupted_save_partial`, `interrupted_save_refuted`]
* **C163** Interrupting a fit leaves the calibrator usable: Interrupt lists the states between the assignments of each stage of fit; a simulation shows that the preparation of the second fit ends in the same question as that of the first, and fit is known to depend on nothing else. [partial: `interrupted_fit_partial`, `interrupted_fit_retry_partial`, `points_before_lines`, `interrupted_fit_refuted`]
* **C164** Interrupting match_peaks, manual_refit or the editing of pairs: AssignSteps gives each call as the list of its assignments, proved to amount to the call; an interruption is a prefix. Assignments of a prefix are overwritten by the repeated call (last value per attribute); the difference of the lengths of the lists is invariant under edits. [partial: `assign_steps_are_the_calls`, `interrupted_calls_retry_partial`, `interrupted_calls_repair`, `interrupted_calls_refuted`]
* **C165** Interrupting the configuration of a calibrator: SetterSteps gives each setter as the list of its assignments, proved to amount to the call; an invariant of prefixes (every attribute is the old or the new one) and idempotence of the given/stored/default rule and of _generate_pairs give the repetition; adding lines appends a list that does not depend on the lines already there. [partial: `setting_steps_are_the_calls`, `interrupted_setting_retry`, `interrupted_setting_refuted`, `interrupted_atlas_add_refuted`]
* **C166** The log level chosen for a calibrator, and messages written once: Log models the table of loggers of python's logging by name and the start of set_calibrator_properties; invariants over histories of any length (at most one handler; level = the one last asked for), frame lemmas for operations that do not name a logger. [partial: `log_once`, `log_level_last`, `log_level_kept_partial`, `log_level_kept_refuted`, `log_level_rejected`, `log_level_names`]
* **C167** Seeding a calibrator makes its fit reproducible: Seed models the generator abstractly (states, seeding, draws of a fit from a state, state after a fit) and programs over several calibrators; simulation over calls that draw nothing, induction over the program; a concrete generator for the refutation. [partial: `seed_reproducible`, `seed_next_fit_partial`, `seed_own_refuted`]

## 4. What is modelled and what is not

| source | modelled | not modelled |
|---|---|---|
| `util.py` | all functions | warnings and log output; `float()` of one field (an argument `parse`), white space and newline conventions of `np.loadtxt`; `curve_fit` (oracle) |
| `models.py` | polynomial, poly_cost_function, normalise_input, robust_polyfit | `least_squares` (oracle); `pprint_coefficients` (inside a string literal, never defined) |
| `atlas.py` | all methods, including the iteration over a list that is being changed | `str()` of a number (an argument) |
| `synthetic.py` | SyntheticSpectrum: all methods | `inversefunc` (oracle with its contract); RandomSyntheticSpectrum (inside a string literal, never defined) |
| `houghtransform.py` | all methods; files as a map from names to contents | number formatting in csv and json files; file-system failures other than a missing file |
| `calibrator.py` | all methods except those named on the right | which messages are logged, progress bar; `np.random`, `polyfit`, `legfit`, `chebfit`, `minimize`, `RectBivariateSpline`, `Delaunay` (oracles) |
| `plotting.py` | which points and curves are drawn, the labels of the matched peaks, the axis ranges of `plot_fit` and `plot_arc`, the residuals and rms shown, which files are written, what is displayed or returned, which arguments are changed | colours, legends, axis labels, limits of the other figures, renderers |
| `arc_lines/convolve_lines.py` | - | a plotting script run on import; its line placing is the one of `plot_calibration_lines`, which is modelled |
| `arc_lines/*.csv` | - | the data (theorems quantify over every catalogue) |

Simplifications that affect several definitions: python ints that only count are `nat`; ints used as numbers are
converted to `A` at once (exact below 2^53); numpy arrays of floats are lists; dtype is modelled only where the
code's behaviour depends on it; summation is sequential from the left (numpy's pairwise summation may differ in the
last bits - theorems over binary64 that mention sums hold of the sequential sum); `F64` has an `exp` that is constant
1 in computed examples only.

## 5. Trusted base

* The kernel of Coq 8.16.1 (and `coqchk`).
* The faithfulness of the model files listed in section 2 to `/repo` and of `Np.v`/`PolyEval.v` to numpy.
* The axioms below, all from the standard library: `sig_forall_dec` and `sig_not_dec`
  (`Coq.Reals.ClassicalDedekindReals`), `functional_extensionality_dep`
  (`Coq.Logic.FunctionalExtensionality`) and `classic` (`Coq.Logic.Classical_Prop`), which the standard library's real
  numbers and its transcendental functions use.  No axiom is declared in this development.

What `Print Assumptions` lists for each theorem:

**Closed under the global context (no axioms)** (255 theorems):
`add_hough_points_history`, `add_hough_points_outcome`, `add_pair_sorted_partial`, `add_pair_sorted_refuted`, `add_range_tolerance_partial`, `add_single_user_line_partial`, `add_single_user_line_refuted`, `add_symbol_partial`, `add_symbol_refuted`, `add_user_atlas_atomic`, `arc_crowded_refuted`, `arc_labels_refuted`, `arc_single_lines_partial`, `arc_spectrum_partial`, `arc_spectrum_refuted`, `assign_steps_are_the_calls`, `atlas_add_partial`, `atlas_add_refuted`, `atlas_distance_refuted`, `atlas_history`, `atlas_limits_kept`, `atlas_limits_last`, `bijective_matching`, `brute_force_best`, `brute_force_combinations`, `brute_force_fits`, `brute_force_samples`, `brute_force_stuck`, `calibrator_add_atlas_range`, `calibrator_add_atlas`, `calibrator_atlas_mirror`, `calibrator_delimiter`, `calibrator_lines_history`, `calibrators_independent_partial`, `calibrators_independent_refuted`, `candidates_monotone`, `chart_files`, `cleared_atlas_refills`, `common_candidates`, `configure_order_partial`, `configure_order_refuted`, `constructor_ignores_tolerance`, `constructor_lines`, `constructor_range_tolerance_refuted`, `conversions_elementwise`, `conversions_share_index`, `edited_private`, `edits_aligned`, `element_case_insensitive_refuted`, `element_spelling_partial`, `failed_fit_partial`, `failed_fit_refuted`, `failed_match_keeps_pairs_partial`, `failed_match_keeps_pairs_refuted`, `filter_intensity_errors`, `filter_intensity_exact`, `filter_wavelengths_exact`, `fit_best_of_trials`, `fit_brute_best`, `fit_calls_known`, `fit_coefficient_count`, `fit_hough_current_partial`, `fit_ignores_earlier_results`, `fit_keeps_settings_partial`, `fit_keeps_settings_refuted`, `fit_line_order_refuted`, `fit_matches_observed`, `fit_minimum_matches`, `fit_more_tries`, `fit_peak_order_poly_refuted`, `fit_quality_partial`, `fit_repeatable_partial`, `fit_repeatable_refuted`, `fit_returns_stored`, `fit_stale_pairs_refuted`, `fit_terminates_refuted`, `fit_within_limits_refuted`, `fit_work_partial`, `get_pixels_aligned`, `get_pixels_inverts_partial`, `get_pixels_inverts_refuted`, `hough_bonus_partial`, `hough_bonus_refuted`, `humidity_vapour_pressure_refuted`, `initial_solution_partial`, `initial_solution_refuted`, `interrupted_atlas_add_refuted`, `interrupted_calls_refuted`, `interrupted_calls_repair`, `interrupted_calls_retry_partial`, `interrupted_fit_partial`, `interrupted_fit_refuted`, `interrupted_fit_retry_partial`, `interrupted_save_partial`, `interrupted_save_refuted`, `interrupted_setting_refuted`, `interrupted_setting_retry`, `json_loaded_usable_refuted`, `json_round_trip`, `known_pairs_valid`, `known_private_partial`, `known_shared_refuted`, `line_list_as_written_partial`, `line_list_as_written_refuted`, `line_list_clipped`, `line_list_needs_three`, `line_list_rejected`, `linear_candidates_exact`, `linelist_argument`, `list_after_user`, `list_atlas_mirror`, `list_tells_lines`, `listing_exact`, `load_brightest_exact`, `load_distance_monotone`, `load_elements_order`, `load_elements_permuted`, `load_intensity_monotone_refuted`, `load_min_distance_refuted`, `load_narrower`, `load_only_transform`, `load_small_selection_partial`, `load_small_selection_refuted`, `load_succeeds`, `loaded_hough_discarded_refuted`, `loaded_lines_refuted`, `loaded_npy_usable_partial`, `log_level_kept_partial`, `log_level_kept_refuted`, `log_level_last`, `log_level_names`, `log_level_rejected`, `log_once`, `manual_refit_atomic_partial`, `manual_refit_atomic_refuted`, `manual_refit_rejects`, `manual_refit_validates`, `match_coefficient_count`, `match_peaks_one_to_one_refuted`, `match_peaks_residuals_partial`, `match_peaks_residuals_refuted`, `match_peaks_succeeds_partial`, `match_peaks_succeeds_refuted`, `match_peaks_within`, `max_tries_ignored_refuted`, `merge_keeps_pairs_refuted`, `merge_rows_partial`, `more_tries_not_worse`, `most_common_kept_refuted`, `npy_name_affected_partial`, `npy_name_refuted`, `npy_round_trip`, `num_pix_ignored_refuted`, `one_library`, `pairs_constrained`, `pairs_follow_atlas_partial`, `pairs_follow_atlas_refuted`, `pairs_full_product`, `pairs_last_rebuilt_partial`, `peak_rounding_refuted`, `peaks_private`, `pixel_list_used_partial`, `pixels_shared_refuted`, `plot_arc_without_spectrum_refuted`, `plot_filename_partial`, `plot_filename_refuted`, `plot_files`, `plot_fit_leaves_spectrum_partial`, `plot_fit_residuals_instance_refuted`, `plot_json_silent_partial`, `plot_json_silent_refuted`, `points_before_lines`, `poly_candidates_all_pairs_refuted`, `poly_candidates_partial`, `poly_candidates_single_refuted`, `poly_candidates_sizes_refuted`, `properties_last_given`, `ransac_keeps_best`, `ransac_known_pairs_partial`, `ransac_properties_valid`, `ransac_quality_partial`, `ransac_refit_known_refuted`, `ransac_residual_bound_refuted`, `ransac_terminates_refuted`, `ransac_valid_matching`, `ransac_work_partial`, `recorded_range_partial`, `recorded_range_refuted`, `refine_counts_refuted`, `refine_empty_window_fails`, `refine_independent_partial`, `refine_independent_refuted`, `refine_location_refuted`, `refine_looks_near_partial`, `refine_looks_near_refuted`, `refine_no_adjacent_duplicates_partial`, `refine_no_duplicates_refuted`, `refine_no_peaks`, `refine_peaks_output`, `refine_scale_refuted`, `refine_used_partial`, `refine_used_refuted`, `refit_coefficient_count`, `refit_exact_refuted`, `refit_private_partial`, `rejected_call_atomic_refuted`, `rejected_call_partial`, `remove_listed`, `remove_range_complete_partial`, `remove_range_complete_refuted`, `remove_range_exact`, `remove_range_repeated`, `remove_undoes_add`, `results_shared_refuted`, `robust_start_refuted`, `sample_size_usable_partial`, `sample_size_usable_refuted`, `sampling_prob_refuted`, `save_delimiter_partial`, `save_delimiter_refuted`, `save_kinds_refuted`, `save_load_name_partial`, `save_returns_data_refuted`, `save_to_disk_partial`, `saved_json_kept`, `saved_npy_kept`, `search_space_candidates_refuted`, `search_space_partial`, `seed_next_fit_partial`, `seed_own_refuted`, `seed_reproducible`, `session_matches_restored`, `session_matches`, `session_settings`, `session_valid`, `set_atlas_history`, `set_constraints_accepts`, `set_constraints_atomic`, `set_model_exact`, `set_model_ignored_refuted`, `set_wavelength_limit_exact`, `setting_steps_are_the_calls`, `settings_idempotent`, `stale_hough_refuted`, `supplied_fit_partial`, `supplied_fit_refuted`, `synth_append_refuted`, `synth_kept_partial`, `synth_model_kept_partial`, `synth_shared_refuted`, `synthetic_limits_invariant`, `unknown_linelist_keeps_atlas`, `use_plotly_partial`, `use_plotly_permanent_refuted`, `whole_votes_refuted`.

**`functional_extensionality_dep`** (1 theorems):
`save_kinds_partial`.

**`functional_extensionality_dep`, `sig_forall_dec`** (2 theorems):
`brute_force_lines`, `hough_points_sound`.

**`functional_extensionality_dep`, `sig_forall_dec`, `sig_not_dec`** (103 theorems):
`adjust_polyfit_cost`, `adjust_polyfit_nonnegative`, `admissible_pairs_kept`, `air_shorter_than_vacuum`, `air_vacuum_round_trip`, `arc_curve_profiles`, `arc_grid_partial`, `arc_labels_partial`, `arc_lines_increasing_partial`, `atlas_distance_partial`, `basis_evaluation`, `bin_hough_points_exact`, `brute_force_exact`, `conversion_preserves_order`, `decoys_fit`, `decoys_search`, `decoys_session`, `default_pixels_peaks`, `default_pixels_spectrum`, `derivative_correct`, `exact_data_partial`, `exact_data_refuted`, `filter_close_separates`, `filter_separation_exact`, `fit_best`, `fit_finds_truth`, `fit_labels_partial`, `fit_labels_refuted`, `fit_lines_separated`, `fit_peak_order`, `fit_ranges_partial`, `fit_returns_clear_partial`, `fit_three_even_refuted`, `fit_type_consistent_partial`, `fit_type_consistent_refuted`, `fit_utilisation`, `fit_within_limits_partial`, `get_pixels_linear_inverts_iff`, `get_pixels_linear`, `hough_density_partial`, `hough_line_candidates`, `hough_near_line`, `hough_points_exact`, `hough_votes`, `humid_air_shorter`, `humid_order`, `humid_round_trip`, `humidity_error_partial`, `humidity_shrinks_shift`, `limits_consistent`, `lines_order`, `load_brightest_distance_partial`, `load_exact`, `load_small_selection_fails`, `manual_refit_rms`, `match_best`, `match_order`, `match_peaks_one_to_one_partial`, `most_common_kept_partial`, `most_common_ranks_partial`, `no_atmosphere_identity`, `pairs_in_drawn_region`, `pairs_monotone`, `peak_marks_drawn_partial`, `peak_marks_partial`, `peak_marks_refuted`, `peaks_order`, `perfect_session_partial`, `perfect_session_refuted`, `plot_arc_without_spectrum_partial`, `plot_fit_leaves_spectrum_refuted`, `plot_fit_residuals_partial`, `plot_fit_residuals_refuted`, `poly_offsets`, `polynomial_evaluates`, `ransac_residuals_partial`, `refine_location_partial`, `refine_ordered_no_duplicates_partial`, `refine_scale_partial`, `refine_shift_partial`, `refine_single_fit`, `refit_best`, `refit_exact_partial`, `region_as_drawn`, `reordered_candidates`, `robust_polyfit_best`, `robust_polyfit_default`, `robust_polyfit_denormalises`, `robust_polyfit_units`, `robust_start_default_partial`, `robust_start_exact_partial`, `sampling_prob_partial`, `session_peak_order`, `simulated_arc_partial`, `simulated_arc_refuted`, `slope_limits_partial`, `slope_lower_limit_refuted`, `synthetic_model_history`, `whole_candidates_partial`, `whole_candidates_refuted`, `whole_refine_partial`, `whole_refine_refuted`, `whole_start_refuted`.

**`classic`, `functional_extensionality_dep`, `sig_forall_dec`, `sig_not_dec`** (9 theorems):
`arc_curve_bounds`, `arc_curve_shows_lines`, `arc_curve_single`, `arc_ranges_partial`, `gauss_weight`, `linear_candidates_weight`, `log_curve_partial`, `log_curve_refuted`, `ranges_refuted`.

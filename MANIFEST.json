{
 "claims": [
  {
   "property": "C01",
   "status": "proved",
   "theorems": [
    "filter_wavelengths_exact"
   ],
   "note": "Any Num with a total preorder on non-NaN values (binary64 and exact reals are instances)."
  },
  {
   "property": "C02",
   "status": "proved",
   "theorems": [
    "filter_separation_exact"
   ],
   "note": "Exact real arithmetic."
  },
  {
   "property": "C03",
   "status": "proved",
   "theorems": [
    "filter_intensity_exact",
    "filter_intensity_errors"
   ],
   "note": "Any Num, no laws needed."
  },
  {
   "property": "C04",
   "status": "proved",
   "theorems": [
    "load_exact",
    "load_succeeds"
   ],
   "note": "Exact reals; catalogue rows with finite wavelengths."
  },
  {
   "property": "C05",
   "status": "proved",
   "theorems": [
    "load_brightest_exact"
   ],
   "note": "Any Num with order; every argsort meeting its contract."
  },
  {
   "property": "C06",
   "status": "partial",
   "theorems": [
    "load_brightest_distance_partial",
    "load_min_distance_refuted",
    "load_exact"
   ],
   "note": "REFUTED: with brightest_n_lines the separation filter runs on rows in order of brightness. The promise holds without brightest_n_lines (load_exact). load_brightest_distance_partial says exactly which lines stay when brightest_n_lines is given, and that the promise holds when the chosen lines happen to be in order of wavelength."
  },
  {
   "property": "C07",
   "status": "partial",
   "theorems": [
    "load_small_selection_partial",
    "load_small_selection_fails",
    "load_small_selection_refuted"
   ],
   "note": "REFUTED: for min_distance > 0 a single selected line is dropped and an empty selection raises IndexError. Holds for min_distance <= 0."
  },
  {
   "property": "C08",
   "status": "proved",
   "theorems": [
    "air_shorter_than_vacuum",
    "conversion_preserves_order"
   ],
   "note": "Exact reals, dry air; order also for air_to_vacuum up to 120 kPa."
  },
  {
   "property": "C09",
   "status": "proved",
   "theorems": [
    "air_vacuum_round_trip",
    "conversions_share_index"
   ],
   "note": "Bound proved is 1e-7 relative, change strictly positive."
  },
  {
   "property": "C10",
   "status": "proved",
   "theorems": [
    "no_atmosphere_identity"
   ],
   "note": "Exact reals; temperatures 0.15 to 673.15 K."
  },
  {
   "property": "C11",
   "status": "proved",
   "theorems": [
    "conversions_elementwise"
   ],
   "note": ""
  },
  {
   "property": "C12",
   "status": "proved",
   "theorems": [
    "gauss_weight"
   ],
   "note": "Exact reals."
  },
  {
   "property": "C13",
   "status": "proved",
   "theorems": [
    "refine_peaks_output"
   ],
   "note": ""
  },
  {
   "property": "C14",
   "status": "partial",
   "theorems": [
    "refine_shift_partial",
    "refine_location_partial",
    "refine_location_refuted"
   ],
   "note": "REFUTED: near the left edge and for fractional peaks the location is shifted. refine_shift_partial gives the shift for every peak that is not negative and shows that the location is right exactly for integer peaks at least one width from the left edge."
  },
  {
   "property": "C15",
   "status": "partial",
   "theorems": [
    "refine_independent_partial",
    "refine_independent_refuted"
   ],
   "note": "REFUTED: the window of a peak is normalised in place. Holds when windows do not overlap."
  },
  {
   "property": "C16",
   "status": "partial",
   "theorems": [
    "refine_ordered_no_duplicates_partial",
    "refine_no_adjacent_duplicates_partial",
    "refine_no_duplicates_refuted"
   ],
   "note": "REFUTED: only consecutive locations are compared. Proved over exact reals: no duplicates are returned whenever the fits keep the order of the peaks."
  },
  {
   "property": "C17",
   "status": "proved",
   "theorems": [
    "derivative_correct"
   ],
   "note": "Exact reals."
  },
  {
   "property": "C18",
   "status": "proved",
   "theorems": [
    "polynomial_evaluates"
   ],
   "note": "Exact reals."
  },
  {
   "property": "C19",
   "status": "proved",
   "theorems": [
    "robust_polyfit_denormalises",
    "robust_polyfit_default"
   ],
   "note": "Exact reals; the optimiser is universally quantified."
  },
  {
   "property": "C20",
   "status": "partial",
   "theorems": [
    "robust_start_default_partial",
    "robust_start_exact_partial",
    "robust_start_refuted"
   ],
   "note": "REFUTED: initial coefficients are scaled with the wrong powers (and order). Proved over exact reals: exactly for which initial coefficients the start describes the given polynomial."
  },
  {
   "property": "C21",
   "status": "proved",
   "theorems": [
    "basis_evaluation"
   ],
   "note": "Exact reals."
  },
  {
   "property": "C22",
   "status": "partial",
   "theorems": [
    "fit_type_consistent_partial",
    "fit_type_consistent_refuted"
   ],
   "note": "REFUTED for legendre and chebyshev from degree 2 on: robust_polyfit always returns power series coefficients."
  },
  {
   "property": "C23",
   "status": "proved",
   "theorems": [
    "set_wavelength_limit_exact",
    "synthetic_limits_invariant"
   ],
   "note": ""
  },
  {
   "property": "C24",
   "status": "proved",
   "theorems": [
    "get_pixels_aligned",
    "get_pixels_linear"
   ],
   "note": "The inverter is quantified over; linear part in exact reals."
  },
  {
   "property": "C25",
   "status": "partial",
   "theorems": [
    "get_pixels_inverts_partial",
    "get_pixels_linear_inverts_iff",
    "set_model_ignored_refuted",
    "get_pixels_inverts_refuted"
   ],
   "note": "REFUTED: straight lines are inverted with swapped coefficients, and set_model is ignored for degrees 0 and 1. What set_model with one or two coefficients sets is ignored by get_pixels in every history (set_model_ignored_refuted). Holds from degree 2 on if the numerical inversion is right."
  },
  {
   "property": "C35",
   "status": "proved",
   "theorems": [
    "atlas_history"
   ],
   "note": ""
  },
  {
   "property": "C36",
   "status": "proved",
   "theorems": [
    "add_user_atlas_atomic"
   ],
   "note": ""
  },
  {
   "property": "C37",
   "status": "proved",
   "theorems": [
    "remove_range_exact",
    "remove_range_repeated"
   ],
   "note": ""
  },
  {
   "property": "C38",
   "status": "partial",
   "theorems": [
    "remove_range_complete_partial",
    "remove_range_complete_refuted"
   ],
   "note": "REFUTED: the list is shortened while it is iterated. Holds exactly when no two adjacent lines are in range."
  },
  {
   "property": "C39",
   "status": "partial",
   "theorems": [
    "recorded_range_partial",
    "recorded_range_refuted",
    "atlas_limits_last"
   ],
   "note": "REFUTED: each add_user_atlas overwrites the range. Holds for the lines of the last call (recorded_range_partial), whatever the history (atlas_limits_last)."
  },
  {
   "property": "C40",
   "status": "partial",
   "theorems": [
    "add_range_tolerance_partial",
    "constructor_range_tolerance_refuted",
    "constructor_ignores_tolerance"
   ],
   "note": "REFUTED for the constructor, which ignores range_tolerance. Proved for Atlas.add without limits."
  },
  {
   "property": "C41",
   "status": "partial",
   "theorems": [
    "atlas_add_partial",
    "atlas_add_refuted"
   ],
   "note": "REFUTED: lines of earlier elements stay when a later element raises."
  },
  {
   "property": "C82",
   "status": "partial",
   "theorems": [
    "add_single_user_line_partial",
    "add_symbol_partial",
    "add_symbol_refuted",
    "add_single_user_line_refuted"
   ],
   "note": "REFUTED for every number given as wavelength and every symbol of other than one character: the call raises, because a float is rejected and a str is split into characters. Proved: exactly how a str is read (one label per character)."
  },
  {
   "property": "C83",
   "status": "partial",
   "theorems": [
    "element_spelling_partial",
    "element_case_insensitive_refuted"
   ],
   "note": "REFUTED: symbols are compared exactly. Proved: only lines of a requested symbol spelled as in the list are added."
  },
  {
   "property": "C26",
   "status": "proved",
   "theorems": [
    "set_constraints_atomic",
    "set_constraints_accepts"
   ],
   "note": ""
  },
  {
   "property": "C27",
   "status": "proved",
   "theorems": [
    "hough_points_exact",
    "hough_points_sound"
   ],
   "note": "Exact reals, finite data and limits."
  },
  {
   "property": "C28",
   "status": "proved",
   "theorems": [
    "brute_force_exact",
    "brute_force_lines"
   ],
   "note": "Exact reals, finite data and limits; any argsort."
  },
  {
   "property": "C29",
   "status": "proved",
   "theorems": [
    "add_hough_points_history",
    "add_hough_points_outcome"
   ],
   "note": "For a transform that already has points; what happens without points is stated in add_hough_points_outcome."
  },
  {
   "property": "C30",
   "status": "proved",
   "theorems": [
    "bin_hough_points_exact"
   ],
   "note": "Exact reals."
  },
  {
   "property": "C31",
   "status": "proved",
   "theorems": [
    "bin_hough_points_exact"
   ],
   "note": "Exact reals; any argsort."
  },
  {
   "property": "C32",
   "status": "proved",
   "theorems": [
    "npy_round_trip",
    "json_round_trip"
   ],
   "note": "For a transform with limits that has been binned."
  },
  {
   "property": "C33",
   "status": "partial",
   "theorems": [
    "save_load_name_partial",
    "npy_name_refuted",
    "npy_name_affected_partial"
   ],
   "note": "REFUTED for names ending in .npy: save appends the suffix, load does not. save_load_name_partial settles every name for both file types: the round trip works exactly when the name does not end in the suffix, and otherwise load behaves as if nothing had been saved."
  },
  {
   "property": "C34",
   "status": "partial",
   "theorems": [
    "loaded_npy_usable_partial",
    "json_loaded_usable_refuted",
    "loaded_lines_refuted"
   ],
   "note": "REFUTED: json restores points as a python list, and hough_lines are not restored by either format. A transform restored from npy can be binned again."
  },
  {
   "property": "C81",
   "status": "partial",
   "theorems": [
    "humidity_error_partial",
    "humidity_vapour_pressure_refuted"
   ],
   "note": "REFUTED: the vapour pressure formula is given Celsius. Proved over exact reals: the exact error of the index, proportional to the humidity, and zero for dry air."
  },
  {
   "property": "C42",
   "status": "proved",
   "theorems": [
    "properties_last_given"
   ],
   "note": "For histories that may also contain any other configuration calls."
  },
  {
   "property": "C43",
   "status": "proved",
   "theorems": [
    "ransac_properties_valid"
   ],
   "note": "IEEE doubles; histories may contain any configuration calls, also failing ones."
  },
  {
   "property": "C44",
   "status": "partial",
   "theorems": [
    "rejected_call_partial",
    "rejected_call_atomic_refuted"
   ],
   "note": "REFUTED: other properties given in the rejected call are already stored; the rejected value itself never is."
  },
  {
   "property": "C45",
   "status": "partial",
   "theorems": [
    "slope_limits_partial",
    "slope_lower_limit_refuted"
   ],
   "note": "REFUTED for min_slope with the default settings: it brackets exactly when range_tolerance <= 2*linearity_tolerance. max_slope always brackets. Exact reals."
  },
  {
   "property": "C46",
   "status": "proved",
   "theorems": [
    "limits_consistent"
   ],
   "note": "Exact reals."
  },
  {
   "property": "C47",
   "status": "partial",
   "theorems": [
    "pixel_list_used_partial",
    "num_pix_ignored_refuted"
   ],
   "note": "REFUTED: num_pix given later is stored and otherwise ignored, for every n; a pixel_list given later is used."
  },
  {
   "property": "C48",
   "status": "proved",
   "theorems": [
    "one_library"
   ],
   "note": ""
  },
  {
   "property": "C49",
   "status": "partial",
   "theorems": [
    "use_plotly_partial",
    "use_plotly_permanent_refuted"
   ],
   "note": "REFUTED: the next set_calibrator_properties selects matplotlib again."
  },
  {
   "property": "C50",
   "status": "proved",
   "theorems": [
    "known_pairs_valid"
   ],
   "note": ""
  },
  {
   "property": "C51",
   "status": "proved",
   "theorems": [
    "pairs_full_product"
   ],
   "note": ""
  },
  {
   "property": "C52",
   "status": "proved",
   "theorems": [
    "pairs_constrained"
   ],
   "note": "The Delaunay hull test is a parameter that decides each point."
  },
  {
   "property": "C53",
   "status": "partial",
   "theorems": [
    "pairs_last_rebuilt_partial",
    "pairs_follow_atlas_partial",
    "pairs_follow_atlas_refuted"
   ],
   "note": "REFUTED for remove_atlas_lines_range and clear_atlas; holds for histories without them. In any history the pairs are those of the atlas as it was after the last successful call that computes them (pairs_last_rebuilt_partial)."
  },
  {
   "property": "C54",
   "status": "partial",
   "theorems": [
    "fit_hough_current_partial",
    "stale_hough_refuted",
    "loaded_hough_discarded_refuted"
   ],
   "note": "REFUTED: lines of an earlier transform are reused after the settings change, and a loaded transform is discarded. Holds when no transform was computed before."
  },
  {
   "property": "C84",
   "status": "partial",
   "theorems": [
    "save_to_disk_partial",
    "save_returns_data_refuted"
   ],
   "note": "REFUTED: nothing is ever returned. Proved: nothing is written either, and with to_disk=True the data can be loaded into any calibrator."
  },
  {
   "property": "C55",
   "status": "proved",
   "theorems": [
    "linear_candidates_exact",
    "linear_candidates_weight"
   ],
   "note": "The weights are over exact reals, the selection over any numbers."
  },
  {
   "property": "C56",
   "status": "proved",
   "theorems": [
    "common_candidates"
   ],
   "note": "np.argsort is any function that meets its contract; no NaN."
  },
  {
   "property": "C57",
   "status": "partial",
   "theorems": [
    "most_common_ranks_partial",
    "most_common_kept_partial",
    "most_common_kept_refuted"
   ],
   "note": "REFUTED: the ranks of the distinct wavelengths index the list with repeats. Holds when the wavelengths of the peak are increasing without repeats (most_common_kept_partial); what is returned for any candidates is stated in most_common_ranks_partial."
  },
  {
   "property": "C58",
   "status": "proved",
   "theorems": [
    "bijective_matching"
   ],
   "note": "Any numbers with a total order; peaks pairwise different, each with candidates, wavelengths not NaN."
  },
  {
   "property": "C80",
   "status": "partial",
   "theorems": [
    "merge_rows_partial",
    "merge_keeps_pairs_refuted"
   ],
   "note": "REFUTED: each row is sorted by itself."
  },
  {
   "property": "C85",
   "status": "partial",
   "theorems": [
    "poly_candidates_partial",
    "poly_offsets",
    "poly_candidates_sizes_refuted",
    "poly_candidates_single_refuted",
    "poly_candidates_all_pairs_refuted"
   ],
   "note": "REFUTED: ValueError unless the numbers agree (IndexError, or nothing found, if one is 1), and only same-index pairs are compared."
  },
  {
   "property": "C59",
   "status": "proved",
   "theorems": [
    "ransac_valid_matching"
   ],
   "note": "Any numbers with a total order; np.argsort meets its contract, no NaN among the candidates; sampler, picker, fitters and spline are arbitrary functions."
  },
  {
   "property": "C60",
   "status": "partial",
   "theorems": [
    "fit_quality_partial",
    "ransac_quality_partial",
    "ransac_residuals_partial",
    "ransac_residual_bound_refuted"
   ],
   "note": "REFUTED for the residuals of the returned polynomial: they are clipped before being reported. The limits on the number of matches and the least rms hold; the reported residuals and rms are within the tolerance (over exact reals)."
  },
  {
   "property": "C61",
   "status": "proved",
   "theorems": [
    "fit_more_tries",
    "more_tries_not_worse",
    "ransac_keeps_best"
   ],
   "note": "fit_more_tries is about whole calls of fit, the other two about the search inside."
  },
  {
   "property": "C62",
   "status": "partial",
   "theorems": [
    "fit_work_partial",
    "ransac_work_partial",
    "ransac_terminates_refuted",
    "fit_terminates_refuted",
    "brute_force_stuck",
    "max_tries_ignored_refuted"
   ],
   "note": "REFUTED: max_tries is ignored if sample_size and the number of lines are not below the number of peaks; a rejected trial is repeated without limit; a whole session through the API ends in a fit that never returns, and with brute_force any choice whose fit leaves the allowed intercepts does that. At most one accepted trial is made per sample."
  },
  {
   "property": "C63",
   "status": "partial",
   "theorems": [
    "ransac_known_pairs_partial",
    "fit_calls_known",
    "ransac_refit_known_refuted"
   ],
   "note": "REFUTED for the final refit; every trial fit uses the known pairs."
  },
  {
   "property": "C64",
   "status": "partial",
   "theorems": [
    "supplied_fit_partial",
    "supplied_fit_refuted",
    "initial_solution_partial",
    "initial_solution_refuted"
   ],
   "note": "REFUTED: fit raises an exception when nothing better is found; the supplied coefficients are not returned when nothing better is found; only their cost is a bound."
  },
  {
   "property": "C66",
   "status": "partial",
   "theorems": [
    "fit_returns_clear_partial",
    "fit_three_even_refuted",
    "sampling_prob_partial",
    "sampling_prob_refuted"
   ],
   "note": "REFUTED: a peak on an inner edge of the histogram divides by zero, so fit cannot return for three equally spaced candidate peaks, whatever else is given (fit_three_even_refuted). Proved over exact reals: a fit that returns has no such peak (fit_returns_clear_partial); the probabilities are positive and sum to one exactly when every peak on an inner edge has another peak in the bin below it, and otherwise they contain NaN."
  },
  {
   "property": "C67",
   "status": "partial",
   "theorems": [
    "hough_bonus_partial",
    "hough_density_partial",
    "hough_bonus_refuted"
   ],
   "note": "REFUTED: the axes are swapped in the look-up. The partial theorems say what the bonus is: the interpolation through the bin centres, slopes first, is asked for (intercept, slope)."
  },
  {
   "property": "C88",
   "status": "proved",
   "theorems": [
    "filter_close_separates",
    "fit_lines_separated"
   ],
   "note": "Over exact reals.  Seen through fit: any two matched lines are three ransac_tolerances apart."
  },
  {
   "property": "C89",
   "status": "proved",
   "theorems": [
    "brute_force_samples",
    "brute_force_fits",
    "brute_force_combinations",
    "fit_brute_best"
   ],
   "note": ""
  },
  {
   "property": "C65",
   "status": "proved",
   "theorems": [
    "fit_utilisation",
    "fit_stale_pairs_refuted"
   ],
   "note": "Over exact reals. The second theorem shows that the condition on the pairs is needed: after clear_atlas the utilisation is infinite."
  },
  {
   "property": "C68",
   "status": "partial",
   "theorems": [
    "sample_size_usable_partial",
    "sample_size_usable_refuted"
   ],
   "note": "REFUTED: fit_coeff longer than fit_deg+1, or fit_deg >= len(atlas). Holds otherwise, for searches that succeed without brute force."
  },
  {
   "property": "C86",
   "status": "partial",
   "theorems": [
    "fit_keeps_settings_partial",
    "fit_keeps_settings_refuted"
   ],
   "note": "REFUTED: sample_size and minimum_matches are overwritten. Nothing else is."
  },
  {
   "property": "C87",
   "status": "partial",
   "theorems": [
    "failed_fit_partial",
    "failed_fit_refuted"
   ],
   "note": "REFUTED: the coefficients are overwritten before the search. Rms, residuals, utilisations and the user's input survive."
  },
  {
   "property": "C90",
   "status": "proved",
   "theorems": [
    "fit_matches_observed"
   ],
   "note": ""
  },
  {
   "property": "C91",
   "status": "proved",
   "theorems": [
    "fit_returns_stored"
   ],
   "note": ""
  },
  {
   "property": "C69",
   "status": "proved",
   "theorems": [
    "match_peaks_within"
   ],
   "note": ""
  },
  {
   "property": "C70",
   "status": "partial",
   "theorems": [
    "match_peaks_one_to_one_partial",
    "match_peaks_one_to_one_refuted"
   ],
   "note": "REFUTED: one line is assigned to two close peaks. Holds over exact reals when the fitted wavelengths of the peaks are twice the tolerance apart."
  },
  {
   "property": "C71",
   "status": "partial",
   "theorems": [
    "match_peaks_succeeds_partial",
    "match_peaks_succeeds_refuted"
   ],
   "note": "REFUTED for every input with both flags off, with two lines near a peak, with none near any, or with refine and a list. Succeeds with at most one line near each peak."
  },
  {
   "property": "C72",
   "status": "partial",
   "theorems": [
    "refine_used_partial",
    "refine_used_refuted"
   ],
   "note": "REFUTED: the matches never depend on the refinement, and with robust_refit nothing does. Without robust_refit the refined coefficients are returned."
  },
  {
   "property": "C73",
   "status": "proved",
   "theorems": [
    "adjust_polyfit_nonnegative",
    "adjust_polyfit_cost"
   ],
   "note": "Over exact reals with infinities and NaN."
  },
  {
   "property": "C74",
   "status": "proved",
   "theorems": [
    "edits_aligned"
   ],
   "note": ""
  },
  {
   "property": "C75",
   "status": "partial",
   "theorems": [
    "add_pair_sorted_partial",
    "add_pair_sorted_refuted"
   ],
   "note": "REFUTED: for increasing peaks the pair goes to the front or IndexError is raised; TypeError right after fit. Holds for decreasing peaks with one below the pixel."
  },
  {
   "property": "C76",
   "status": "proved",
   "theorems": [
    "manual_refit_validates",
    "manual_refit_rejects",
    "manual_refit_rms"
   ],
   "note": ""
  },
  {
   "property": "C92",
   "status": "partial",
   "theorems": [
    "refit_exact_partial",
    "refit_exact_refuted"
   ],
   "note": "REFUTED for legendre (and chebyshev, see C22): power-basis coefficients are evaluated in the other basis. Holds for poly and for degree 1."
  },
  {
   "property": "C93",
   "status": "partial",
   "theorems": [
    "manual_refit_atomic_partial",
    "manual_refit_atomic_refuted"
   ],
   "note": "REFUTED before the first fit. Holds afterwards."
  },
  {
   "property": "C94",
   "status": "partial",
   "theorems": [
    "match_peaks_residuals_partial",
    "match_peaks_residuals_refuted"
   ],
   "note": "REFUTED with refine and without robust_refit: the residuals are then those of a plain fit that is not returned. Holds with robust_refit."
  },
  {
   "property": "C77",
   "status": "partial",
   "theorems": [
    "plot_fit_leaves_spectrum_partial",
    "plot_fit_leaves_spectrum_refuted"
   ],
   "note": "REFUTED: with log_spectrum every negative value is overwritten, in the caller's array or in the calibrator's spectrum. Holds without log_spectrum or negative values."
  },
  {
   "property": "C78",
   "status": "partial",
   "theorems": [
    "plot_fit_residuals_partial",
    "plot_fit_residuals_refuted",
    "plot_fit_residuals_instance_refuted"
   ],
   "note": "REFUTED with matplotlib: all drawn residuals and the rms are 0 whatever the fit. Holds with plotly, for the nearest atlas lines."
  },
  {
   "property": "C79",
   "status": "proved",
   "theorems": [
    "plot_files",
    "chart_files"
   ],
   "note": ""
  },
  {
   "property": "C95",
   "status": "partial",
   "theorems": [
    "plot_json_silent_partial",
    "plot_json_silent_refuted"
   ],
   "note": "REFUTED: the figure is displayed all the same. JSON is returned exactly if asked for with plotly."
  },
  {
   "property": "C96",
   "status": "partial",
   "theorems": [
    "plot_filename_partial",
    "plot_filename_refuted"
   ],
   "note": "REFUTED: the extension is always appended; no call writes the file named. Holds for names without extension."
  },
  {
   "property": "C97",
   "status": "partial",
   "theorems": [
    "plot_arc_without_spectrum_partial",
    "plot_arc_without_spectrum_refuted"
   ],
   "note": "REFUTED without a spectrum (TypeError). Holds with one."
  },
  {
   "property": "C98",
   "status": "proved",
   "theorems": [
    "pairs_in_drawn_region",
    "region_as_drawn"
   ],
   "note": "Over exact reals, for a hull test that accepts only points of the hull."
  },
  {
   "property": "C99",
   "status": "partial",
   "theorems": [
    "search_space_partial",
    "search_space_candidates_refuted"
   ],
   "note": "REFUTED: 'Candidate Pairs' shows (weight, peak) for every candidate with weight < peak < wavelength, because the rows are sorted. The other point sets are as named."
  },
  {
   "property": "C100",
   "status": "partial",
   "theorems": [
    "arc_spectrum_partial",
    "arc_grid_partial",
    "arc_single_lines_partial",
    "arc_spectrum_refuted",
    "arc_crowded_refuted"
   ],
   "note": "REFUTED: with brightest_n_lines intensities are exchanged between lines, and two lines of an element that round to one wavelength raise ValueError. Holds for lines in increasing order that stay apart when rounded and fall on the grid, and on any grid if no element has more than one line."
  },
  {
   "property": "C101",
   "status": "partial",
   "theorems": [
    "arc_labels_partial",
    "arc_lines_increasing_partial",
    "arc_labels_refuted"
   ],
   "note": "REFUTED: if no line reaches min_intensity IndexError is raised and nothing drawn. Otherwise the labels are as stated for lines in increasing order (vacuum, no brightest_n_lines)."
  },
  {
   "property": "C102",
   "status": "proved",
   "theorems": [
    "load_elements_order",
    "load_elements_permuted"
   ],
   "note": ""
  },
  {
   "property": "C103",
   "status": "proved",
   "theorems": [
    "load_narrower",
    "load_distance_monotone"
   ],
   "note": ""
  },
  {
   "property": "C104",
   "status": "partial",
   "theorems": [
    "load_intensity_monotone_refuted",
    "load_narrower"
   ],
   "note": "REFUTED with min_distance > 0: a faint neighbour that falls below the threshold no longer knocks out a bright line. Holds without min_distance (load_narrower)."
  },
  {
   "property": "C105",
   "status": "proved",
   "theorems": [
    "hough_votes"
   ],
   "note": "Over exact reals."
  },
  {
   "property": "C106",
   "status": "proved",
   "theorems": [
    "hough_line_candidates"
   ],
   "note": "Over exact reals."
  },
  {
   "property": "C107",
   "status": "proved",
   "theorems": [
    "hough_near_line"
   ],
   "note": "Over exact reals, for intercepts at least half a step times the pixel inside the limits."
  },
  {
   "property": "C108",
   "status": "proved",
   "theorems": [
    "listing_exact",
    "remove_listed"
   ],
   "note": ""
  },
  {
   "property": "C109",
   "status": "proved",
   "theorems": [
    "remove_undoes_add"
   ],
   "note": ""
  },
  {
   "property": "C110",
   "status": "partial",
   "theorems": [
    "exact_data_refuted",
    "exact_data_partial"
   ],
   "note": "REFUTED for a positive minimum_fit_error (the default is 1e-4): every trial is rejected as too good and the search repeats forever, for every such data set and every sequence of draws (exact_data_refuted). With minimum_fit_error = 0 fit returns exactly the polynomial (exact_data_partial). Over exact reals."
  },
  {
   "property": "C111",
   "status": "proved",
   "theorems": [
    "fit_minimum_matches"
   ],
   "note": ""
  },
  {
   "property": "C112",
   "status": "proved",
   "theorems": [
    "fit_ignores_earlier_results"
   ],
   "note": ""
  },
  {
   "property": "C113",
   "status": "partial",
   "theorems": [
    "fit_repeatable_refuted",
    "fit_repeatable_partial"
   ],
   "note": "REFUTED: with brute_force (or more sample points than candidate peaks) fit overwrites sample_size, so a second fit uses other samples; a session is given whose second fit matches three peaks instead of four. Proved: if the first fit leaves sample_size as it was, the second returns the same tuple and changes nothing."
  },
  {
   "property": "C114",
   "status": "proved",
   "theorems": [
    "session_settings",
    "session_valid"
   ],
   "note": ""
  },
  {
   "property": "C115",
   "status": "proved",
   "theorems": [
    "session_matches",
    "session_matches_restored"
   ],
   "note": ""
  },
  {
   "property": "C116",
   "status": "partial",
   "theorems": [
    "failed_match_keeps_pairs_refuted",
    "failed_match_keeps_pairs_partial"
   ],
   "note": "REFUTED: whenever no peak has a line within the tolerance, match_peaks raises TypeError after storing an empty list of peaks and None for the lines, so get_pix_wave_pairs raises TypeError (failed_match_keeps_pairs_refuted). What holds: settings, coefficients, fit type and Hough transform are unchanged (failed_match_keeps_pairs_partial)."
  },
  {
   "property": "C117",
   "status": "partial",
   "theorems": [
    "configure_order_refuted",
    "configure_order_partial"
   ],
   "note": "REFUTED: set_calibrator_properties(pixel_list=...) after set_hough_properties gives other slope limits than before it, for any earlier history (it never touches limits or pairs). Proved: any two calls neither of which changes what the other reads commute anywhere in a history, states and outcomes included."
  },
  {
   "property": "C118",
   "status": "proved",
   "theorems": [
    "settings_idempotent"
   ],
   "note": ""
  },
  {
   "property": "C119",
   "status": "proved",
   "theorems": [
    "peaks_order",
    "lines_order",
    "reordered_candidates"
   ],
   "note": ""
  },
  {
   "property": "C120",
   "status": "partial",
   "theorems": [
    "calibrators_independent_refuted",
    "calibrators_independent_partial"
   ],
   "note": "REFUTED: two calibrators given the same Atlas object share it (for every world in which they do). Proved: with separate Atlas objects every calibrator's state and outcomes are those of its own calls alone, in every interleaving."
  },
  {
   "property": "C121",
   "status": "proved",
   "theorems": [
    "robust_polyfit_units"
   ],
   "note": ""
  },
  {
   "property": "C122",
   "status": "proved",
   "theorems": [
    "brute_force_fits",
    "brute_force_best",
    "fit_brute_best"
   ],
   "note": ""
  },
  {
   "property": "C123",
   "status": "proved",
   "theorems": [
    "candidates_monotone",
    "pairs_monotone"
   ],
   "note": ""
  },
  {
   "property": "C124",
   "status": "proved",
   "theorems": [
    "fit_coefficient_count",
    "match_coefficient_count",
    "refit_coefficient_count"
   ],
   "note": ""
  },
  {
   "property": "C125",
   "status": "proved",
   "theorems": [
    "decoys_session",
    "decoys_fit",
    "decoys_search"
   ],
   "note": "decoys_session speaks of one call of fit only: its settings, its candidates, its trial fits and what it returns; decoys_fit adds that it does return.  Over exact numbers, with the library fitters assumed to find the polynomial through points that lie on one (a hypothesis of the theorem).  With the default minimum_fit_error exact data are never accepted (see the refuted half of C110)."
  },
  {
   "property": "C126",
   "status": "proved",
   "theorems": [
    "calibrator_add_atlas",
    "calibrator_add_atlas_range"
   ],
   "note": "The exact set is stated in vacuum and without a separation cut; completeness needs a line list of at most 1000 rows (the default brightest_n_lines)."
  },
  {
   "property": "C127",
   "status": "proved",
   "theorems": [
    "humid_air_shorter",
    "humid_order",
    "humid_round_trip",
    "humidity_shrinks_shift"
   ],
   "note": "Over the reals.  The vapour pressure is the one the code computes, at most 700 Pa below 60 C (C81 says why that is too small)."
  },
  {
   "property": "C128",
   "status": "proved",
   "theorems": [
    "atlas_limits_kept",
    "atlas_limits_last",
    "cleared_atlas_refills"
   ],
   "note": ""
  },
  {
   "property": "C129",
   "status": "proved",
   "theorems": [
    "calibrator_atlas_mirror",
    "set_atlas_history",
    "calibrator_lines_history"
   ],
   "note": "set_atlas replaces the atlas and starts a new history; sharing one Atlas object between calibrators is C120."
  },
  {
   "property": "C130",
   "status": "proved",
   "theorems": [
    "arc_curve_profiles",
    "arc_curve_single",
    "arc_curve_bounds",
    "arc_curve_shows_lines"
   ],
   "note": "Over the reals; scipy.signal.convolve is modelled by its definition.  That the intensities are put at the right grid points needs the conditions of C100."
  },
  {
   "property": "C131",
   "status": "proved",
   "theorems": [
    "linelist_argument",
    "unknown_linelist_keeps_atlas"
   ],
   "note": ""
  },
  {
   "property": "C132",
   "status": "partial",
   "theorems": [
    "line_list_clipped",
    "line_list_as_written_partial",
    "line_list_as_written_refuted",
    "line_list_rejected",
    "line_list_needs_three"
   ],
   "note": "REFUTED: a file with a single row always raises IndexError (np.loadtxt squeezes it to one dimension) and fields are cut to twelve characters, so an element with a longer name is never found. Holds for files of at least two rows whose fields have at most twelve characters; line_list_clipped says what happens for any field length."
  },
  {
   "property": "C133",
   "status": "partial",
   "theorems": [
    "refine_looks_near_partial",
    "refine_looks_near_refuted",
    "refine_empty_window_fails"
   ],
   "note": "REFUTED: for a peak more than window_width left of the spectrum the upper bound of the slice is negative and counts from the end, so most of the spectrum is fitted; and a peak whose window is empty makes the whole call raise. Holds when no peak lies further left than window_width before the first sample."
  },
  {
   "property": "C134",
   "status": "proved",
   "theorems": [
    "robust_polyfit_best"
   ],
   "note": "Over exact reals.  That scipy's least_squares finds the minimum of the cost function it is given is a hypothesis (library_minimises)."
  },
  {
   "property": "C135",
   "status": "proved",
   "theorems": [
    "fit_best",
    "match_best",
    "refit_best"
   ],
   "note": "Over exact reals; the polynomials are in the power basis (C22 says what happens with legendre and chebyshev)."
  },
  {
   "property": "C136",
   "status": "proved",
   "theorems": [
    "default_pixels_spectrum",
    "default_pixels_peaks"
   ],
   "note": "Over exact reals.  The example shows that with a largest peak of 4.5 the pixels end at 4."
  },
  {
   "property": "C137",
   "status": "partial",
   "theorems": [
    "fit_within_limits_partial",
    "fit_within_limits_refuted"
   ],
   "note": "REFUTED when the limits admit no line through any pair: the histogram of no points covers the unit square, its bin centres are used as lines and fit succeeds with a dispersion of 1/2 per pixel although the limits ask for at least 14.  If two different slopes and two different intercepts are admitted the claim holds; with a single one the centres may be up to 1/2 beside it (reach in SpecRegion.v lists the three cases).  Over exact reals."
  },
  {
   "property": "C138",
   "status": "proved",
   "theorems": [
    "fit_finds_truth"
   ],
   "note": "Over exact reals; the minimisation is a hypothesis on scipy's least_squares."
  },
  {
   "property": "C139",
   "status": "proved",
   "theorems": [
    "admissible_pairs_kept"
   ],
   "note": "Over exact reals."
  },
  {
   "property": "C140",
   "status": "partial",
   "theorems": [
    "perfect_session_partial",
    "perfect_session_refuted"
   ],
   "note": "REFUTED with any positive minimum_fit_error (the default is 1e-4): every trial without residual is refused and fit never returns.  With minimum_fit_error = 0 the claim is proved (perfect_session_partial).  sound_session in SpecCover.v lists the settings; over exact reals; peaks are assumed off the inner edges of the sampler's ten bins (C66)."
  },
  {
   "property": "C141",
   "status": "proved",
   "theorems": [
    "fit_best_of_trials",
    "fit_brute_best"
   ],
   "note": ""
  },
  {
   "property": "C142",
   "status": "partial",
   "theorems": [
    "refine_single_fit",
    "refine_scale_partial",
    "refine_scale_refuted"
   ],
   "note": "REFUTED: where windows overlap the shared samples were already scaled for the earlier peak, so the units matter. Holds when windows do not overlap; the data of the fit are given exactly for one peak."
  },
  {
   "property": "C143",
   "status": "partial",
   "theorems": [
    "simulated_arc_partial",
    "simulated_arc_refuted"
   ],
   "note": "REFUTED: with a positive minimum_fit_error (the default is 1e-4) fit never returns on a simulated arc (simulated_arc_refuted, for every such session). With minimum_fit_error at most 0 the solution is recovered (simulated_arc_partial), but SyntheticSpectrum takes three or more coefficients highest power first (two: lowest first) while fit returns them lowest first, so three or more come back reversed."
  },
  {
   "property": "C144",
   "status": "partial",
   "theorems": [
    "refine_no_peaks",
    "refine_counts_refuted",
    "whole_start_refuted"
   ],
   "note": "REFUTED: both divide the array in place, which numpy refuses for integer arrays, so integer counts with at least one peak and every integer start raise (TypeError for all ordinary arguments). For floats see C13 to C16, C19 and C20; the examples show the same values accepted as floats."
  },
  {
   "property": "C145",
   "status": "partial",
   "theorems": [
    "peaks_private",
    "known_private_partial",
    "refit_private_partial",
    "edited_private",
    "known_shared_refuted",
    "pixels_shared_refuted",
    "results_shared_refuted"
   ],
   "note": "REFUTED: a float array given to set_known_pairs stays the caller's array, so a later change of it (even to NaN or to another length, which set_known_pairs refuses) is what fit uses (known_shared_refuted). An array of any kind given as pixel_list is shared too, and after a change disagrees with the table behind pix_to_rawpix (pixels_shared_refuted). The coefficients and lists that fit returns are the stored ones (results_shared_refuted). What holds for every history: the peaks are private (peaks_private), known pairs given as lists or integer arrays stay (known_private_partial), manual_refit copies its lists (refit_private_partial), and the lists made by adding or removing a pair are private (edited_private)."
  },
  {
   "property": "C146",
   "status": "proved",
   "theorems": [
    "saved_npy_kept",
    "saved_json_kept",
    "load_only_transform"
   ],
   "note": "For names without the suffix; names ending in .npy are refuted in C33. From json the points come back as a list (C34)."
  },
  {
   "property": "C147",
   "status": "partial",
   "theorems": [
    "fit_peak_order",
    "session_peak_order",
    "fit_peak_order_poly_refuted",
    "fit_line_order_refuted"
   ],
   "note": "REFUTED: with linear=False each peak is compared only with the line at the same position, so reversing the peaks can turn a full fit into an AssertionError (fit_peak_order_poly_refuted). Likewise the order of the atlas lines can change the result even with linear=True (fit_line_order_refuted). Proved in full for the default linear=True: fit_peak_order after any configuring history, session_peak_order for whole sessions without match_peaks and plot_fit."
  },
  {
   "property": "C148",
   "status": "proved",
   "theorems": [
    "constructor_lines"
   ],
   "note": "Any ordered numbers, including IEEE doubles; no NaN in the catalogue."
  },
  {
   "property": "C149",
   "status": "partial",
   "theorems": [
    "atlas_distance_partial",
    "atlas_distance_refuted"
   ],
   "note": "REFUTED: the constructor always asks for the 1000 brightest lines, so lines are compared in order of brightness only, and lines of different elements are never compared. Holds for the lines that one call of Atlas.add without brightest_n_lines adds for one element (exact reals, vacuum)."
  },
  {
   "property": "C150",
   "status": "proved",
   "theorems": [
    "synthetic_model_history",
    "set_model_exact"
   ],
   "note": "The value of the model is over exact reals."
  },
  {
   "property": "C151",
   "status": "partial",
   "theorems": [
    "whole_candidates_partial",
    "whole_candidates_refuted",
    "whole_votes_refuted"
   ],
   "note": "REFUTED: the totals go into an array with the type of the wavelengths, so whole-number wavelengths cut the decimals off. When every total is below one the weights have no influence (for all such lists), and the worse wavelength can be kept. Proved: without weights, or with whole totals, the result is that for floats. Totals over exact reals."
  },
  {
   "property": "C152",
   "status": "proved",
   "theorems": [
    "list_tells_lines",
    "list_after_user",
    "list_atlas_mirror"
   ],
   "note": "str() of a number is an argument of the model."
  },
  {
   "property": "C153",
   "status": "partial",
   "theorems": [
    "synth_kept_partial",
    "synth_model_kept_partial",
    "synth_shared_refuted",
    "synth_append_refuted"
   ],
   "note": "REFUTED: the list itself is kept, so every change of it is a change of the model (for every list and change), and appending a number replaces the constant term instead of raising the degree. Holds while the caller leaves that list alone, whatever it does to others."
  },
  {
   "property": "C154",
   "status": "partial",
   "theorems": [
    "save_delimiter_partial",
    "calibrator_delimiter",
    "save_delimiter_refuted"
   ],
   "note": "REFUTED for delimiters that occur in the names: with \"n\" nothing is written and nothing raised. An empty delimiter raises ValueError and writes nothing. Proved for every delimiter whose first character is in none of the names."
  },
  {
   "property": "C155",
   "status": "partial",
   "theorems": [
    "whole_refine_partial",
    "whole_refine_refuted"
   ],
   "note": "REFUTED: the sums are written into an integer array, so their decimals are cut off: corrections in [0,1) of coefficients that are not negative are lost, and the minimised function does not tell them apart. Holds up to cutting the decimals off, and without refine or with robust_refit the result is that for floats."
  },
  {
   "property": "C156",
   "status": "partial",
   "theorems": [
    "peak_marks_partial",
    "peak_marks_drawn_partial",
    "peak_marks_refuted",
    "peak_rounding_refuted"
   ],
   "note": "REFUTED in binary64: with pixels in steps of 49 the peak at pixel 49 is drawn at the height of pixel 0. Also (exact reals) a peak one step beyond the last pixel makes plot_fit raise and one before the first pixel takes a sample from the other end. Holds over exact reals for all pixels of the list, and between pixels of an increasing one."
  },
  {
   "property": "C157",
   "status": "partial",
   "theorems": [
    "fit_labels_partial",
    "fit_labels_refuted"
   ],
   "note": "REFUTED: a matched wavelength that is not in the atlas (added by hand, or the atlas was changed) gets the label of another line, and plotly writes no labels. Holds with matplotlib if the atlas has the matched wavelengths."
  },
  {
   "property": "C158",
   "status": "partial",
   "theorems": [
    "log_curve_partial",
    "log_curve_refuted"
   ],
   "note": "REFUTED for plot_fit with plotly: the logarithms are drawn on a logarithmic axis, so no positive sample is at the height of its logarithm. Holds with matplotlib, without log_spectrum, and for plot_arc."
  },
  {
   "property": "C159",
   "status": "partial",
   "theorems": [
    "fit_ranges_partial",
    "arc_ranges_partial",
    "ranges_refuted"
   ],
   "note": "REFUTED: negative wavelengths, the zero line of one-sided residuals (plotly), the peaks of plot_arc with log_spectrum (plotly), samples below a hundredth of the largest (matplotlib, log_spectrum) and pixel lists given to plot_arc can be outside. Holds for increasing solutions without negative wavelengths, all residuals, and plot_arc with default pixels."
  },
  {
   "property": "C160",
   "status": "proved",
   "theorems": [
    "match_order"
   ],
   "note": "Over exact reals; in binary64 the sums may differ in the last bits. The fitting routines (polyfit, least_squares) are assumed not to look at the order of the points."
  },
  {
   "property": "C161",
   "status": "partial",
   "theorems": [
    "save_kinds_partial",
    "save_kinds_refuted"
   ],
   "note": "REFUTED: if both are integers and one a numpy integer (np.int64(3000) with the default tolerance 500), saving as json raises TypeError and leaves a file that cannot be loaded, whatever was there before. In all other cases saving does what it does for floats."
  },
  {
   "property": "C162",
   "status": "partial",
   "theorems": [
    "interrupted_save_partial",
    "interrupted_save_refuted"
   ],
   "note": "REFUTED: the file is opened for writing in place, so from the first step on the earlier save of that name is gone; and between the formats the two files belong to different transforms. Holds: other files are untouched, and any later load gives the old result, the complete new one, or raises and changes nothing."
  },
  {
   "property": "C163",
   "status": "partial",
   "theorems": [
    "interrupted_fit_partial",
    "interrupted_fit_retry_partial",
    "points_before_lines",
    "interrupted_fit_refuted"
   ],
   "note": "REFUTED: without fit_coeff the first assignments discard the earlier coefficients while the matched pairs and the rms of the earlier solution stay; during the search matched_peaks and matched_atlas can belong to different solutions and have different lengths; and after an interrupted brute-force search sample_size is changed, so that fitting again can give another answer. Holds: what the user supplied and the other settings are unchanged at every moment; rms, residuals and utilisations change only together with the coefficients and pairs of the answer about to be returned; fitting again gives the same answer whenever the interruption came before the search or sample_size was not replaced."
  },
  {
   "property": "C164",
   "status": "partial",
   "theorems": [
    "assign_steps_are_the_calls",
    "interrupted_calls_retry_partial",
    "interrupted_calls_repair",
    "interrupted_calls_refuted"
   ],
   "note": "REFUTED: add_pix_wave_pair and remove_pix_wave_pair interrupted between their two assignments leave lists of different lengths which no history of further edits brings together, and manual_refit then raises unless given both lists; match_peaks interrupted leaves the new peaks with matched_atlas None; manual_refit interrupted leaves the new coefficients with the earlier pairs, residuals and rms. Holds: everything but the solution is unchanged; match_peaks repeated with coefficients and manual_refit repeated with a degree or x0 leave the calibrator and answer as if never interrupted (without these, as long as the new coefficients were not stored yet); match_peaks with coefficients repairs the pairs after any of the interruptions."
  },
  {
   "property": "C165",
   "status": "partial",
   "theorems": [
    "setting_steps_are_the_calls",
    "interrupted_setting_retry",
    "interrupted_setting_refuted",
    "interrupted_atlas_add_refuted"
   ],
   "note": "REFUTED: an interrupted set_hough_properties leaves a new wavelength range with the slope and intercept limits of the earlier one, set_atlas the new atlas with the earlier pairs, set_known_pairs the new pixels with the earlier wavelengths, set_calibrator_properties both plotting libraries switched on; and adding lines to an atlas again after an interruption leaves the lines added before it there twice. Holds: for each of the five setters, wherever it is interrupted, repeating the call gives exactly the state and answer of the uninterrupted call. The moment between pix_known and wave_known when there were no known pairs before is not represented."
  },
  {
   "property": "C166",
   "status": "partial",
   "theorems": [
    "log_once",
    "log_level_last",
    "log_level_kept_partial",
    "log_level_kept_refuted",
    "log_level_rejected",
    "log_level_names"
   ],
   "note": "REFUTED: creating another calibrator, or calling set_calibrator_properties on the same one again without log_level, puts the level back to warning (the documented default is info), and a level chosen for one calibrator applies to all with the default logger name. Holds for every history: no message is written twice (unless the program adds handlers of its own), a message is written exactly once if the level last asked for under the logger's name allows it; a calibrator with a logger name of its own keeps its level as long as nobody else names that logger and it is not configured again; a level is accepted exactly when it is the name of one of python's levels in any case; an unknown one raises ValueError after the logger was replaced. Logger names without dots."
  },
  {
   "property": "C167",
   "status": "partial",
   "theorems": [
    "seed_reproducible",
    "seed_next_fit_partial",
    "seed_own_refuted"
   ],
   "note": "REFUTED: the seed is not the calibrator's own: seeding another calibrator afterwards takes its place, and fitting another calibrator or drawing numbers in between changes the result (three matched peaks or five). Holds: a program that seeds before anything is drawn returns the same from all its fits and ends in the same state whatever the generator was used for before; and the first fit after the seeding, of any calibrator, is determined by k and that calibrator. The state of the generator after a fit is an arbitrary function of the state before, the calibrator and the arguments."
  }
 ]
}
{"id": "C01", "title": "Wavelength filter is sorted, bounded, duplicate-free and complete", "statement": "filter_wavelengths(lines, lo, hi) returns rows of the input in strictly increasing wavelength, all with lo <= wavelength <= hi (inclusive); every input wavelength in that interval is represented; of several rows with equal wavelength only the earliest one is returned.", "quantifier": "every finite list of lines whose wavelengths are not NaN, and every pair of limits", "why_tests_cant": "holds for all list lengths, orders and duplicate patterns; tests sample a few lists", "anchors": ["src/rascal/util.py:filter_wavelengths"]}
{"id": "C02", "title": "Separation filter keeps exactly the lines far from both neighbours", "statement": "On a list of wavelengths in non-decreasing order filter_separation(w, s) marks line i True exactly when its distance to each existing neighbour is at least s, and any two distinct lines that are marked True are at least s apart.", "quantifier": "every non-decreasing list of at least two wavelengths, every separation", "why_tests_cant": "pairwise claim over lists of any length", "anchors": ["src/rascal/util.py:filter_separation"]}
{"id": "C03", "title": "Intensity filter applies each element's own threshold", "statement": "filter_intensity(elements, lines, thr) marks a line True exactly when its intensity is >= the threshold of that line's own element: 0 for thr None, thr itself for a scalar, thr[k] for a list of the same length as elements (k = last position of the element). A list of another length raises AssertionError, a non-number ValueError, and a line whose element is not in elements KeyError.", "quantifier": "every element list, line list and threshold argument", "why_tests_cant": "all combinations of lists, thresholds and duplicates", "anchors": ["src/rascal/util.py:filter_intensity"]}
{"id": "C04", "title": "Loaded lines satisfy every requested filter (no brightest-n cut)", "statement": "With brightest_n_lines=None a successful load_calibration_lines returns exactly those catalogue lines whose element was requested, whose vacuum wavelength is inside the (converted) limits, whose intensity reaches the threshold and, if min_distance > 0, whose neighbours among those are at least min_distance away, in increasing wavelength, one (the earliest) row per distinct wavelength, pairwise at least min_distance apart in vacuum wavelength; it succeeds unless min_distance > 0 and nothing was selected or a list of thresholds has the wrong length. (A selection of a single line is the subject of C07.)", "quantifier": "every catalogue, element list, limits, thresholds, and min_distance", "why_tests_cant": "quantifies over all catalogues and argument combinations", "anchors": ["src/rascal/util.py:load_calibration_lines"]}
{"id": "C05", "title": "brightest_n_lines keeps the n brightest", "statement": "With brightest_n_lines=n and min_distance <= 0 load_calibration_lines returns min(n, available) lines, and every line that passed the other filters but was left out is no brighter than every line returned.", "quantifier": "every catalogue, every n, every tie-breaking the (unstable) sort may choose", "why_tests_cant": "the sort used is not stable: the claim is over every permitted permutation", "anchors": ["src/rascal/util.py:load_calibration_lines"]}
{"id": "C06", "title": "min_distance is respected when brightest_n_lines is given", "statement": "Whatever brightest_n_lines is (Atlas.add always passes 1000 by default), any two lines returned by load_calibration_lines are at least min_distance apart.", "quantifier": "every catalogue and argument combination", "why_tests_cant": "fails only for particular interleavings of intensity and wavelength order, which the tests never contain", "anchors": ["src/rascal/util.py:load_calibration_lines", "src/rascal/atlas.py:Atlas.add"]}
{"id": "C07", "title": "An isolated line is returned and an empty selection is handled", "statement": "If exactly one catalogue line passes the element, range and intensity filters it is returned whatever min_distance is; if none passes, an empty result is returned.", "quantifier": "every catalogue and argument combination", "why_tests_cant": "depends on the content of the catalogue at the limits", "anchors": ["src/rascal/util.py:filter_separation", "src/rascal/util.py:load_calibration_lines"]}
{"id": "C08", "title": "Air wavelengths are shorter than vacuum ones and keep order", "statement": "For pressure P > 0, temperature t in [0,60] C and humidity 0, vacuum_to_air strictly shortens every wavelength above 2000 Angstrom, air_to_vacuum strictly lengthens it, and vacuum_to_air preserves strict order.", "quantifier": "every real wavelength above the bound, every pressure up to 120 kPa and temperature in range", "why_tests_cant": "continuum of inputs", "anchors": ["src/rascal/util.py:edlen_refraction", "src/rascal/util.py:vacuum_to_air_wavelength", "src/rascal/util.py:air_to_vacuum_wavelength"]}
{"id": "C09", "title": "Air/vacuum conversions invert each other closely", "statement": "air_to_vacuum followed by vacuum_to_air under the same dry conditions changes a wavelength above 2000 Angstrom by less than one part in 10^6 but in general not by zero; the two functions multiply and divide by the same refractive index function, each evaluated at its own argument.", "quantifier": "every real wavelength above the bound, pressure up to 120 kPa, temperature in [0,60] C", "why_tests_cant": "continuum of inputs", "anchors": ["src/rascal/util.py:vacuum_to_air_wavelength", "src/rascal/util.py:air_to_vacuum_wavelength"]}
{"id": "C10", "title": "No atmosphere means no correction", "statement": "With pressure 0 and relative humidity 0 vacuum_to_air and air_to_vacuum return every wavelength unchanged, for any temperature from 0.15 K to 673.15 K.", "quantifier": "every wavelength and temperature", "why_tests_cant": "continuum of inputs", "anchors": ["src/rascal/util.py:edlen_refraction", "src/rascal/util.py:vacuum_to_air_wavelength", "src/rascal/util.py:air_to_vacuum_wavelength"]}
{"id": "C11", "title": "Conversions act element by element and keep length and order of positions", "statement": "vacuum_to_air and air_to_vacuum of a list give a list of the same length whose k-th entry depends only on the k-th input.", "quantifier": "every list", "why_tests_cant": "lists of any length", "anchors": ["src/rascal/util.py:vacuum_to_air_wavelength", "src/rascal/util.py:air_to_vacuum_wavelength"]}
{"id": "C12", "title": "Gaussian weight is bounded, peaked and symmetric", "statement": "gauss(x, a, x0, sigma) with a >= 0 lies in [0, a], equals a at x = x0, is symmetric about x0 and non-increasing in |x - x0|; hence candidate weights lie in (0,1].", "quantifier": "every real x, x0, sigma, a >= 0", "why_tests_cant": "continuum of inputs", "anchors": ["src/rascal/util.py:gauss", "src/rascal/calibrator.py:Calibrator._get_candidate_points_linear"]}
{"id": "C13", "title": "refine_peaks output is inside the spectrum and comes from the fits", "statement": "refine_peaks returns positions strictly between 0 and the length of the spectrum, each one the fitted centre of some input peak plus (peak - window_width), in the order of the input peaks, never more than there are peaks.", "quantifier": "every spectrum, peak list, window width and every behaviour of the curve fitter (including failures)", "why_tests_cant": "the fitter is an external optimiser that may return anything", "anchors": ["src/rascal/util.py:refine_peaks"]}
{"id": "C14", "title": "refine_peaks locates the fitted centre correctly", "statement": "If the fitter returns centre c for the window cut out around a peak, the refined location is (index of the first sample of that window) + c.", "quantifier": "every spectrum, peak (integer or not) and window width", "why_tests_cant": "wrong only when the window is cut at the left edge or the peak is fractional", "anchors": ["src/rascal/util.py:refine_peaks"]}
{"id": "C15", "title": "refine_peaks treats peaks independently", "statement": "The refined location of a peak depends only on the spectrum and that peak, not on which other peaks are in the list.", "quantifier": "every spectrum and every two peak lists sharing a peak", "why_tests_cant": "needs overlapping windows of different heights", "anchors": ["src/rascal/util.py:refine_peaks"]}
{"id": "C16", "title": "refine_peaks removes duplicates", "statement": "No two returned locations are equal (to the isclose tolerance).", "quantifier": "every list of peaks and fits", "why_tests_cant": "only adjacent duplicates are looked at", "anchors": ["src/rascal/util.py:refine_peaks"]}
{"id": "C17", "title": "derivative() differentiates a power series", "statement": "_derivative(p) returns the coefficients, lowest degree first, of the derivative of the polynomial with coefficients p, for every length.", "quantifier": "every coefficient list", "why_tests_cant": "every degree", "anchors": ["src/rascal/util.py:_derivative"]}
{"id": "C18", "title": "polynomial() evaluates highest-first coefficients and checks the degree", "statement": "polynomial(a, degree)(x) is sum a[i] * x^(degree-i) and raises AssertionError exactly when len(a) != degree+1.", "quantifier": "every coefficient list, degree and x", "why_tests_cant": "every degree", "anchors": ["src/rascal/models.py:polynomial"]}
{"id": "C19", "title": "robust_polyfit undoes its normalisation exactly", "statement": "The coefficients returned by robust_polyfit (lowest first) evaluate at x to y_scale * q(x / x_scale) where q is the polynomial the optimiser returned in normalised coordinates; so an optimiser that interpolates the normalised data yields a polynomial that interpolates the data.", "quantifier": "every data set with non-zero scales, degree, and optimiser result", "why_tests_cant": "all degrees and all optimiser outputs", "anchors": ["src/rascal/models.py:robust_polyfit", "src/rascal/models.py:normalise_input"]}
{"id": "C20", "title": "robust_polyfit starts from the supplied solution", "statement": "When initial coefficients p_init are given, the optimiser's starting point describes (in normalised coordinates) the same polynomial as p_init.", "quantifier": "every data set and p_init", "why_tests_cant": "the optimiser hides a wrong starting point on easy data", "anchors": ["src/rascal/models.py:robust_polyfit"]}
{"id": "C21", "title": "Each basis is evaluated as documented", "statement": "polyval, legval and chebval (as selected by fit_type poly / legendre / chebyshev) of coefficients c at x equal sum c_i x^i, sum c_i P_i(x) and sum c_i T_i(x) for the Legendre and Chebyshev polynomials defined by their three-term recurrences.", "quantifier": "every coefficient list and x", "why_tests_cant": "every degree", "anchors": ["src/rascal/calibrator.py:Calibrator.fit", "src/rascal/calibrator.py:Calibrator._solve_candidate_ransac"]}
{"id": "C22", "title": "Fit coefficients are usable with the chosen fit_type", "statement": "The coefficients produced by the final robust refit, evaluated in the basis named by fit_type, are the polynomial that was fitted.", "quantifier": "every data set, degree and fit_type", "why_tests_cant": "only shows for non-power bases", "anchors": ["src/rascal/models.py:robust_polyfit", "src/rascal/calibrator.py:Calibrator._solve_candidate_ransac"]}
{"id": "C23", "title": "Synthetic wavelength limits always form an interval", "statement": "After any sequence of successful and failing set_wavelength_limit calls on a SyntheticSpectrum, min_wavelength < max_wavelength (both floats, not NaN), None keeps the previous value, and a failing call changes nothing.", "quantifier": "every history of calls", "why_tests_cant": "unbounded histories", "anchors": ["src/rascal/synthetic.py:SyntheticSpectrum.set_wavelength_limit", "src/rascal/synthetic.py:SyntheticSpectrum.__init__"]}
{"id": "C24", "title": "get_pixels returns aligned pixel/wavelength lists of the in-range lines", "statement": "get_pixels returns two lists of equal length; the wavelengths are exactly the input wavelengths strictly between the limits in input order; for a straight-line model with coefficients [c0, c1] the k-th pixel p satisfies c0 + c1*p = wavelength.", "quantifier": "every wavelength list, limits and coefficients with c1 != 0", "why_tests_cant": "lists of any length", "anchors": ["src/rascal/synthetic.py:SyntheticSpectrum.get_pixels"]}
{"id": "C25", "title": "get_pixels inverts the model that was set", "statement": "For every model set with the constructor or set_model and every returned pair, model(pixel) = wavelength.", "quantifier": "every coefficient list and history of set_model calls", "why_tests_cant": "needs particular degrees and histories", "anchors": ["src/rascal/synthetic.py:SyntheticSpectrum.set_model", "src/rascal/synthetic.py:SyntheticSpectrum.get_pixels"]}
{"id": "C26", "title": "Hough constraints are set all-or-nothing", "statement": "set_constraints either raises and leaves all four limits as they were, or sets all four to the given values, which are then all finite.", "quantifier": "every argument combination and previous state", "why_tests_cant": "all float values including NaN", "anchors": ["src/rascal/houghtransform.py:HoughTransform.set_constraints"]}
{"id": "C27", "title": "Slope-sampled Hough points are exactly the in-range lines through the pairs", "statement": "generate_hough_points(x, y, n) produces one point (s, y_k - s*x_k) for each of n evenly spaced slopes from min_slope to max_slope and each pair, kept exactly when min_intercept <= intercept <= max_intercept, slope by slope; every point passes through its pair.", "quantifier": "every pair list, limits, n", "why_tests_cant": "lists and grid sizes of any length", "anchors": ["src/rascal/houghtransform.py:HoughTransform.generate_hough_points"]}
{"id": "C28", "title": "Brute-force Hough points are exactly the admissible lines through two pairs", "statement": "generate_hough_points_brute_force(x, y) returns, for each unordered pair of data points, the line through both when its slope and intercept are strictly inside the limits; lines through data points with equal x are never returned; nothing else is returned.", "quantifier": "every data set and limits", "why_tests_cant": "all subsets of size two of any list", "anchors": ["src/rascal/houghtransform.py:HoughTransform.generate_hough_points_brute_force"]}
{"id": "C29", "title": "add_hough_points only appends", "statement": "add_hough_points appends the given points after the existing ones, changes no existing point and, for an unsupported type, raises TypeError leaving the points unchanged; so after any history of adds the stored points are the concatenation of what was added.", "quantifier": "every history of adds", "why_tests_cant": "unbounded histories", "anchors": ["src/rascal/houghtransform.py:HoughTransform.add_hough_points"]}
{"id": "C30", "title": "Hough histogram conserves and correctly places counts", "statement": "bin_hough_points counts every Hough point in exactly one bin: bin (i,j) holds the number of points in its half-open cell (the last cell of each axis closed), and the bins sum to the number of points.", "quantifier": "every point set with finite coordinates, all bin numbers >= 1", "why_tests_cant": "all sizes", "anchors": ["src/rascal/houghtransform.py:HoughTransform.bin_hough_points"]}
{"id": "C31", "title": "Hough lines are all bin centres, most populated first", "statement": "After bin_hough_points(xbins, ybins) hough_lines has xbins*ybins entries, a permutation of all bin centres, in non-increasing order of bin count.", "quantifier": "every point set, every permitted result of the unstable argsort", "why_tests_cant": "unstable sort, all sizes", "anchors": ["src/rascal/houghtransform.py:HoughTransform.bin_hough_points"]}
{"id": "C32", "title": "Hough transform saved as npy is restored by load", "statement": "save(name, fileformat containing npy, to_disk) then load(name, 'npy') on any other HoughTransform restores points, histogram, edges and the four limits, for a name without the .npy ending; nothing else on disk is changed.", "quantifier": "every state, name and prior file system", "why_tests_cant": "all states and names", "anchors": ["src/rascal/houghtransform.py:HoughTransform.save", "src/rascal/houghtransform.py:HoughTransform.load"]}
{"id": "C33", "title": "Save/load round-trips whatever the file name", "statement": "save(name) followed by load(name) succeeds for every name.", "quantifier": "every name", "why_tests_cant": "depends on the ending of the name", "anchors": ["src/rascal/houghtransform.py:HoughTransform.save", "src/rascal/houghtransform.py:HoughTransform.load"]}
{"id": "C34", "title": "A loaded Hough transform is as usable as the saved one", "statement": "After save and load (npy or json) the transform can be binned again and offers the same hough_lines.", "quantifier": "every state and format", "why_tests_cant": "depends on the container type restored", "anchors": ["src/rascal/houghtransform.py:HoughTransform.load", "src/rascal/houghtransform.py:HoughTransform.bin_hough_points"]}
{"id": "C35", "title": "Atlas is an append-only list with aligned columns", "statement": "After any history of add_user_atlas (accepted or rejected), remove_atlas_lines_range and clear calls on an Atlas, get_lines, get_elements and get_intensities have the same length len(atlas) and list, in order of insertion since the last clear, exactly the wavelengths, elements and intensities supplied by accepted calls and not removed.", "quantifier": "every history of operations", "why_tests_cant": "unbounded histories", "anchors": ["src/rascal/atlas.py:Atlas.add_user_atlas", "src/rascal/atlas.py:Atlas.get_lines", "src/rascal/atlas.py:Atlas.get_elements", "src/rascal/atlas.py:Atlas.get_intensities", "src/rascal/atlas.py:Atlas.clear", "src/rascal/atlas.py:Atlas.__len__"]}
{"id": "C36", "title": "add_user_atlas is validated and atomic", "statement": "add_user_atlas raises if elements, wavelengths or (given) intensities differ in length, are not sequences or are empty, and then leaves lines and the recorded wavelength range unchanged; otherwise it appends every line.", "quantifier": "every argument combination and atlas state", "why_tests_cant": "all argument lengths", "anchors": ["src/rascal/atlas.py:Atlas.add_user_atlas"]}
{"id": "C37", "title": "Removing a wavelength range never touches other lines", "statement": "remove_atlas_lines_range(w, tol) removes only lines with |wavelength - w| < tol, keeps all others in their order, and removes every second line of each run of consecutive in-range lines (the first, third, ...); so it removes all in-range lines when no two are adjacent in the list, and repeating it often enough removes them all.", "quantifier": "every atlas content and range", "why_tests_cant": "depends on adjacency patterns of any length", "anchors": ["src/rascal/atlas.py:Atlas.remove_atlas_lines_range", "src/rascal/calibrator.py:Calibrator.remove_atlas_lines_range"]}
{"id": "C38", "title": "After removing a range no line in it remains", "statement": "After remove_atlas_lines_range(w, tol) no line with |wavelength - w| < tol is left.", "quantifier": "every atlas content and range", "why_tests_cant": "fails only with adjacent in-range lines", "anchors": ["src/rascal/atlas.py:Atlas.remove_atlas_lines_range"]}
{"id": "C39", "title": "Recorded atlas range covers all lines", "statement": "After any history of add_user_atlas calls, min_atlas_wavelength <= every line <= max_atlas_wavelength.", "quantifier": "every history", "why_tests_cant": "needs at least two calls", "anchors": ["src/rascal/atlas.py:Atlas.add_user_atlas"]}
{"id": "C40", "title": "Atlas.add applies the range tolerance", "statement": "Lines loaded by Atlas(elements, min_atlas_wavelength, max_atlas_wavelength, range_tolerance) include catalogue lines up to range_tolerance outside the limits, as they do for Atlas.add with default limits.", "quantifier": "every catalogue and tolerance", "why_tests_cant": "needs catalogue lines inside the tolerance margin", "anchors": ["src/rascal/atlas.py:Atlas.__init__", "src/rascal/atlas.py:Atlas.add"]}
{"id": "C41", "title": "Atlas.add is all-or-nothing", "statement": "If Atlas.add raises, the atlas is unchanged.", "quantifier": "every element list and catalogue", "why_tests_cant": "depends on which element has no lines", "anchors": ["src/rascal/atlas.py:Atlas.add"]}
{"id": "C42", "title": "Unset properties are kept, set properties take effect", "statement": "For every history of set_hough_properties and set_ransac_properties calls that do not raise, each property has the value of the last non-None argument given for it, or the documented default if none was given.", "quantifier": "every history of calls", "why_tests_cant": "unbounded histories", "anchors": ["src/rascal/calibrator.py:Calibrator.set_hough_properties", "src/rascal/calibrator.py:Calibrator.set_ransac_properties"]}
{"id": "C43", "title": "RANSAC properties stay valid", "statement": "After any history of set_ransac_properties calls, including calls that raise, minimum_matches is 0 (never set) or positive, 0 <= minimum_peak_utilisation <= 1 and minimum_fit_error >= 0.", "quantifier": "every history of calls", "why_tests_cant": "unbounded histories including failures", "anchors": ["src/rascal/calibrator.py:Calibrator.set_ransac_properties"]}
{"id": "C44", "title": "A rejected property call changes nothing", "statement": "If set_ransac_properties raises, no property has changed.", "quantifier": "every argument combination and state", "why_tests_cant": "argument order dependent", "anchors": ["src/rascal/calibrator.py:Calibrator.set_ransac_properties"]}
{"id": "C45", "title": "Slope limits bracket every admissible straight-line solution", "statement": "After set_hough_properties, for every straight wavelength solution that starts within range_tolerance of min_wavelength at the first pixel and ends within range_tolerance of max_wavelength at the last pixel, min_slope <= slope <= max_slope.", "quantifier": "every wavelength range, tolerances and pixel list", "why_tests_cant": "continuum of parameters", "anchors": ["src/rascal/calibrator.py:Calibrator.set_hough_properties"]}
{"id": "C46", "title": "Slope and intercept limits are consistent", "statement": "After set_hough_properties with range_tolerance > 0, linearity_tolerance > 0 and a pixel list with at least two distinct pixels, min_slope < max_slope and min_intercept < max_intercept, so the Hough transform accepts them.", "quantifier": "every parameter set", "why_tests_cant": "continuum of parameters", "anchors": ["src/rascal/calibrator.py:Calibrator.set_hough_properties", "src/rascal/houghtransform.py:HoughTransform.set_constraints"]}
{"id": "C47", "title": "Detector geometry given later is used", "statement": "set_calibrator_properties(num_pix=n) after construction makes the calibrator use pixels 0..n-1, and a following set_hough_properties uses them for the slope limits.", "quantifier": "every n and history", "why_tests_cant": "needs a particular call order", "anchors": ["src/rascal/calibrator.py:Calibrator.set_calibrator_properties", "src/rascal/calibrator.py:Calibrator.set_hough_properties"]}
{"id": "C48", "title": "Exactly one plotting library is selected", "statement": "After any history of calls, at most one of matplotlib and plotly is selected, and exactly one once a known library has been chosen; an unknown name leaves the selection.", "quantifier": "every history", "why_tests_cant": "unbounded histories", "anchors": ["src/rascal/calibrator.py:Calibrator.use_matplotlib", "src/rascal/calibrator.py:Calibrator.use_plotly", "src/rascal/calibrator.py:Calibrator.set_calibrator_properties", "src/rascal/calibrator.py:Calibrator.which_plotting_library"]}
{"id": "C49", "title": "use_plotly() is permanent", "statement": "After use_plotly() a call of set_calibrator_properties that does not mention the plotting library leaves plotly selected.", "quantifier": "every history", "why_tests_cant": "needs a particular call order", "anchors": ["src/rascal/calibrator.py:Calibrator.use_plotly", "src/rascal/calibrator.py:Calibrator.set_calibrator_properties"]}
{"id": "C50", "title": "Known pairs are validated before use", "statement": "set_known_pairs stores equally long lists of numbers none of which is NaN, or raises and leaves the stored pairs unchanged, over any history of calls.", "quantifier": "every argument and history", "why_tests_cant": "unbounded histories", "anchors": ["src/rascal/calibrator.py:Calibrator.set_known_pairs"]}
{"id": "C51", "title": "Pixel-wavelength pairs are the full product of peaks and atlas lines", "statement": "After set_atlas without constrain_poly, pairs contains every (peak, atlas line) combination exactly once in peak-major order, n_peaks * n_lines rows.", "quantifier": "every peak list and atlas", "why_tests_cant": "lists of any length", "anchors": ["src/rascal/calibrator.py:Calibrator._generate_pairs", "src/rascal/calibrator.py:Calibrator.set_atlas"]}
{"id": "C52", "title": "constrain_poly keeps exactly the pairs in the trapezoid", "statement": "With constrain_poly, pairs is the sub-sequence of the full product whose points the hull test places inside the polygon with corners (0, minW -/+ tolerance) and (max pixel, maxW -/+ tolerance).", "quantifier": "every peak list, atlas and parameter set", "why_tests_cant": "lists of any length", "anchors": ["src/rascal/calibrator.py:Calibrator._generate_pairs"]}
{"id": "C53", "title": "Pairs follow the atlas", "statement": "After any change of the atlas made through the calibrator (set_atlas, add_user_atlas, remove_atlas_lines_range, clear_atlas), the pairs used for fitting are those of the current atlas.", "quantifier": "every history", "why_tests_cant": "needs particular call orders", "anchors": ["src/rascal/calibrator.py:Calibrator.remove_atlas_lines_range", "src/rascal/calibrator.py:Calibrator.clear_atlas", "src/rascal/calibrator.py:Calibrator._generate_pairs"]}
{"id": "C54", "title": "The Hough lines used by fit belong to the current settings", "statement": "fit() uses Hough lines computed from the current pairs and limits (or loaded by the user), never stale ones.", "quantifier": "every history", "why_tests_cant": "needs particular call orders", "anchors": ["src/rascal/calibrator.py:Calibrator.fit", "src/rascal/calibrator.py:Calibrator.do_hough_transform", "src/rascal/calibrator.py:Calibrator.load_hough_transform"]}
{"id": "C55", "title": "Linear candidates are exactly the pairs near a Hough line", "statement": "_get_candidate_points_linear returns, for each Hough line, exactly the pairs (x,y) with |m x + c - y| <= tolerance, in pair order, each with a weight in (0,1].", "quantifier": "every pair list, tolerance and line set", "why_tests_cant": "all sizes", "anchors": ["src/rascal/calibrator.py:Calibrator._get_candidate_points_linear"]}
{"id": "C56", "title": "Candidate pruning returns genuine candidates", "statement": "_get_most_common_candidates returns, for each peak in increasing order, min(top_n, number of distinct wavelengths) pairs, each of which is one of the input candidates.", "quantifier": "every candidate list and top_n", "why_tests_cant": "all sizes", "anchors": ["src/rascal/calibrator.py:Calibrator._get_most_common_candidates"]}
{"id": "C57", "title": "Candidate pruning keeps the most common wavelengths", "statement": "The wavelengths returned for a peak by _get_most_common_candidates are distinct and no discarded wavelength was a candidate more often.", "quantifier": "every candidate list and top_n", "why_tests_cant": "depends on the order of candidates", "anchors": ["src/rascal/calibrator.py:Calibrator._get_most_common_candidates"]}
{"id": "C58", "title": "Matching is one-to-one and nearest", "statement": "_match_bijective pairs each peak with a candidate wavelength of that very peak that is nearest to the predicted wavelength; no peak and no wavelength is used twice; a wavelength claimed by several peaks goes to the one with least error; results are in increasing wavelength, equally long; every claimed wavelength is assigned.", "quantifier": "every candidate map, polynomial and peak list", "why_tests_cant": "all sizes and tie patterns", "anchors": ["src/rascal/calibrator.py:Calibrator._match_bijective"]}
{"id": "C59", "title": "An accepted RANSAC solution is a valid matching", "statement": "Whenever the RANSAC search returns a solution, its matched peaks and wavelengths are equally long, in one-to-one correspondence, each pair is one of the candidate pairs, and the inlier count equals their number.", "quantifier": "every candidate set, random sequence, polynomial fitter and number of tries", "why_tests_cant": "random schedules", "anchors": ["src/rascal/calibrator.py:Calibrator._solve_candidate_ransac"]}
{"id": "C60", "title": "An accepted RANSAC solution meets the user's quality limits", "statement": "Whenever the RANSAC search returns a solution, the number of matches exceeds the polynomial degree, is at least minimum_matches and at least minimum_peak_utilisation * len(peaks), its rms is at least minimum_fit_error and at most ransac_tolerance and every residual is at most ransac_tolerance.", "quantifier": "every candidate set, random sequence, fitter and number of tries", "why_tests_cant": "random schedules", "anchors": ["src/rascal/calibrator.py:Calibrator._solve_candidate_ransac"]}
{"id": "C61", "title": "RANSAC never trades a better solution for a worse one", "statement": "The best cost of the RANSAC search never increases from one try to the next, a solution is stored only if its cost is not above the best cost so far, and more tries never yield a solution with larger cost.", "quantifier": "every random sequence and number of tries", "why_tests_cant": "random schedules", "anchors": ["src/rascal/calibrator.py:Calibrator._solve_candidate_ransac"]}
{"id": "C62", "title": "max_tries bounds the work of fit", "statement": "fit(max_tries=n) draws at most n samples and brute_force=True terminates after trying every combination once.", "quantifier": "every candidate set and random sequence", "why_tests_cant": "non-termination cannot be observed by a test", "anchors": ["src/rascal/calibrator.py:Calibrator._solve_candidate_ransac"]}
{"id": "C63", "title": "Known pairs take part in every trial fit", "statement": "Every polynomial fitted to a sample during the RANSAC search is fitted to the drawn sample followed by all known pairs, in order; the final robust refit contains them too.", "quantifier": "every random sequence and known-pair list", "why_tests_cant": "random schedules", "anchors": ["src/rascal/calibrator.py:Calibrator._solve_candidate_ransac", "src/rascal/calibrator.py:Calibrator.set_known_pairs"]}
{"id": "C64", "title": "A supplied initial solution is never lost", "statement": "fit(fit_coeff=c) returns a solution at least as good as c, in particular c itself if nothing better is found.", "quantifier": "every data set and c", "why_tests_cant": "needs a search that finds nothing better", "anchors": ["src/rascal/calibrator.py:Calibrator.fit", "src/rascal/calibrator.py:Calibrator._solve_candidate_ransac"]}
{"id": "C65", "title": "Utilisation figures are fractions", "statement": "After a successful fit with pairs generated from the current atlas, the peak and atlas utilisation lie in [0,1] and equal matches/len(peaks) and matches/len(atlas).", "quantifier": "every data set and random sequence", "why_tests_cant": "random schedules", "anchors": ["src/rascal/calibrator.py:Calibrator.fit", "src/rascal/calibrator.py:Calibrator._match_bijective"]}
{"id": "C66", "title": "Every peak can be drawn", "statement": "The sampling probabilities used by fit are positive and sum to one, so that fit can draw peaks whatever their positions.", "quantifier": "every peak list", "why_tests_cant": "depends on peak positions relative to histogram edges", "anchors": ["src/rascal/calibrator.py:Calibrator._solve_candidate_ransac"]}
{"id": "C67", "title": "Hough density rewards likely fits", "statement": "With a non-zero hough_weight the bonus in the cost is the Hough histogram density at the (slope, intercept) of the trial fit.", "quantifier": "every histogram and trial fit", "why_tests_cant": "needs knowledge of the evaluation coordinates", "anchors": ["src/rascal/calibrator.py:Calibrator._solve_candidate_ransac"]}
{"id": "C68", "title": "sample_size is adjusted to be usable", "statement": "When fit starts sampling, sample_size > fit degree and sample_size <= min(len(peaks), len(atlas)).", "quantifier": "every parameter set", "why_tests_cant": "combination of caps", "anchors": ["src/rascal/calibrator.py:Calibrator.fit"]}
{"id": "C69", "title": "match_peaks returns only matches within tolerance", "statement": "When match_peaks(coeff, tolerance=t) succeeds, matched peaks, matched lines and residuals are equally long, each matched line is an atlas line strictly within t of the input fit at the matched peak, and the peaks are a sub-sequence of the calibrator's peaks.", "quantifier": "every atlas, peak list, coefficients", "why_tests_cant": "all sizes", "anchors": ["src/rascal/calibrator.py:Calibrator.match_peaks"]}
{"id": "C70", "title": "match_peaks is one-to-one", "statement": "match_peaks never assigns one atlas line to two peaks, and atlas_utilisation <= 1.", "quantifier": "every atlas, peak list, coefficients", "why_tests_cant": "needs close peaks", "anchors": ["src/rascal/calibrator.py:Calibrator.match_peaks"]}
{"id": "C71", "title": "match_peaks works for every flag combination and match multiplicity", "statement": "match_peaks succeeds for every combination of refine and robust_refit, when several lines match a peak, and when none matches.", "quantifier": "every flag combination and data", "why_tests_cant": "data dependent", "anchors": ["src/rascal/calibrator.py:Calibrator.match_peaks"]}
{"id": "C72", "title": "refine influences the result of match_peaks", "statement": "match_peaks(refine=True) matches peaks with the refined coefficients.", "quantifier": "every optimiser result", "why_tests_cant": "the optimiser result is discarded", "anchors": ["src/rascal/calibrator.py:Calibrator.match_peaks"]}
{"id": "C73", "title": "_adjust_polyfit is a pure cost", "statement": "_adjust_polyfit returns infinity or a non-negative number, is infinite when fewer than min_frac of the peaks match, when there is less than one degree of freedom or when the shifted fit is not increasing on the pixels, and never modifies the fit it is given.", "quantifier": "every delta, fit, tolerance", "why_tests_cant": "all sizes", "anchors": ["src/rascal/calibrator.py:Calibrator._adjust_polyfit"]}
{"id": "C74", "title": "Editing matched pairs keeps them aligned", "statement": "After any history of successful add_pix_wave_pair / remove_pix_wave_pair calls starting from aligned arrays, matched_peaks and matched_atlas have equal length and the multiset of pairs is the initial one plus added minus removed pairs; failing calls change nothing.", "quantifier": "every history", "why_tests_cant": "unbounded histories", "anchors": ["src/rascal/calibrator.py:Calibrator.add_pix_wave_pair", "src/rascal/calibrator.py:Calibrator.remove_pix_wave_pair"]}
{"id": "C75", "title": "add_pix_wave_pair keeps peaks in order and accepts every pixel", "statement": "add_pix_wave_pair(p, w) inserts the pair at its sorted position, for every p.", "quantifier": "every matched list and p", "why_tests_cant": "depends on where p falls", "anchors": ["src/rascal/calibrator.py:Calibrator.add_pix_wave_pair"]}
{"id": "C76", "title": "manual_refit validates before changing state", "statement": "manual_refit(peaks, lines, ...) with different lengths raises leaving all results unchanged; otherwise the stored residuals are line minus polynomial value for each pair and rms is the root of their mean square.", "quantifier": "every argument and state", "why_tests_cant": "all sizes", "anchors": ["src/rascal/calibrator.py:Calibrator.manual_refit"]}
{"id": "C77", "title": "plot_fit does not alter its inputs", "statement": "plot_fit(coeff, spectrum, log_spectrum) leaves the caller's spectrum array unchanged.", "quantifier": "every spectrum and flag", "why_tests_cant": "needs aliasing check", "anchors": ["src/rascal/plotting.py:plot_fit"]}
{"id": "C78", "title": "plot_fit shows the residuals of the fit it was given", "statement": "The residuals drawn for matched lines by plot_fit are matched wavelength minus fitted wavelength.", "quantifier": "every fit and atlas, both plotting libraries", "why_tests_cant": "images are not inspected by tests", "anchors": ["src/rascal/plotting.py:plot_fit"]}
{"id": "C79", "title": "Figures are saved exactly in the requested formats", "statement": "A call of plot_fit, plot_arc, plot_search_space or plot_calibration_lines with save_fig=True and fig_type f writes exactly one file per known format named in f (split at +), with the matching ending; unknown formats write nothing.", "quantifier": "every fig_type string", "why_tests_cant": "all strings", "anchors": ["src/rascal/plotting.py:plot_fit", "src/rascal/plotting.py:plot_arc", "src/rascal/plotting.py:plot_search_space", "src/rascal/plotting.py:plot_calibration_lines"]}
{"id": "C80", "title": "Merging candidates keeps the pairs", "statement": "_merge_candidates returns the given (peak, wavelength, weight) rows, sorted, each row unchanged.", "quantifier": "every candidate list", "why_tests_cant": "depends on relative size of columns", "anchors": ["src/rascal/calibrator.py:Calibrator._merge_candidates"]}
{"id": "C81", "title": "Humidity correction uses the vapour pressure of the given temperature", "statement": "For relative humidity 100 at 20 C the saturation vapour pressure entering the conversion is that of the NIST formula (about 2339 Pa).", "quantifier": "every temperature", "why_tests_cant": "a unit error that no test compares with the reference", "anchors": ["src/rascal/util.py:get_vapour_pressure", "src/rascal/util.py:vacuum_to_air_wavelength"]}
{"id": "C82", "title": "A single user line can be added with a str and a float", "statement": "add_user_atlas('Hg', 4358.3) adds one line labelled Hg, as its docstring says (elements: list/str, wavelengths: list/float).", "quantifier": "every element symbol and wavelength", "why_tests_cant": "depends on the length of the symbol", "anchors": ["src/rascal/atlas.py:Atlas.add_user_atlas"]}
{"id": "C83", "title": "Element symbols are case insensitive", "statement": "Atlas.add loads the same lines whatever the case of the element symbols.", "quantifier": "every catalogue and symbol", "why_tests_cant": "all spellings", "anchors": ["src/rascal/atlas.py:Atlas.add", "src/rascal/util.py:load_calibration_lines"]}
{"id": "C84", "title": "save_hough_transform returns the data on request", "statement": "save_hough_transform(to_disk=False) returns the Hough data, as documented.", "quantifier": "every calibrator and format", "why_tests_cant": "the method is only called with to_disk=True in tests", "anchors": ["src/rascal/calibrator.py:Calibrator.save_hough_transform", "src/rascal/houghtransform.py:HoughTransform.save"]}
{"id": "C85", "title": "Polynomial candidates work for any numbers of peaks and lines", "statement": "With linear=False and given coefficients, the candidate search succeeds for every number of peaks and atlas lines and returns the (peak, line) pairs closer than the tolerance.", "quantifier": "every peak list and atlas", "why_tests_cant": "all sizes", "anchors": ["src/rascal/calibrator.py:Calibrator._get_candidate_points_poly"]}
{"id": "C86", "title": "fit leaves the user's settings alone", "statement": "fit() does not change sample_size and minimum_matches set by the user, so that a second fit with a larger atlas uses the settings given.", "quantifier": "every state", "why_tests_cant": "needs sequences of fits", "anchors": ["src/rascal/calibrator.py:Calibrator.fit", "src/rascal/calibrator.py:Calibrator._solve_candidate_ransac"]}
{"id": "C87", "title": "A failed fit keeps the previous solution", "statement": "If fit() raises, the stored coefficients and matched pairs of the last successful fit are unchanged.", "quantifier": "every history with a failing fit", "why_tests_cant": "needs a failing fit after a successful one", "anchors": ["src/rascal/calibrator.py:Calibrator.fit"]}
{"id": "C88", "title": "Removing close lines leaves well separated candidates", "statement": "With filter_close, the candidate wavelengths used by the search are pairwise at least three ransac_tolerances apart, and a wavelength is kept exactly when the next larger candidate wavelength is at least that far away.", "quantifier": "every candidate list and tolerance", "why_tests_cant": "all configurations of wavelengths", "anchors": ["src/rascal/calibrator.py:Calibrator._solve_candidate_ransac"]}
{"id": "C89", "title": "Brute force tries every combination", "statement": "With brute_force the samples are exactly the sets of sample_size different candidate pairs, each tried once.", "quantifier": "every number of candidates and sample size", "why_tests_cant": "all sizes", "anchors": ["src/rascal/calibrator.py:Calibrator._solve_candidate_ransac"]}
{"id": "C90", "title": "A fit reports what was observed", "statement": "When fit() succeeds with pairs generated from the current atlas, the matched peaks are pairwise different peaks of the calibrator, the matched wavelengths are atlas lines in strictly increasing order, there are as many of one as of the other and more than the degree; with linear candidates every matched pair is an allowed (peak, line) pair lying within candidate_tolerance of a line found by the Hough transform.", "quantifier": "every data set, parameter set, random sequence and number of steps", "why_tests_cant": "needs every random sequence and data set", "anchors": ["src/rascal/calibrator.py:Calibrator.fit", "src/rascal/calibrator.py:Calibrator._get_candidate_points_linear"]}
{"id": "C91", "title": "fit returns what it stores", "statement": "After a successful fit() the calibrator's coefficients, matched peaks, matched lines, rms, residuals and utilisations are exactly the returned ones; peaks, spectrum, atlas, known pairs, pixel list and Hough properties are those before the call.", "quantifier": "every state and call", "why_tests_cant": "all states", "anchors": ["src/rascal/calibrator.py:Calibrator.fit"]}
{"id": "C92", "title": "Refitting data that lie on a polynomial leaves no residuals", "statement": "If the matched pairs given to manual_refit lie exactly on a polynomial of the requested degree and the optimiser finds it, the stored residuals are all zero, whatever the calibrator's fit type.", "quantifier": "every set of pairs, degree and fit type", "why_tests_cant": "all polynomials and fit types", "anchors": ["src/rascal/calibrator.py:Calibrator.manual_refit", "src/rascal/models.py:robust_polyfit"]}
{"id": "C93", "title": "A failing manual_refit changes nothing", "statement": "If manual_refit raises, the stored coefficients, matched pairs, residuals and rms are those before the call.", "quantifier": "every state and argument", "why_tests_cant": "needs every failing call in every state", "anchors": ["src/rascal/calibrator.py:Calibrator.manual_refit"]}
{"id": "C94", "title": "match_peaks reports the residuals of the solution it returns", "statement": "The residuals and rms returned by match_peaks are those of the returned coefficients at the returned matches.", "quantifier": "every flag combination, optimiser result and data", "why_tests_cant": "all optimiser results", "anchors": ["src/rascal/calibrator.py:Calibrator.match_peaks"]}
{"id": "C95", "title": "Asking for the JSON of a figure displays nothing", "statement": "plot_fit and plot_arc with return_jsonstring=True return the JSON (with plotly) and display nothing, as documented.", "quantifier": "every state and argument", "why_tests_cant": "needs a display", "anchors": ["src/rascal/plotting.py:plot_fit", "src/rascal/plotting.py:plot_arc"]}
{"id": "C96", "title": "A figure is saved under the name given", "statement": "With save_fig and a filename that has an extension the figure is written to that file; the extension is defaulted to png only if it is missing.", "quantifier": "every filename and fig_type", "why_tests_cant": "all names", "anchors": ["src/rascal/plotting.py:plot_fit", "src/rascal/plotting.py:plot_arc"]}
{"id": "C97", "title": "plot_arc works for every calibrator", "statement": "plot_arc() succeeds for every constructed calibrator, with or without a spectrum, and draws the spectrum divided by its maximum, one point per pixel.", "quantifier": "every calibrator, spectrum and library", "why_tests_cant": "all spectra and histories", "anchors": ["src/rascal/plotting.py:plot_arc"]}
{"id": "C98", "title": "The drawn search region bounds the pairs", "statement": "With constrain_poly, every (peak, line) pair kept lies on the detector and within candidate_tolerance of the band that plot_search_space draws around the line from (0, min_wavelength) to (last pixel, max_wavelength).", "quantifier": "every history, atlas, tolerance and pixel list", "why_tests_cant": "all geometries", "anchors": ["src/rascal/calibrator.py:Calibrator._generate_pairs", "src/rascal/plotting.py:plot_search_space"]}
{"id": "C99", "title": "plot_search_space draws the pairs it names", "statement": "plot_search_space draws under 'All pairs' the (peak, wavelength) pairs, under 'Candidate Pairs' the candidates of the fit as (peak, wavelength), under 'Best Candidate Pairs' some of these, and under 'Solution' the polynomial at the peaks; before the first fit it raises.", "quantifier": "every calibrator, candidate list, coefficients and library", "why_tests_cant": "all candidate sets", "anchors": ["src/rascal/plotting.py:plot_search_space", "src/rascal/calibrator.py:Calibrator._merge_candidates"]}
{"id": "C100", "title": "The simulated arc spectrum has each line's intensity at its wavelength", "statement": "In the spectrum that plot_calibration_lines simulates (before smoothing), the value at each grid wavelength is the sum of the intensities of the loaded lines that round to it.", "quantifier": "every line list, element list, wavelength range and brightest_n_lines", "why_tests_cant": "all line lists", "anchors": ["src/rascal/plotting.py:plot_calibration_lines"]}
{"id": "C101", "title": "plot_calibration_lines labels the bright, separated lines", "statement": "min_intensity and min_distance of plot_calibration_lines only affect the labels: the spectrum is always drawn, and the labelled lines are the loaded lines that reach min_intensity and keep min_distance from their neighbours among these.", "quantifier": "every line list, thresholds and distances", "why_tests_cant": "all line lists and thresholds", "anchors": ["src/rascal/plotting.py:plot_calibration_lines", "src/rascal/util.py:filter_intensity", "src/rascal/util.py:filter_separation"]}
{"id": "C102", "title": "The order of the elements does not matter", "statement": "load_calibration_lines returns the same lines whatever the order in which the elements are given and however often each is repeated, if the intensity threshold is a number; with a list of thresholds, elements and thresholds may be permuted together.", "quantifier": "every line list, element list, thresholds and other arguments", "why_tests_cant": "all permutations of all element lists", "anchors": ["src/rascal/util.py:load_calibration_lines", "src/rascal/util.py:filter_intensity"]}
{"id": "C103", "title": "Stricter arguments never add lines", "statement": "Without brightest_n_lines, raising min_distance, or without min_distance narrowing the range (vacuum) or raising the threshold, only leaves lines out: what is returned is a sub-sequence of what was returned before.", "quantifier": "every line list and every two argument tuples ordered that way", "why_tests_cant": "ranges over pairs of calls on all line lists", "anchors": ["src/rascal/util.py:load_calibration_lines"]}
{"id": "C104", "title": "Raising the threshold never adds lines", "statement": "Raising min_intensity, all other arguments of load_calibration_lines equal, never brings in a line that was not returned before.", "quantifier": "every line list and all other arguments", "why_tests_cant": "ranges over pairs of calls on all line lists", "anchors": ["src/rascal/util.py:load_calibration_lines", "src/rascal/util.py:filter_separation"]}
{"id": "C105", "title": "A line with many pairs gets many votes", "statement": "After do_hough_transform, a line of one of the tried slopes with an intercept between the limits lies in a bin with at least as many votes as there are pairs on it; the first Hough line is the centre of a bin with at least as many; and if no other bin has as many votes, the first Hough line is that line up to half a bin in slope and intercept.", "quantifier": "every set of pairs, limits, number of slopes and bins", "why_tests_cant": "all point sets and lines", "anchors": ["src/rascal/calibrator.py:Calibrator.do_hough_transform", "src/rascal/houghtransform.py:HoughTransform.bin_hough_points"]}
{"id": "C106", "title": "The pairs on the dominant line are candidates", "statement": "If the bin of a line of a tried slope has strictly most votes and half a bin times the pixel plus half a bin of intercept is within the tolerance, every pair on that line is among the linear candidates of the first Hough line.", "quantifier": "every set of pairs, limits, bins and tolerance", "why_tests_cant": "all point sets and lines", "anchors": ["src/rascal/calibrator.py:Calibrator.do_hough_transform", "src/rascal/calibrator.py:Calibrator._get_candidate_points_linear"]}
{"id": "C107", "title": "Lines between the tried slopes are approximated", "statement": "For a line with any slope between the limits there is a tried slope within half a step, and every pair on the line votes for a line of that slope with an intercept off by at most half a step times its pixel.", "quantifier": "every line, pairs, limits and number of slopes", "why_tests_cant": "a continuum of lines", "anchors": ["src/rascal/calibrator.py:Calibrator.do_hough_transform", "src/rascal/houghtransform.py:HoughTransform.generate_hough_points"]}
{"id": "C108", "title": "The listing of matched pairs gives the positions to remove", "statement": "get_pix_wave_pairs lists the matched pairs as (position, pixel, wavelength) numbered from 0; remove_pix_wave_pair with a listed position, or with it counted from the end as a negative number, removes exactly that pair; with any other position it raises IndexError and changes nothing.", "quantifier": "every calibrator with matched pairs and every position", "why_tests_cant": "all list lengths and positions", "anchors": ["src/rascal/calibrator.py:Calibrator.get_pix_wave_pairs", "src/rascal/calibrator.py:Calibrator.remove_pix_wave_pair"]}
{"id": "C109", "title": "Removing undoes adding", "statement": "After a successful add_pix_wave_pair the new pair is listed, and removing it at its listed position restores the list of pairs and leaves everything else of the calibrator as it was before.", "quantifier": "every calibrator and pair", "why_tests_cant": "all list contents", "anchors": ["src/rascal/calibrator.py:Calibrator.add_pix_wave_pair", "src/rascal/calibrator.py:Calibrator.remove_pix_wave_pair"]}
{"id": "C110", "title": "Data that lie exactly on a polynomial are fitted by it", "statement": "If every candidate pair found by fit lies on one polynomial of the requested degree that the settings admit, and the numerical fitters find a polynomial through such points, fit returns exactly that polynomial, matches every candidate peak, and reports zero error, whatever the random draws.", "quantifier": "every calibrator, polynomial, degree, set of peaks, atlas, number of tries and sequence of random draws meeting these conditions", "why_tests_cant": "ranges over all polynomials, peak sets and random draws", "anchors": ["src/rascal/calibrator.py:Calibrator.fit", "src/rascal/calibrator.py:Calibrator._solve_candidate_ransac", "src/rascal/models.py:robust_polyfit"]}
{"id": "C111", "title": "minimum_matches is lowered to what is possible and then honoured", "statement": "After a successful fit minimum_matches is the least of the value set, the number of atlas lines and the number of peaks, and at least that many pairs were matched.", "quantifier": "every calibrator, atlas, data, settings and sequence of random draws", "why_tests_cant": "ranges over all data and random draws", "anchors": ["src/rascal/calibrator.py:Calibrator.fit", "src/rascal/calibrator.py:Calibrator._solve_candidate_ransac"]}
{"id": "C112", "title": "fit does not depend on earlier results", "statement": "What Calibrator.fit returns, and whether it raises or fails to end, depends only on the peaks, atlas, known pairs, properties, pixel-wavelength pairs and Hough transform it finds: earlier fits, match_peaks, manual_refit and edits of the matched pairs have no influence. Two calibrators that agree on the former return the same tuple for the same arguments and random decisions, and still agree afterwards.", "quantifier": "all pairs of calibrator states that agree on the inputs, all arguments of fit, all library results and random decisions", "why_tests_cant": "Every combination of earlier results has to be considered; the matched lists, for instance, are carried into the search and compared at its end.", "anchors": ["src/rascal/calibrator.py:Calibrator.fit", "src/rascal/calibrator.py:Calibrator._solve_candidate_ransac", "src/rascal/calibrator.py:Calibrator.do_hough_transform"]}
{"id": "C113", "title": "Repeating a fit gives the same result", "statement": "Calling fit a second time with the same arguments and the same random decisions (the generator seeded again) returns the same tuple and leaves the calibrator as it is.", "quantifier": "all calibrator states, arguments, library results and random decisions for which the first call succeeds", "why_tests_cant": "fit writes to the properties it reads (sample_size, minimum_matches) and to the Hough attributes; that a second call sees an equivalent state has to hold for every state.", "anchors": ["src/rascal/calibrator.py:Calibrator.fit", "src/rascal/calibrator.py:Calibrator._solve_candidate_ransac"]}
{"id": "C114", "title": "Results never leak into the configuration", "statement": "In a session mixing configuring calls with fit, match_peaks, add/remove_pix_wave_pair, manual_refit and plot_fit, whatever raises and is caught, the peaks, atlas, known pairs, general and Hough properties, candidate tolerance, pairs and every RANSAC property except sample_size and minimum_matches end as if only the configuring calls had been made. In particular the plotting library stays one of the two and minimum_peak_utilisation and minimum_fit_error stay valid.", "quantifier": "all sessions of any length, arguments, random draws and library behaviour, all points where a call raises", "why_tests_cant": "It is a statement about every interleaving of all public calls.", "anchors": ["src/rascal/calibrator.py:Calibrator.fit", "src/rascal/calibrator.py:Calibrator.match_peaks", "src/rascal/calibrator.py:Calibrator.manual_refit", "src/rascal/calibrator.py:Calibrator.set_ransac_properties", "src/rascal/plotting.py:plot_fit"]}
{"id": "C115", "title": "Matched peaks and lines stay paired through every session", "statement": "In any session of public calls in which no match_peaks raises, matched_peaks and matched_atlas are two lists of the same length, and get_pix_wave_pairs lists all of them. Even when match_peaks raised, the lines are as many as the peaks or None; and any fit, manual_refit or match_peaks that then succeeds restores the pairing.", "quantifier": "all sessions of any length, arguments, random draws and library behaviour, all exceptions", "why_tests_cant": "An invariant over every interleaving of calls and exceptions, including searches that fail halfway.", "anchors": ["src/rascal/calibrator.py:Calibrator.fit", "src/rascal/calibrator.py:Calibrator._solve_candidate_ransac", "src/rascal/calibrator.py:Calibrator.match_peaks", "src/rascal/calibrator.py:Calibrator.get_pix_wave_pairs", "src/rascal/calibrator.py:Calibrator.add_pix_wave_pair", "src/rascal/calibrator.py:Calibrator.remove_pix_wave_pair"]}
{"id": "C116", "title": "A match_peaks that raises keeps the matched pairs", "statement": "If match_peaks raises, the pairs matched before are still there and can be listed.", "quantifier": "all calibrators, coefficients, atlases and arguments", "why_tests_cant": "Depends on where in the function the exception occurs, for every input.", "anchors": ["src/rascal/calibrator.py:Calibrator.match_peaks", "src/rascal/calibrator.py:Calibrator.get_pix_wave_pairs"]}
{"id": "C117", "title": "The order of configuring calls does not matter", "statement": "The calls that configure a Calibrator (properties, atlas, known pairs, transform) can be made in any order, with the same resulting calibrator. The code keeps this only for calls neither of which changes what the other looks at; giving the pixel list after the wavelength range leaves slope limits and pairs computed from the earlier pixels.", "quantifier": "every calibrator, every pair of configuring calls with any arguments, every history before and after them", "why_tests_cant": "The number of orders grows factorially with the number of calls and the arguments are unbounded.", "anchors": ["src/rascal/calibrator.py:Calibrator.set_calibrator_properties", "src/rascal/calibrator.py:Calibrator.set_hough_properties", "src/rascal/calibrator.py:Calibrator.set_ransac_properties", "src/rascal/calibrator.py:Calibrator.set_atlas", "src/rascal/calibrator.py:Calibrator.set_known_pairs"]}
{"id": "C118", "title": "Repeating a settings call changes nothing", "statement": "Making a settings call (any set_ method, use_matplotlib/use_plotly, clear_atlas, do_hough_transform, load_hough_transform) a second time with the same arguments succeeds like the first and leaves the Calibrator exactly as the first did.", "quantifier": "every calibrator in any state, every such call with any arguments for which it succeeds, every hull test, argsort and file system", "why_tests_cant": "It ranges over all states a calibrator can be in, including those left by failed calls.", "anchors": ["src/rascal/calibrator.py:Calibrator.set_calibrator_properties", "src/rascal/calibrator.py:Calibrator.set_hough_properties", "src/rascal/calibrator.py:Calibrator.set_ransac_properties", "src/rascal/calibrator.py:Calibrator.do_hough_transform", "src/rascal/calibrator.py:Calibrator.load_hough_transform"]}
{"id": "C119", "title": "The order of peaks and lines does not matter to the transform", "statement": "Calibrators built from the same peaks in another order and put through the same configuring calls have the same outcomes, the same Hough histogram, limits and lines (in the same order) and, for every Hough line and tolerance, the same candidate pairs. The same holds when the atlas lists its lines in another order.", "quantifier": "every finite list of peaks and every permutation of it, every history of configuring calls with finite atlas lines, every valid argsort and every hull test that decides points one by one", "why_tests_cant": "There are factorially many orders and unboundedly many histories.", "anchors": ["src/rascal/calibrator.py:Calibrator.__init__", "src/rascal/calibrator.py:Calibrator.set_atlas", "src/rascal/calibrator.py:Calibrator.do_hough_transform", "src/rascal/calibrator.py:Calibrator._get_candidate_points_linear", "src/rascal/houghtransform.py:HoughTransform.bin_hough_points", "src/rascal/houghtransform.py:HoughTransform.generate_hough_points_brute_force"]}
{"id": "C120", "title": "Calibrators do not influence each other", "statement": "Several Calibrators used side by side behave as if each were alone, in every interleaving of their calls. The code keeps this only if no Atlas object is given to two of them: set_atlas stores the caller's object without a copy, so clearing or removing lines through one calibrator (or by the owner) changes the other's atlas while its pairs stay.", "quantifier": "any number of calibrators, every interleaving of calls of any length, every state", "why_tests_cant": "Interleavings of calls to several objects cannot be enumerated.", "anchors": ["src/rascal/calibrator.py:Calibrator.set_atlas", "src/rascal/calibrator.py:Calibrator.clear_atlas", "src/rascal/calibrator.py:Calibrator.remove_atlas_lines_range", "src/rascal/calibrator.py:Calibrator.add_atlas", "src/rascal/calibrator.py:Calibrator.add_user_atlas"]}
{"id": "C121", "title": "robust_polyfit does not depend on the units", "statement": "Without an initial solution, expressing x in units a times smaller and y in units b times smaller gives the same curve in the new units: p'(a u) = b p(u), and fails exactly when the original fit does.", "quantifier": "all finite non-constant data, degrees, positive scale factors and optimisers", "why_tests_cant": "Holds for a continuum of data and scales and for an unknown optimiser.", "anchors": ["src/rascal/models.py:robust_polyfit", "src/rascal/models.py:normalise_input"]}
{"id": "C122", "title": "Brute force finds the best combination", "statement": "When a brute-force search ends, every choice of sample_size candidate pairs (with the known pairs) has been fitted exactly once and nothing else has, and no acceptable choice has a lower cost than the solution kept.", "quantifier": "every candidate list, sample size, degree, settings, known pairs and fitting library", "why_tests_cant": "The number of combinations is unbounded and the optimum is over all of them.", "anchors": ["src/rascal/calibrator.py:Calibrator._solve_candidate_ransac"]}
{"id": "C123", "title": "Larger tolerances never lose anything", "statement": "All else equal, a larger candidate_tolerance keeps every linear candidate of every Hough line, and larger range_tolerance and candidate_tolerance keep every pixel-wavelength pair.", "quantifier": "all lines, pairs, tolerances and configuration histories", "why_tests_cant": "Monotonicity relates every two settings.", "anchors": ["src/rascal/calibrator.py:Calibrator._get_candidate_points_linear", "src/rascal/calibrator.py:Calibrator._generate_pairs"]}
{"id": "C124", "title": "A solution has one coefficient more than its degree", "statement": "fit, match_peaks (robust_refit) and manual_refit return and store degree + 1 coefficients, the degree being the one asked for, or that of the coefficients given (or stored).", "quantifier": "all calibrators, arguments and random sequences, for libraries that return as many coefficients as they are asked for", "why_tests_cant": "Holds after every random search and for every argument combination.", "anchors": ["src/rascal/calibrator.py:Calibrator.fit", "src/rascal/calibrator.py:Calibrator.match_peaks", "src/rascal/calibrator.py:Calibrator.manual_refit", "src/rascal/models.py:robust_polyfit"]}
{"id": "C125", "title": "Wrong candidates do not mislead the fit once right ones are drawn", "statement": "Suppose the candidate list of every peak contains the wavelength of one increasing polynomial of the fit degree, mixed with any number of wrong wavelengths, and that no other polynomial of that degree passes through candidates of as many peaks as minimum_matches and minimum_peak_utilisation ask for. If the search of Calibrator.fit draws at least once a sample made of right candidates only, and ends, then fit returns exactly that polynomial, matches every peak with its right wavelength and reports no residual, however many wrong samples were drawn before or after.", "quantifier": "every candidate list, every set of wrong candidates, every polynomial and degree, every sequence of random draws (or brute force) containing one right sample, every number of tries; exact numbers, exact fitters, minimum_fit_error at most 0", "why_tests_cant": "a test fixes one set of decoys and one random seed; here any number of wrong fits may come before and after the right one, and each of them could in principle have been kept", "anchors": ["src/rascal/calibrator.py:Calibrator.fit", "src/rascal/calibrator.py:Calibrator._solve_candidate_ransac", "src/rascal/calibrator.py:Calibrator._match_bijective"]}
{"id": "C126", "title": "Calibrator.add_atlas loads the lines of the calibrator's own range", "statement": "Calibrator.add_atlas(elements) without limits appends to the atlas exactly the catalogue lines of the requested elements that are bright enough and lie between min_wavelength - range_tolerance and max_wavelength + range_tolerance of the calibrator; limits given explicitly are used instead. Lines that were there before stay, also when the call raises, and afterwards the pairs are those of all peaks and all lines.", "quantifier": "every calibrator, with or without an atlas, every catalogue, every list of elements and set of arguments", "why_tests_cant": "a test checks one element in one range; the claim is about both limits, any settings made before and any earlier content of the atlas", "anchors": ["src/rascal/calibrator.py:Calibrator.add_atlas", "src/rascal/atlas.py:Atlas.add", "src/rascal/util.py:load_calibration_lines"]}
{"id": "C127", "title": "Conversions behave in humid air as in dry air", "statement": "At every relative humidity from 0 to 100 percent converting to air strictly shortens a wavelength and converting to vacuum strictly lengthens it, neither changes the order of two wavelengths, there and back changes a wavelength by less than one part in ten million, and the more humid the air, the smaller the shift.", "quantifier": "every wavelength above 2000 Angstrom, every temperature from 0 to 60 C, every pressure from 1000 Pa (to 120000 Pa for the order in vacuum and the round trip), every relative humidity from 0 to 100", "why_tests_cant": "a test converts a few wavelengths at the default humidity of 0; signs and orders over four continuous parameters need inequalities", "anchors": ["src/rascal/util.py:vacuum_to_air_wavelength", "src/rascal/util.py:air_to_vacuum_wavelength", "src/rascal/util.py:edlen_refraction", "src/rascal/util.py:get_vapour_pressure", "src/rascal/util.py:get_vapour_partial_pressure"]}
{"id": "C128", "title": "Only user lines change the limits of an atlas", "statement": "The wavelength limits Atlas.add uses when none are given are those of the constructor until add_user_atlas is accepted, and the smallest and largest wavelength of the last accepted user list after that. Rejected calls, Atlas.add, remove_atlas_lines_range and clear never change them, and the range tolerance never changes: an add after clear loads exactly what it would have appended without the clear.", "quantifier": "every history of operations on an atlas, every catalogue", "why_tests_cant": "unbounded histories mixing five operations", "anchors": ["src/rascal/atlas.py:Atlas.add", "src/rascal/atlas.py:Atlas.add_user_atlas", "src/rascal/atlas.py:Atlas.clear", "src/rascal/atlas.py:Atlas.remove_atlas_lines_range"]}
{"id": "C129", "title": "The atlas of a calibrator follows the calls like an Atlas object", "statement": "add_atlas, add_user_atlas, remove_atlas_lines_range and clear_atlas of a calibrator leave in its atlas exactly what the same calls on an Atlas object leave (add_atlas with the calibrator's range filled in), whatever other calls come in between and whichever of them raise. A new calibrator given lines by add_user_atlas only therefore holds the rows supplied since the last clear and not removed.", "quantifier": "every new calibrator and every history of configuring calls", "why_tests_cant": "unbounded histories in which atlas calls alternate with settings, transforms and failures", "anchors": ["src/rascal/calibrator.py:Calibrator.add_atlas", "src/rascal/calibrator.py:Calibrator.add_user_atlas", "src/rascal/calibrator.py:Calibrator.remove_atlas_lines_range", "src/rascal/calibrator.py:Calibrator.clear_atlas", "src/rascal/atlas.py:Atlas"]}
{"id": "C130", "title": "The simulated arc spectrum is a sum of line profiles", "statement": "The curve drawn by plot_calibration_lines is the sum of one Gaussian profile per line, of width 2.5 times pixel_scale and as high as the line's intensity: a single line gives a symmetric curve whose only maximum is the line's intensity at the line's wavelength; with several lines every line still reaches at least its intensity at its own wavelength; and further than 100 Angstrom from every line the curve is zero.", "quantifier": "every pixel scale, every set of lines with non-negative intensities, every grid", "why_tests_cant": "a test can look at one figure; an offset of one grid point in the convolution is invisible there", "anchors": ["src/rascal/plotting.py:plot_calibration_lines", "src/rascal/util.py:gauss"]}
{"id": "C131", "title": "The linelist argument names one line list", "statement": "load_calibration_lines (and so Atlas.add) with linelist 'nist', in any capitalisation, uses exactly the bundled list; with any other string it uses exactly the file of that name; a string without a file, or anything that is not a string, raises ValueError, and adding to an atlas with such an argument leaves the atlas unchanged.", "quantifier": "every line list argument, bundled list, file system content, set of other arguments and atlas", "why_tests_cant": "The tests use the default and one invalid name; the claim is about every spelling, every file and every atlas.", "anchors": ["src/rascal/util.py:load_calibration_lines", "src/rascal/atlas.py:Atlas.add"]}
{"id": "C132", "title": "A line list file is used as it is written", "statement": "For a file whose rows are element,wavelength,intensity, load_calibration_lines returns what the rows of the requested elements say: comments, empty lines and rows of other elements do not matter, and a file that cannot be understood (rows of different lengths, a wavelength that is not a number in a requested row) raises ValueError.", "quantifier": "every text of a file, every requested element and every other argument", "why_tests_cant": "The tests read one bundled file; the claim is about every text of any length.", "anchors": ["src/rascal/util.py:load_calibration_lines", "src/rascal/util.py:filter_wavelengths", "src/rascal/util.py:filter_intensity"]}
{"id": "C133", "title": "refine_peaks looks only near the peaks", "statement": "The refined peaks depend only on the samples within window_width of some given peak: changing any other sample changes nothing. A peak whose window holds no sample does not disturb the others.", "quantifier": "every spectrum, list of peaks, window width and fitter", "why_tests_cant": "The tests refine the peaks of one spectrum; the claim compares all pairs of spectra that agree near the peaks.", "anchors": ["src/rascal/util.py:refine_peaks"]}
{"id": "C134", "title": "robust_polyfit returns the best polynomial of its degree", "statement": "robust_polyfit(x, y, degree) returns degree + 1 coefficients, and no other polynomial of that degree has a smaller loss on the data: the loss being that of the optimiser applied to the differences y - p(x) in units of the standard deviation of y, whatever function of the residuals it is.", "quantifier": "every data set that is not constant, every degree, every initial guess, every loss, every optimiser that finds the minimum of what it is asked to minimise", "why_tests_cant": "The tests compare one fit with known coefficients; optimality is a statement about all polynomials and all data.", "anchors": ["src/rascal/models.py:robust_polyfit", "src/rascal/models.py:poly_cost_function", "src/rascal/models.py:normalise_input"]}
{"id": "C135", "title": "Solutions are the best polynomials for the matched pairs", "statement": "The coefficients returned by fit (fit_type poly), by match_peaks with robust_refit and by manual_refit have no larger loss on the matched pairs than any other polynomial of that degree, whatever samples were drawn before.", "quantifier": "every calibrator, atlas, peaks, settings, sequence of random draws, loss and optimiser that finds the minimum it is asked for; degree at least one", "why_tests_cant": "Tests can only compare with some other polynomials on some data.", "anchors": ["src/rascal/calibrator.py:Calibrator.fit", "src/rascal/calibrator.py:Calibrator.match_peaks", "src/rascal/calibrator.py:Calibrator.manual_refit", "src/rascal/models.py:robust_polyfit"]}
{"id": "C136", "title": "A new calibrator numbers the pixels from zero", "statement": "A calibrator built with a spectrum of n samples works on the pixels 0, 1, ..., n-1; one built without works on 0, 1, ... up to 1.1 times the largest peak, which includes the largest peak whenever that is at least 10 or a whole number. With the default limits of 3000 to 9000 the slopes searched are those of straight lines over exactly these pixels.", "quantifier": "every list of peaks with a positive one, every spectrum", "why_tests_cant": "Tests construct calibrators for a few peak lists; the rounding of 1.1 * max(peaks) matters for all real peak positions.", "anchors": ["src/rascal/calibrator.py:Calibrator.__init__", "src/rascal/calibrator.py:Calibrator.set_calibrator_properties", "src/rascal/calibrator.py:Calibrator.set_hough_properties"]}
{"id": "C137", "title": "A fit only matches what the limits allow", "statement": "Without a previous transform and with linear candidates, every (peak, line) pair matched by fit lies within candidate_tolerance of a straight line whose slope and intercept are inside the limits that set_hough_properties derived from the wavelength range.", "quantifier": "every calibrator, limits, bins, number of slopes, random draws and fitter for which fit returns", "why_tests_cant": "Tests fit a few spectra whose limits are right; what happens with limits that admit one line or none depends on all peaks, lines and limits.", "anchors": ["src/rascal/calibrator.py:Calibrator.fit", "src/rascal/calibrator.py:Calibrator.do_hough_transform", "src/rascal/houghtransform.py:HoughTransform.bin_hough_points"]}
{"id": "C138", "title": "Limits that leave only right pairs give the right solution", "statement": "If every (peak, line) pair within candidate_tolerance of a straight line that the search can try satisfies w = P(p) for one polynomial P of the degree asked for, a successful fit matches only right pairs, and if least_squares finds the minimum of the Huber loss it returns exactly P.", "quantifier": "every calibrator without an earlier transform, every polynomial, limits, bins, random draws and trial fitter", "why_tests_cant": "Tests compare with a known polynomial on a few lamps and seeds; whether a wrong solution can be returned depends on all draws.", "anchors": ["src/rascal/calibrator.py:Calibrator.fit", "src/rascal/calibrator.py:Calibrator._solve_candidate_ransac", "src/rascal/models.py:robust_polyfit"]}
{"id": "C139", "title": "No admissible pair is lost", "statement": "After a Hough transform, every (peak, line) pair through which the limits admit a line with one of the tried slopes appears among the linear candidates, provided candidate_tolerance is at least half a slope bin times the pixel plus half an intercept bin.", "quantifier": "every set of pairs, limits, numbers of slopes and of bins, and tolerance", "why_tests_cant": "Tests look at one binning; whether a true pair can fall between the bins depends on all limits, bins and tolerances.", "anchors": ["src/rascal/calibrator.py:Calibrator._get_candidate_points_linear", "src/rascal/calibrator.py:Calibrator.do_hough_transform", "src/rascal/houghtransform.py:HoughTransform.bin_hough_points"]}
{"id": "C140", "title": "A well posed session recovers its polynomial", "statement": "If the lines of the data lie on a polynomial of the degree asked for, the limits and tolerances exclude every wrong (peak, line) pair and admit every right one, and the libraries fit exact data exactly, then fit from the user's settings (no transform yet) returns exactly that polynomial, with every right pair matched and no residual, whatever was drawn.", "quantifier": "every calibrator, data, polynomial, degree, limits, bins, tolerances, sample size, weights and random draws", "why_tests_cant": "Tests use seeds and lamps; the claim is about every draw and every setting.", "anchors": ["src/rascal/calibrator.py:Calibrator.fit", "src/rascal/calibrator.py:Calibrator._solve_candidate_ransac", "src/rascal/calibrator.py:Calibrator._get_most_common_candidates"]}
{"id": "C141", "title": "What fit returns is the best of the trial fits it made", "statement": "Whenever fit returns, the coefficients returned are the robust refit of the matches of one of the trial fits made during the call, the matched lists are the matches of that trial, and no trial fit made during the call that meets all limits of the calibrator has a lower cost; with brute_force that holds over all choices of candidate pairs.", "quantifier": "every calibrator, settings, fit_type, degree, number of tries, random draws and fitting library for which fit returns", "why_tests_cant": "Tests look at one result; whether a better trial fit was made and dropped, or a mixture of two trials returned, depends on the whole history of draws.", "anchors": ["src/rascal/calibrator.py:Calibrator.fit", "src/rascal/calibrator.py:Calibrator._solve_candidate_ransac"]}
{"id": "C142", "title": "refine_peaks fits the scaled window, so the units of the intensities do not matter", "statement": "For each peak refine_peaks fits the samples of the peak's window divided by the largest of them, against the indices 0, 1, 2, ..., starting from the weighted mean index and weighted squared spread; a peak is kept exactly if the height is not negative, the centre is within the spectrum and the shifted position strictly inside it. Multiplying the whole spectrum by a positive constant therefore changes nothing in the result.", "quantifier": "every spectrum, peak list, window width, positive factor and every behaviour of the curve fitter (including failures)", "why_tests_cant": "Tests run one spectrum in one unit with one optimiser; whether the result depends on the units for some layout of peaks shows only over all spectra and peak lists.", "anchors": ["src/rascal/util.py:refine_peaks"]}
{"id": "C143", "title": "Calibrating a simulated arc gives the simulated solution back", "statement": "Simulate an arc with SyntheticSpectrum(coefficients, min_wavelength, max_wavelength).get_pixels(wavelengths), the model being increasing on the detector; give the pixels to a Calibrator, the simulated wavelengths (and possibly more lines) as its atlas, and Hough and RANSAC settings that admit every right (pixel, line) pair and no wrong one. Then Calibrator.fit of the model's degree returns the coefficients of the simulation, matches every pixel with the wavelength it was simulated from, leaves out no simulated line, and reports no residual.", "quantifier": "every list of two or more coefficients, every set of wavelengths and limits, every atlas containing the simulated lines, every admissible setting, every outcome of the random draws; exact numbers, exact library fitters and inversion", "why_tests_cant": "the round trip goes through two modules with different conventions and a random search; a test can try a few models and seeds, and has to loosen minimum_fit_error to end at all", "anchors": ["src/rascal/synthetic.py:SyntheticSpectrum.get_pixels", "src/rascal/synthetic.py:SyntheticSpectrum.set_model", "src/rascal/calibrator.py:Calibrator.set_atlas", "src/rascal/calibrator.py:Calibrator.fit"]}
{"id": "C144", "title": "Whole numbers are as good as floats", "statement": "A spectrum of integer counts can be given to refine_peaks, and initial coefficients in an integer array to robust_polyfit, with the same result as for the same values as floats.", "quantifier": "every list of integer counts, peaks, window width and fitter; every data, degree and integer start", "why_tests_cant": "tests use float arrays; the dtype decides, not the values", "anchors": ["src/rascal/util.py:refine_peaks", "src/rascal/models.py:robust_polyfit"]}
{"id": "C145", "title": "What the caller later does to its own lists, or to the returned ones, does not change the calibrator", "statement": "A Calibrator keeps what it was given and what it found. Whatever the caller does afterwards with the lists and arrays it passed in or got back (appending to them, sorting them, overwriting them), the peaks, the pixel list, the known pairs, the coefficients and the matched pairs stored in the calibrator stay what they were at the time of the call, until another call of the calibrator replaces them.", "quantifier": "for every history of calls and of in-place changes by the caller, every kind of object (list, integer array, float array), every change", "why_tests_cant": "A test changes one list after one call; that no order of calls and changes, of any length, reaches a stored attribute is a statement about every history, and which objects are shared depends on their type.", "anchors": ["src/rascal/calibrator.py:Calibrator.__init__", "src/rascal/calibrator.py:Calibrator.set_calibrator_properties", "src/rascal/calibrator.py:Calibrator.set_known_pairs", "src/rascal/calibrator.py:Calibrator.fit", "src/rascal/calibrator.py:Calibrator.match_peaks", "src/rascal/calibrator.py:Calibrator.manual_refit"]}
{"id": "C146", "title": "A Hough transform saved by one calibrator can be loaded by any other later", "statement": "What save_hough_transform of one calibrator wrote under a name is what load_hough_transform of any calibrator reads under that name, however many transforms were saved under other names (in any format, to disk or not) in between. Loading replaces the stored transform and nothing else; if the file is not there, or the type is neither npy nor json, the call is refused and the calibrator stays as it was.", "quantifier": "for every pair of calibrators, every file system, every name and format, every sequence of later saves under other names", "why_tests_cant": "A test saves and loads one file; that other names never collide after the suffixes are added and that a refused load leaves no trace holds for all names, formats and histories.", "anchors": ["src/rascal/calibrator.py:Calibrator.save_hough_transform", "src/rascal/calibrator.py:Calibrator.load_hough_transform", "src/rascal/houghtransform.py:HoughTransform.save", "src/rascal/houghtransform.py:HoughTransform.load"]}
{"id": "C147", "title": "The order of the peaks does not matter to a fit", "statement": "Two calibrators made from the same peaks in another order, and configured by the same calls, give the same answer to fit: the same coefficients, matched peaks and lines, rms, residuals and utilisations, or the same exception, with the same random choices. This still holds in the middle of a session of configuring calls, fits, edits of the matched pairs and manual refits.", "quantifier": "every list of finite peaks and every permutation of it, every history of calls with a finite atlas, every degree, kind of polynomial, number of tries, initial coefficients and random choices, every valid argsort", "why_tests_cant": "The pairs, the Hough points, the candidate rows and the dictionary of candidates are all built by looping over the peaks; whether their order leaks into the result shows only when every permutation and every history is considered.", "anchors": ["src/rascal/calibrator.py:Calibrator.fit", "src/rascal/calibrator.py:Calibrator._solve_candidate_ransac", "src/rascal/calibrator.py:Calibrator._generate_pairs", "src/rascal/calibrator.py:Calibrator._get_most_common_candidates", "src/rascal/calibrator.py:Calibrator._get_candidate_points_poly"]}
{"id": "C148", "title": "An Atlas holds the brightest lines of each element, brightest first", "statement": "Atlas(elements, ...) without a minimum distance holds, for each element in the order given, the 1000 brightest of the catalogue lines of that element that are within the limits and bright enough, brightest first, in the requested medium, and so at most 1000 lines for each element.", "quantifier": "every catalogue, element list, limits, intensity threshold and medium, every permitted result of the unstable argsort", "why_tests_cant": "the catalogue, the requested elements and the order of equally bright lines are arbitrary; tests load a few real elements", "anchors": ["src/rascal/atlas.py:Atlas.__init__", "src/rascal/atlas.py:Atlas.add", "src/rascal/util.py:load_calibration_lines"]}
{"id": "C149", "title": "The lines of an atlas are at least min_distance apart", "statement": "After Atlas(elements, min_distance=d) or Atlas.add(..., min_distance=d) any two different lines of the atlas are at least d apart.", "quantifier": "every catalogue, element list and d", "why_tests_cant": "the catalogue is arbitrary; whether two lines are compared depends on the order of their brightness", "anchors": ["src/rascal/atlas.py:Atlas.__init__", "src/rascal/atlas.py:Atlas.add", "src/rascal/util.py:load_calibration_lines", "src/rascal/util.py:filter_separation"]}
{"id": "C150", "title": "The model of a synthetic spectrum is the last one set", "statement": "After any history of set_model and set_wavelength_limit calls on a SyntheticSpectrum, accepted or rejected, the model is the polynomial with the coefficients of the last accepted set_model call (or of the constructor if there was none); set_model raises TypeError for anything but a list or an array and then changes nothing; it never changes the limits.", "quantifier": "every history of calls, every coefficient list and pixel", "why_tests_cant": "histories and coefficients are unbounded; tests set one model", "anchors": ["src/rascal/synthetic.py:SyntheticSpectrum.set_model", "src/rascal/synthetic.py:SyntheticSpectrum.__init__", "src/rascal/models.py:polynomial"]}
{"id": "C151", "title": "Candidates given as whole numbers are pruned like floats", "statement": "When peaks and user wavelengths are whole numbers, the candidate pruning (top_n_candidate) keeps the same wavelengths per peak as when the same numbers are given as floats; in particular the candidate weights decide which wavelengths are kept.", "quantifier": "every candidate list with whole-number peaks and wavelengths, every weight, every top_n_candidate, weighted or not, every argsort", "why_tests_cant": "candidate lists and weights are unbounded; tests use float peaks", "anchors": ["src/rascal/calibrator.py:Calibrator._get_most_common_candidates", "src/rascal/calibrator.py:Calibrator._generate_pairs", "src/rascal/calibrator.py:Calibrator.fit"]}
{"id": "C152", "title": "The printed list of lines is complete and faithful", "statement": "Atlas.list prints one text per line in stored order, and the text determines the element, wavelength and intensity of each line whatever characters the element names contain; a user list appends one text per supplied row and a rejected one changes nothing; Calibrator.list_atlas prints what an Atlas given the same calls prints, and raises AttributeError when no Atlas was set.", "quantifier": "every Atlas, every user list, every history of calls on a Calibrator, every str() without blanks that tells the numbers apart", "why_tests_cant": "element names and histories are unbounded; tests only call it", "anchors": ["src/rascal/atlas.py:Atlas.list", "src/rascal/calibrator.py:Calibrator.list_atlas"]}
{"id": "C153", "title": "A synthetic spectrum keeps the coefficients it was given", "statement": "Whatever the caller does later to its own lists, a SyntheticSpectrum keeps modelling the polynomial with the coefficients it was given, and get_pixels keeps giving the same answers.", "quantifier": "every list of coefficients, every history of in-place changes of the caller's lists, every wavelength list", "why_tests_cant": "histories of changes are unbounded; tests never change the list", "anchors": ["src/rascal/synthetic.py:SyntheticSpectrum.__init__", "src/rascal/synthetic.py:SyntheticSpectrum.set_model", "src/rascal/synthetic.py:SyntheticSpectrum.get_pixels", "src/rascal/models.py:polynomial"]}
{"id": "C154", "title": "Any delimiter can separate the formats of a saved Hough transform", "statement": "save(fileformat=delimiter.join(formats), delimiter=delimiter), on a HoughTransform or a Calibrator, writes or returns the same as with the formats joined by the default '+', for every delimiter.", "quantifier": "every transform, file system, file name, list of formats and delimiter", "why_tests_cant": "delimiters and names are unbounded; tests use the default", "anchors": ["src/rascal/houghtransform.py:HoughTransform.save", "src/rascal/calibrator.py:Calibrator.save_hough_transform"]}
{"id": "C155", "title": "match_peaks refines whole-number coefficients like any others", "statement": "match_peaks(fit_coeff, refine=True, robust_refit=False) returns and stores the given coefficients plus the correction found by the minimiser, also when the coefficients are given as an array of whole numbers.", "quantifier": "every calibrator, array of whole-number coefficients, minimiser and set of other arguments", "why_tests_cant": "The types of the coefficients, the result of the minimiser and the state of the calibrator are all arbitrary; a test tries one array.", "anchors": ["src/rascal/calibrator.py:Calibrator.match_peaks", "src/rascal/calibrator.py:Calibrator._adjust_polyfit"]}
{"id": "C156", "title": "plot_fit marks each peak on the spectrum", "statement": "plot_fit starts the line (or draws the point) of each peak at the wavelength the solution gives the peak and at the height of the spectrum's sample of that pixel, for any numbering and order of the pixel list.", "quantifier": "every pixel list, spectrum, list of peaks, solution and plotting library", "why_tests_cant": "The position is found by interpolating the pixel list and cutting the result; a test tries one list, and whether the cut hits the right sample depends on rounding for each spacing.", "anchors": ["src/rascal/calibrator.py:Calibrator.set_calibrator_properties", "src/rascal/plotting.py:plot_fit"]}
{"id": "C157", "title": "plot_fit labels each matched peak with its line", "statement": "plot_fit writes beside every matched peak the element and the wavelength of the atlas line it is matched to.", "quantifier": "every calibrator with matched pairs, every atlas and both plotting libraries", "why_tests_cant": "Matched pairs can come from a fit, from editing or from an atlas since replaced; a test looks at one figure.", "anchors": ["src/rascal/plotting.py:plot_fit", "src/rascal/calibrator.py:Calibrator.add_pix_wave_pair"]}
{"id": "C158", "title": "log_spectrum shows the logarithm of the spectrum", "statement": "With log_spectrum=True, plot_fit and plot_arc draw every positive sample at the height of its logarithm (for plot_arc, of the sample divided by the largest one); without, at its own height.", "quantifier": "every spectrum, solution, flag and plotting library", "why_tests_cant": "The height depends on each sample and on the type of the axis together; a test of the returned figure sees neither.", "anchors": ["src/rascal/plotting.py:plot_fit", "src/rascal/plotting.py:plot_arc"]}
{"id": "C159", "title": "What is drawn is inside the axes", "statement": "The ranges that plot_fit and plot_arc set for their axes contain what they draw: the peaks and residuals of the fit, the spectrum and the lines of the peaks.", "quantifier": "every spectrum, solution, set of peaks, flag and plotting library", "why_tests_cant": "The ranges are computed from the data by formulas that are right for usual data; a test draws usual data.", "anchors": ["src/rascal/plotting.py:plot_fit", "src/rascal/plotting.py:plot_arc"]}
{"id": "C160", "title": "The order of peaks and lines does not matter to match_peaks", "statement": "Two calibrators with the same solution whose peaks and atlas lines differ in order only get the same answer from match_peaks: the same exception, or the same coefficients, rms and utilisations and the same pairs with the same residuals, in possibly another order; and afterwards they again differ in order only.", "quantifier": "every pair of calibrators that differ in the order of finite lines and of peaks, all arguments of match_peaks, every minimiser and every fitting routine that does not look at the order of its points (exact reals)", "why_tests_cant": "There are as many orders as permutations, and the matching builds its candidates in the order of the peaks, extending lists in place; a test compares two orders of one list.", "anchors": ["src/rascal/calibrator.py:Calibrator.match_peaks", "src/rascal/calibrator.py:Calibrator._adjust_polyfit"]}
{"id": "C161", "title": "A Hough transform can be saved as json whatever kind of numbers the limits are", "statement": "save_hough_transform as json writes a complete file whether min_wavelength and range_tolerance were given as python or numpy integers or floats.", "quantifier": "every kind of number for the two arguments, every transform, file name and format", "why_tests_cant": "The kinds combine by numpy's promotion rules before json sees them; a test uses one kind.", "anchors": ["src/rascal/houghtransform.py:HoughTransform.save", "src/rascal/calibrator.py:Calibrator.set_hough_properties"]}
{"id": "C162", "title": "An interrupted save loses nothing that was saved before", "statement": "If saving a Hough transform is interrupted at any moment (a crash, a full disk), then afterwards every file holds its old or its complete new content, and load never takes a part of a file for the whole.", "quantifier": "every moment of interruption, every state of the disk, every transform, name, format, and every later load", "why_tests_cant": "A test cannot interrupt at every moment, nor with every earlier content of the disk.", "anchors": ["src/rascal/houghtransform.py:HoughTransform.save", "src/rascal/houghtransform.py:HoughTransform.load"]}
{"id": "C163", "title": "Interrupting a fit leaves the calibrator usable", "statement": "If fit is interrupted (Ctrl-C) at any moment, what the user supplied is unchanged, the calibrator holds either the earlier solution or the new one, and fitting again with the same arguments and random decisions gives the answer the interrupted call would have given.", "quantifier": "every moment at which fit can be interrupted, every calibrator, all arguments, all random decisions, searches of any length", "why_tests_cant": "A test cannot interrupt the search at every moment; what is left behind depends on how far each stage had got.", "anchors": ["src/rascal/calibrator.py:Calibrator.fit", "src/rascal/calibrator.py:Calibrator._solve_candidate_ransac", "src/rascal/calibrator.py:Calibrator.do_hough_transform"]}
{"id": "C164", "title": "Interrupting match_peaks, manual_refit or the editing of pairs", "statement": "If match_peaks, manual_refit, add_pix_wave_pair or remove_pix_wave_pair is interrupted (Ctrl-C) at any moment, data, atlas and settings are unchanged, matched peaks and matched lines still belong together, and calling it again gives the result the interrupted call would have given.", "quantifier": "every moment at which one of the four calls can be interrupted, every calibrator, all arguments, every history of edits afterwards", "why_tests_cant": "The moment of an interruption cannot be chosen in a test, and what remains depends on the order of the assignments and on the edits made afterwards.", "anchors": ["src/rascal/calibrator.py:Calibrator.match_peaks", "src/rascal/calibrator.py:Calibrator.manual_refit", "src/rascal/calibrator.py:Calibrator.add_pix_wave_pair", "src/rascal/calibrator.py:Calibrator.remove_pix_wave_pair"]}
{"id": "C165", "title": "Interrupting the configuration of a calibrator", "statement": "If set_calibrator_properties, set_hough_properties, set_ransac_properties, set_atlas, set_known_pairs or the adding of atlas lines is interrupted (Ctrl-C) at any moment, making the same call again configures the calibrator as if it had not been interrupted, and meanwhile the settings agree with each other.", "quantifier": "every moment at which one of the calls can be interrupted, every calibrator, all arguments, any number of lines", "why_tests_cant": "The moment of an interruption cannot be chosen in a test; there are as many intermediate states as assignments and lines.", "anchors": ["src/rascal/calibrator.py:Calibrator.set_calibrator_properties", "src/rascal/calibrator.py:Calibrator.set_hough_properties", "src/rascal/calibrator.py:Calibrator.set_ransac_properties", "src/rascal/calibrator.py:Calibrator.set_atlas", "src/rascal/calibrator.py:Calibrator.set_known_pairs", "src/rascal/atlas.py:Atlas.add", "src/rascal/atlas.py:Atlas.add_user_atlas"]}
{"id": "C166", "title": "The log level chosen for a calibrator, and messages written once", "statement": "The log level chosen with set_calibrator_properties governs the messages of that calibrator until another is chosen for it, whatever other calibrators are created or configured; and however many calibrators are created and configured, a message is written once.", "quantifier": "every history of creating and configuring calibrators, all logger names and levels, messages of every severity", "why_tests_cant": "Loggers are shared by name through the whole program, so what a calibrator writes depends on the history of all others; a test sees one history.", "anchors": ["src/rascal/calibrator.py:Calibrator.set_calibrator_properties", "src/rascal/calibrator.py:Calibrator.__init__"]}
{"id": "C167", "title": "Seeding a calibrator makes its fit reproducible", "statement": "After set_calibrator_properties(seed=k) on a calibrator, its next fit depends on k and the calibrator only, whatever random numbers were drawn before the seeding and whatever is done with other calibrators in between.", "quantifier": "every random generator, every history of creating, configuring, seeding and fitting any number of calibrators and of numbers drawn by the program itself", "why_tests_cant": "The generator is shared by the whole program, so what a fit draws depends on the history of all calibrators; a test runs one history with one generator.", "anchors": ["src/rascal/calibrator.py:Calibrator.set_calibrator_properties", "src/rascal/calibrator.py:Calibrator.fit"]}

(** * Props_Chart: property theorems only.  The proofs are in Main_Chart.v. *)

From Coq Require Import ZArith Bool List String Ascii Lia Reals Lra Sorted Permutation.
From Verif Require Import LoadFacts UtilFacts RefineFacts EdlenFacts RecoverFacts Num F64 XReal Py Np NpFacts ArgsortFacts Util SpecUtil Main_Util Models Atlas Hough HoughFacts PolyEval Calib SpecCalib CalibFacts Main_Calib Cand SpecCand CandFacts Main_Cand Ransac RansacFacts SampleFacts Main_Ransac Fit Main_Fit MatchPeaks SpecMatch MatchFacts Main_Match Main_Refine Main_Edit Plot SpecPlot Main_Plot Chart SpecChart.
From Verif Require Import Main_Chart.
Import ListNotations.
Local Open Scope num_scope.

(** C99 fails: what is drawn as "Candidate Pairs" are weights and peaks, not peaks and
    wavelengths, for all candidates whose weight is below their peak and whose peak is
    below their wavelength (weights are at most 1 for the usual candidates). *)
Theorem search_space_candidates_refuted :
  forall (A : Type) (N : Num A) (O : NumOrder A) argsort (c : calib A) cs coeff top weighted a sp ou,
    plot_search_space argsort c (Some cs) coeff top weighted a = Ok (Some (sp, ou)) ->
    (forall x y w, In (x, y, w) (List.concat cs) -> w <' x = true /\ x <' y = true) ->
    sp_cand sp = map (fun r : A * A * A => let '(x, y, w) := r in (w, x)) (List.concat cs) /\
    sp_cand sp <> [].
Proof. exact search_space_candidates_refuted_main. Qed.
Print Assumptions search_space_candidates_refuted.

(** C99, the part that holds: all pairs are drawn as they are, the best candidates are
    genuine candidates of the fit, as many candidates are drawn as there are, the
    solution is the polynomial at the peaks, and before the first fit nothing can be
    drawn. *)
Theorem search_space_partial :
  forall (A : Type) (N : Num A) (O : NumOrder A) argsort (c : calib A) cands coeff top weighted a,
    (forall l, is_argsort l (argsort l)) ->
    (cands = None -> plot_search_space argsort c cands coeff top weighted a = Raise AttributeError) /\
    (forall cs sp ou, cands = Some cs ->
       (forall x y w, In (x, y, w) (List.concat cs) -> nisnan x = false /\ nisnan y = false) ->
       plot_search_space argsort c cands coeff top weighted a = Ok (Some (sp, ou)) ->
       c_pairs c = PArr (sp_pairs sp) /\
       List.length (sp_cand sp) = List.length (List.concat cs) /\
       (forall p y, In (p, y) (sp_best sp) -> exists x w, In (x, y, w) (List.concat cs) /\ x ==' p = true) /\
       (sp_solution sp = None <-> coeff = None) /\
       (forall co k pts, coeff = Some co -> c_kind c = Some k -> sp_solution sp = Some pts ->
          pts = map (fun p => (p, eval_kind k p co)) (c_peaks c)) /\
       exists px, g_pixels (c_gp c) = Some px /\ map fst (sp_line sp) = px /\
         map fst (sp_upper sp) = px /\ map fst (sp_lower sp) = px).
Proof. exact search_space_partial_main. Qed.
Print Assumptions search_space_partial.

(** Non-vacuity of C99. *)
Example search_space_example :
  candidates_linear (c_plot true) (fz 10) = Ok space_cands /\
  match plot_search_space argsort_stable (c_plot true) (Some space_cands) (Some [fz 100; fz 2]) 1 true
          (mkShow true "png" None false false) return Prop with
  | Ok (Some (sp, ou)) =>
      firstn 2 (List.concat space_cands) = [(fz 190, fz 4897, fz 1); (fz 310, fz 6101, fz 1)] /\
      firstn 2 (sp_cand sp) = [(fz 1, fz 190); (fz 1, fz 310)] /\
      sp_best sp = combine ex_peaks ex_waves /\
      ou_files ou = [("rascal_hough_search_space.png", "png")]%string
  | _ => False
  end.
Proof. exact search_space_example_main. Qed.

(** C100 fails: with brightest_n_lines the intensities come in the order of brightness
    and are put at the wavelengths in increasing order, so that they are exchanged; and
    two lines of an element less than 0.001 A apart raise ValueError. *)
Theorem arc_spectrum_refuted :
  (let cat := mkCatalogue [he 40000010 3; he 40000020 9] (fun _ => None) in
   match plot_calibration_lines argsort_stable around3 cat (arc_call (Some 2%nat) (fz 1) (fz 0)) return Prop with
   | Ok (sp, _, _) =>
       map snd (filter (fun q => fst q ==' fd 4000001 (-3)) sp) = [fz 9] /\
       map snd (filter (fun q => fst q ==' fd 4000002 (-3)) sp) = [fz 3]
   | Raise _ => False
   end) /\
  (let cat := mkCatalogue [he 40000010 3; he 40000012 9] (fun _ => None) in
   plot_calibration_lines argsort_stable around3 cat (arc_call None (fz 1) (fz 0)) = Raise ValueError).
Proof. exact arc_spectrum_refuted_main. Qed.
Print Assumptions arc_spectrum_refuted.

(** C100, the part that holds: if the lines of each element come in increasing order
    and stay apart when rounded, and every line falls on a point of the (increasing)
    grid, the value at each grid point is the sum of the intensities of the lines
    there. *)
Theorem arc_spectrum_partial :
  forall (A : Type) (N : Num A) (O : NumOrder A) argsort around (cat : catalogue A) (a : arc_args A) lines,
    load_calibration_lines argsort cat (no_limits (ac_load a)) = Ok lines ->
    let grid := wave_grid around (la_min_wl (ac_load a)) (la_max_wl (ac_load a)) in
    let els := la_elements (ac_load a) in
    StronglySorted (fun a b : A => a <' b = true) grid ->
    (forall e, In e els -> StronglySorted (fun l l' => around (l_wl l) <' around (l_wl l') = true)
                              (filter (fun l => String.eqb (l_el l) e) lines)) ->
    (forall l, In l lines -> exists g, In g grid /\ g ==' around (l_wl l) = true) ->
    (forall e, plot_calibration_lines argsort around cat a = Raise e ->
       (exists e', filter_intensity els lines (la_min_intensity (ac_load a)) = Raise e') \/
       e = IndexError \/ grid = []) /\
    forall sp lab files, plot_calibration_lines argsort around cat a = Ok (sp, lab, files) ->
      sp = map (fun g => (g, total_of (lines_at around lines els g))) grid.
Proof. exact arc_spectrum_partial_main. Qed.
Print Assumptions arc_spectrum_partial.

(** C100, the grid: steps of 0.001 from min_wavelength to the first point at or after
    max_wavelength, rounded. *)
Theorem arc_grid_partial :
  forall argsort around (cat : catalogue xr) (a : arc_args xr) lo hi sp lab files,
    la_min_wl (ac_load a) = Fin lo -> la_max_wl (ac_load a) = Fin hi ->
    plot_calibration_lines argsort around cat a = Ok (sp, lab, files) ->
    exists n, map fst sp = map (fun i => around (Fin (lo + INR i / 1000)%R)) (seq 0 (S n)) /\
      (hi <= lo + INR n / 1000 < hi + 1 / 1000)%R.
Proof. exact arc_grid_partial_main. Qed.
Print Assumptions arc_grid_partial.

(** C100, also true: if no element has more than one line, the spectrum is right on any
    grid, even one on which rounding repeats wavelengths. *)
Theorem arc_single_lines_partial :
  forall (A : Type) (N : Num A) (O : NumOrder A) argsort around (cat : catalogue A) (a : arc_args A) lines sp lab files,
    load_calibration_lines argsort cat (no_limits (ac_load a)) = Ok lines ->
    (forall e, In e (la_elements (ac_load a)) -> (List.length (filter (fun l => String.eqb (l_el l) e) lines) <= 1)%nat) ->
    plot_calibration_lines argsort around cat a = Ok (sp, lab, files) ->
    forall g v, In (g, v) sp -> v = total_of (lines_at around lines (la_elements (ac_load a)) g).
Proof. exact arc_single_lines_partial_main. Qed.
Print Assumptions arc_single_lines_partial.

Example arc_single_lines_example :
  let cat := mkCatalogue [he 4000040 9] (fun _ => None) in
  let a := mkArc (mkLoadArgs ["He"%string] (fd 4000035 (-4)) (fd 4000055 (-4)) (ThNum (fz 1)) (fz 0) true (fz 101325) (fd 27315 (-2)) (fz 0) (LLStr "nist") None)
    (mkShow true "png+iframe" None true false) in
  load_calibration_lines argsort_stable cat (no_limits (ac_load a)) = Ok [he 4000040 9] /\
  match plot_calibration_lines argsort_stable around_even cat a return Prop with
  | Ok (sp, _, _) => map fst (firstn 2 sp) = [fd 400004 (-3); fd 400004 (-3)] /\ map snd (firstn 2 sp) = [fz 9; fz 9]
  | Raise _ => False
  end.
Proof. exact arc_single_lines_example_main. Qed.

(** Non-vacuity of C100: the same two lines without brightest_n_lines. *)
Example arc_spectrum_example :
  let cat := mkCatalogue [he 40000010 3; he 40000020 9] (fun _ => None) in
  load_calibration_lines argsort_stable cat (no_limits (ac_load (arc_call None (fz 1) (fz 0)))) = Ok [he 40000010 3; he 40000020 9] /\
  wave_grid around3 (fz 4000) (fd 4000003 (-3)) = map (fun z => fd z (-3)) [4000000; 4000001; 4000002; 4000003; 4000004]%Z /\
  match plot_calibration_lines argsort_stable around3 cat (arc_call None (fz 1) (fz 0)) return Prop with
  | Ok (sp, lab, files) =>
      map snd sp = map fz [0; 3; 9; 0; 0]%Z /\ lab = [he 40000010 3; he 40000020 9] /\
      files = [("rascal_arc.png", "png")]%string
  | Raise _ => False
  end.
Proof. exact arc_spectrum_example_main. Qed.

(** C101 fails: if no line reaches min_intensity, nothing is drawn: the call raises
    (IndexError, or ValueError from C100) instead of showing the spectrum without
    labels. *)
Theorem arc_labels_refuted :
  forall (A : Type) (N : Num A) argsort around (cat : catalogue A) (a : arc_args A) lines t,
    load_calibration_lines argsort cat (no_limits (ac_load a)) = Ok lines ->
    la_min_intensity (ac_load a) = ThNum t ->
    (forall l, In l lines -> In (l_el l) (la_elements (ac_load a)) /\ t <=' l_int l = false) ->
    plot_calibration_lines argsort around cat a = Raise IndexError \/
    plot_calibration_lines argsort around cat a = Raise ValueError.
Proof. exact arc_labels_refuted_main. Qed.
Print Assumptions arc_labels_refuted.

Example arc_labels_refuted_example :
  let cat := mkCatalogue [he 40000010 3; he 40000020 9] (fun _ => None) in
  plot_calibration_lines argsort_stable around3 cat (arc_call None (fz 10) (fz 0)) = Raise IndexError.
Proof. exact arc_labels_refuted_example_main. Qed.

(** C101, the part that holds: for lines in increasing order of wavelength (as they
    are loaded in vacuum without brightest_n_lines) the labelled lines are the loaded
    lines that reach the threshold of their element and keep min_distance from their
    neighbours among these. *)
Theorem arc_labels_partial :
  forall argsort around (cat : catalogue xr) (a : arc_args xr) lines d sp lab files,
    load_calibration_lines argsort cat (no_limits (ac_load a)) = Ok lines ->
    increasing_wl lines -> (forall r, In r lines -> exists w, l_wl r = Fin w) ->
    la_min_distance (ac_load a) = Fin d ->
    plot_calibration_lines argsort around cat a = Ok (sp, lab, files) ->
    exists bright,
      subseq bright lines /\
      (forall r, In r bright <-> In r lines /\
         exists t, threshold (la_elements (ac_load a)) (la_min_intensity (ac_load a)) (l_el r) t /\ t <=' l_int r = true) /\
      subseq lab bright /\
      (forall i r, nth_error bright i = Some r ->
         (In r lab <-> ((0 < d)%R -> (2 <= List.length bright)%nat /\
            forall j q, (j = S i \/ i = S j)%nat -> nth_error bright j = Some q -> apart d r q))).
Proof. exact arc_labels_partial_main. Qed.
Print Assumptions arc_labels_partial.

(** The condition of C101 is met in vacuum without brightest_n_lines. *)
Theorem arc_lines_increasing_partial :
  forall argsort (cat : catalogue xr) (l : load_args xr) rows lines,
    la_vacuum l = true -> la_brightest_n l = None ->
    read_linelist cat (la_linelist l) = Ok rows -> (forall r, In r rows -> exists w, l_wl r = Fin w) ->
    load_calibration_lines argsort cat (no_limits l) = Ok lines ->
    increasing_wl lines /\ (forall r, In r lines -> exists w, l_wl r = Fin w).
Proof. exact arc_lines_increasing_partial_main. Qed.
Print Assumptions arc_lines_increasing_partial.

(** C79 for the two remaining figures: plot_search_space writes with the selected
    library, plot_calibration_lines always with matplotlib. *)
Theorem chart_files :
  forall (A : Type) (N : Num A) argsort path fmt,
    (forall (c : calib A) cands coeff top weighted s sp ou,
       plot_search_space argsort c cands coeff top weighted s = Ok (Some (sp, ou)) ->
       exists lib, selected c lib /\
         (In (path, fmt) (ou_files ou) <->
            sh_save s = true /\ part_of (sh_type s) fmt /\ format_of lib fmt /\
            path = (match sh_name s with None => "rascal_hough_search_space" | Some f => f end ++ "." ++ fmt)%string)) /\
    (forall around (cat : catalogue A) a sp lab files,
       plot_calibration_lines argsort around cat a = Ok (sp, lab, files) ->
       let s := ac_show a in
       (In (path, fmt) files <->
          sh_save s = true /\ part_of (sh_type s) fmt /\ format_of Matplotlib fmt /\
          path = (match sh_name s with None => "rascal_arc" | Some f => f end ++ "." ++ fmt)%string)).
Proof. exact chart_files_main. Qed.
Print Assumptions chart_files.

(** The labels in binary64: of four lines one is too faint, and two of the others are too
    near to each other. *)
Example arc_labels_example :
  let cat := mkCatalogue [he 40000000 3; he 40000010 9; he 40000020 1; he 40000030 9] (fun _ => None) in
  match plot_calibration_lines argsort_stable around3 cat (arc_call None (fz 2) (fd 15 (-4))) return Prop with
  | Ok (sp, lab, files) => lab = [he 40000030 9] /\ map snd sp = map fz [3; 9; 1; 9; 0]%Z
  | Raise _ => False
  end.
Proof. exact arc_labels_example_main. Qed.

(** C98: the lines drawn by plot_search_space, at each pixel. *)
Theorem region_as_drawn :
  forall argsort (c : calib xr) cands coeff top weighted a sp ou (minw maxw rt m : R) px,
    plot_search_space argsort c cands coeff top weighted a = Ok (Some (sp, ou)) ->
    h_minw (c_hp c) = Some (Fin minw) -> h_maxw (c_hp c) = Some (Fin maxw) -> h_rt (c_hp c) = Some (Fin rt) ->
    g_pixels (c_gp c) = Some (map Fin px) -> In m px -> (forall x, In x px -> (x <= m)%R) -> (0 < m)%R ->
    sp_line sp = map (fun x => (Fin x, Fin ((maxw - minw) / m * x + minw))) px /\
    sp_upper sp = map (fun x => (Fin x, Fin ((maxw - minw) / m * x + minw + rt))) px /\
    sp_lower sp = map (fun x => (Fin x, Fin ((maxw - minw) / m * x + minw - rt))) px.
Proof. exact region_as_drawn_main. Qed.
Print Assumptions region_as_drawn.

Example region_as_drawn_example :
  let c := set_c_pairs (PArr [(Fin 5, Fin 4500)])
             (set_c_hp (mkH None None None (Some (Fin 4000)) (Some (Fin 5000)) (Some (Fin 100)) None None None None None)
               (set_c_gp (mkG None (Some [Fin 10]) None true false) (calib_blank [Fin 5] None))) in
  exists sp ou,
    plot_search_space (fun l => seq 0 (List.length l)) c (Some [[(Fin 5, Fin 4500, Fin 1)]]) None 1 false
      (mkShow false "png" None false false) = Ok (Some (sp, ou)).
Proof. exact region_as_drawn_example_main. Qed.

(** * Props_Panel: property theorems only.  The proofs are in Main_Panel.v. *)

From Coq Require Import ZArith Bool List String Lia Reals Lra Sorted Permutation.
From Verif Require Import Num F64 XReal Py Np NpFacts ArgsortFacts Util Models Atlas Hough HoughFacts PolyEval Calib SpecCalib Main_Calib Cand SpecCand CandFacts Ransac RansacFacts SampleFacts Main_Ransac Fit Main_Fit MatchPeaks SpecMatch MatchFacts Main_Match Main_Atlas Plot SpecPlot Panel SpecPanel RefineFacts EdlenFacts.
From Verif Require Import Main_Panel.
Import ListNotations.
Local Open Scope num_scope.

(** C157, what holds: with matplotlib there is one label for each matched pair, 3 below the
    matched wavelength, which names a line of the atlas nearest to it: the matched line
    itself, if the atlas has it. *)
Theorem fit_labels_partial :
  forall (c : calib xr) (at_ : atlas xr) (lines : list R) labs,
    plot_fit_labels Matplotlib c = Ok labs -> c_atlas c = Some at_ -> get_lines at_ = map Fin lines ->
    Forall2 (fun pair lab =>
      let w := snd pair in
      fst lab = w -' nZ 3 /\
      exists l, In l (at_lines at_) /\ snd lab = (al_el l, al_wl l) /\
        (forall l', In l' (at_lines at_) -> nabs (al_wl l' -' w) <' nabs (al_wl l -' w) = false) /\
        (In w (get_lines at_) -> al_wl l = w))
      (combine (mseq_vals (c_mpeaks c)) (mseq_vals (c_matlas c))) labs.
Proof. exact fit_labels_partial_main. Qed.
Print Assumptions fit_labels_partial.

(** C157 fails: whenever the matched wavelength is not (or no longer) a line of the atlas,
    the label names another line; and plotly draws no labels. *)
Theorem fit_labels_refuted :
  (forall (c : calib xr) (at_ : atlas xr) (lines : list R) labs i p w lab,
     plot_fit_labels Matplotlib c = Ok labs -> c_atlas c = Some at_ -> get_lines at_ = map Fin lines ->
     nth_error (combine (mseq_vals (c_mpeaks c)) (mseq_vals (c_matlas c))) i = Some (p, w) -> ~ In w (get_lines at_) ->
     nth_error labs i = Some lab -> snd (snd lab) <> w) /\
  (forall (A : Type) (N : Num A) (c : calib A), plot_fit_labels Plotly c = Ok []).
Proof. exact fit_labels_refuted_main. Qed.
Print Assumptions fit_labels_refuted.

(** The hypotheses of C157 are met: the fitted session of C59; a pair added by hand gets the
    label of the nearest line. *)
Example fit_labels_example :
  match plot_fit_labels Matplotlib c_fitted, plot_fit_labels Matplotlib (fst (add_pix_wave_pair (fst (match_peaks o_ex no_mini c_fitted (ma_plain (fz 20) false true))) (fz 600) (fz 9003))) return Prop with
  | Ok labs, Ok labs' =>
      map (fun l => snd (snd l)) labs = ex_waves /\ map fst labs = map (fun w => w -' fz 3) ex_waves /\
      List.length labs' = 6%nat /\ existsb (fun l => fst l ==' fz 9000) labs' = true /\
      forallb (fun l => negb (fst l ==' fz 9000) || (snd (snd l) ==' last ex_waves (fz 0))) labs' = true
  | _, _ => False
  end.
Proof. exact fit_labels_example_main. Qed.

(** C158, what holds: the curve of plot_fit shows the sample of each pixel at the pixel's
    wavelength, at the height of the sample, or of its logarithm (for a negative sample, of
    1e-100) with log_spectrum and matplotlib.  plot_arc shows the samples divided by the
    largest one, or the logarithms of these, with both libraries. *)
Theorem log_curve_partial :
  (forall lib (c : calib xr) co log s cu px,
     plot_fit_curve log10 lib c co log s = Ok cu -> g_pixels (c_gp c) = Some px -> lib = Matplotlib \/ log = false ->
     exists k, c_kind c = Some k /\ cu_log cu = false /\
     List.length (cu_points cu) = Nat.min (List.length px) (List.length s) /\
     forall i x v, nth_error px i = Some x -> nth_error s i = Some v ->
       exists y, nth_error (cu_points cu) i = Some (eval_kind k x co, y) /\
         height (cu_log cu) y = if log then log10 (if v <' nZ 0 then nlit 1 (-100) else v) else v) /\
  (forall lib pixels log (s : list R) ap,
     plot_arc_panel log10 lib pixels log (map Fin s) = Ok ap ->
     exists m, In m s /\ (forall v, In v s -> (v <= m)%R) /\
     forall i v x, m <> 0%R -> nth_error s i = Some v ->
       match pixels with Some px => nth_error px i = Some x | None => x = Fin (INR i) end ->
       nth_error (ap_curve ap) i = Some (x, if log then log10 (Fin (v / m)) else Fin (v / m))).
Proof. exact log_curve_partial_main. Qed.
Print Assumptions log_curve_partial.

(** C158 fails with plotly: with log_spectrum no positive sample is drawn at the height of
    its logarithm, since the logarithm is taken twice. *)
Theorem log_curve_refuted :
  forall (c : calib xr) co s cu px i x r,
    plot_fit_curve log10 Plotly c co true s = Ok cu -> g_pixels (c_gp c) = Some px ->
    nth_error px i = Some x -> nth_error s i = Some (Fin r) -> (0 < r)%R ->
    exists k y, c_kind c = Some k /\ nth_error (cu_points cu) i = Some (eval_kind k x co, y) /\
      y = log10 (Fin r) /\ height (cu_log cu) y <> log10 (Fin r).
Proof. exact log_curve_refuted_main. Qed.
Print Assumptions log_curve_refuted.

(** C159, what holds for plot_fit: if the solution increases from each drawn peak to the
    next and gives no negative wavelength, the wavelengths of all drawn peaks are shown;
    plotly shows all drawn residuals. *)
Theorem fit_ranges_partial :
  (forall (c : calib xr) k co (ps : list R) (f : R -> R) xs,
     plot_fit_xrange c co (map Fin ps) = Ok xs -> c_kind c = Some k ->
     (forall p, In p ps -> eval_kind k (Fin p) co = Fin (f p)) ->
     (forall p q, In p ps -> In q ps -> (p <= q)%R -> (f p <= f q)%R) -> (forall p, In p ps -> (0 <= f p)%R) ->
     forall p, In p ps -> shown xs (f p)) /\
  (forall (pts : list (xr * xr)) (ds : list R) ys,
     plot_fit_yrange pts = Ok ys -> map snd pts = map Fin ds -> forall d, In d ds -> shown ys d).
Proof. exact fit_ranges_partial_main. Qed.
Print Assumptions fit_ranges_partial.

(** C159, what holds for plot_arc: with the default pixels every sample is between the ends
    of the pixel axis; plotly shows the height of every sample; matplotlib with log_spectrum
    shows the lines of the peaks in full. *)
Theorem arc_ranges_partial :
  forall lib log (s : list R) ap,
    plot_arc_panel log10 lib None log (map Fin s) = Ok ap ->
    (forall i x y, nth_error (ap_curve ap) i = Some (x, y) -> exists r, x = Fin r /\ shown (ap_xrange ap) r) /\
    (lib = Matplotlib -> log = true -> ap_yrange ap = Some (ap_from ap, ap_to ap)) /\
    (lib = Plotly -> forall ys, map snd (ap_curve ap) = map Fin ys ->
       exists yr, ap_yrange ap = Some yr /\ forall y, In y ys -> shown yr y).
Proof. exact arc_ranges_partial_main. Qed.
Print Assumptions arc_ranges_partial.

(** C159 fails: a first peak of negative wavelength is outside of the range; if all
    residuals are positive plotly does not show the zero line of the residuals; with
    log_spectrum, plotly shows the lines of the peaks of plot_arc in one point only and
    matplotlib no sample below a hundredth of the largest; and pixels given to plot_arc
    that are larger than the number of samples are outside of the range. *)
Theorem ranges_refuted :
  (forall (c : calib xr) k co (ps : list R) (f : R -> R) xs p,
     plot_fit_xrange c co (map Fin ps) = Ok xs -> c_kind c = Some k ->
     (forall p, In p ps -> eval_kind k (Fin p) co = Fin (f p)) ->
     In p ps -> (forall q, In q ps -> (p <= q)%R) -> (f p < 0)%R -> ~ shown xs (f p)) /\
  (forall (pts : list (xr * xr)) (ds : list R) ys,
     plot_fit_yrange pts = Ok ys -> map snd pts = map Fin ds -> (forall d, In d ds -> (0 < d)%R) -> ~ shown ys 0) /\
  (forall pixels (s : list R) ap yr,
     plot_arc_panel log10 Plotly pixels true (map Fin s) = Ok ap -> (forall v, In v s -> (0 < v)%R) ->
     ap_yrange ap = Some yr ->
     exists from to, ap_from ap = Fin from /\ ap_to ap = Fin to /\ (from < to)%R /\
       forall h, (from <= h <= to)%R -> shown yr h -> h = 0%R) /\
  (forall (s : list R) ap yr i v m,
     plot_arc_panel log10 Matplotlib None true (map Fin s) = Ok ap -> ap_yrange ap = Some yr ->
     In m s -> (forall u, In u s -> (u <= m)%R) -> nth_error s i = Some v -> (0 < v < m / 100)%R ->
     exists x y, nth_error (ap_curve ap) i = Some (x, Fin y) /\ ~ shown yr y) /\
  (forall lib log (s : list R) px ap x,
     plot_arc_panel log10 lib (Some px) log (map Fin s) = Ok ap -> In (Fin x) px -> (INR (List.length s) < x)%R ->
     ~ shown (ap_xrange ap) x).
Proof. exact ranges_refuted_main. Qed.
Print Assumptions ranges_refuted.

(** The hypotheses of C158 and C159 are met: figures of plot_arc exist for every spectrum
    that is not empty, and the figures of the fitted session of C59. *)
Example panel_example :
  (forall lib log v s, exists ap, plot_arc_panel log10 lib None log (map Fin (v :: s)) = Ok ap) /\
  (exists ap, plot_arc_panel (fun v : f64 => v -' fz 1) Plotly None true [fz 20; fz 100; fz 40] = Ok ap /\
     ap_xrange ap = (fz 0, fz 3) /\ ap_yrange ap = Some (fd 2 (-1) -' fz 1, fz 0) /\ ap_from ap = fz 0) /\
  (exists cu, plot_fit_curve (fun v : f64 => v -' fz 1) Plotly c_fitted [fz 3000; fz 10] true (repeat (fz 5) 4) = Ok cu /\
     cu_log cu = true /\ map snd (cu_points cu) = repeat (fz 4) 4) /\
  plot_fit_xrange c_fitted [fz 3000; fz 10] ex_peaks = Ok (fz 3800, fz 8400) /\
  plot_fit_yrange [(fz 4000, fz 2); (fz 5000, fz 1); (fz 6000, fz 3)] = Ok (fz 1, fz 3).
Proof. exact panel_example_main. Qed.

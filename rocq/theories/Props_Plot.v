(** * Props_Plot: property theorems only.  The proofs are in Main_Plot.v. *)

From Coq Require Import ZArith Bool List String Ascii Lia Reals Lra Sorted Permutation.
From Verif Require Import RefineFacts Num F64 XReal Py Np NpFacts ArgsortFacts Util Models Atlas Hough HoughFacts PolyEval Calib SpecCalib CalibFacts Main_Calib Cand SpecCand CandFacts Ransac RansacFacts SampleFacts Main_Ransac Fit Main_Fit MatchPeaks SpecMatch MatchFacts Main_Match Main_Refine Main_Edit Plot SpecPlot.
From Verif Require Import Main_Plot.
Import ListNotations.
Local Open Scope num_scope.

(** C79: the files a successful plot writes are those of the formats named in fig_type
    that the library can write, each under the given (or the default) name with the
    format as ending; nothing is written without save_fig. *)
Theorem plot_files :
  forall (A : Type) (N : Num A) (c : calib A) path fmt,
    (forall a c' sp ou, plot_fit c a = (c', sp, Ok ou) ->
       let s := pf_show a in
       exists lib, selected c lib /\
         (In (path, fmt) (ou_files ou) <->
            sh_save s = true /\ part_of (sh_type s) fmt /\ format_of lib fmt /\
            path = (match sh_name s with None => "rascal_solution" | Some f => f end ++ "." ++ fmt)%string)) /\
    (forall px s ou, plot_arc c px s = Ok (Some ou) ->
       exists lib, selected c lib /\
         (In (path, fmt) (ou_files ou) <->
            sh_save s = true /\ part_of (sh_type s) fmt /\ format_of lib fmt /\
            path = (match sh_name s with None => "rascal_arc" | Some f => f end ++ "." ++ fmt)%string)).
Proof. exact plot_files_main. Qed.
Print Assumptions plot_files.

(** Non-vacuity of C79: png is written by both libraries, iframe by plotly, gif by
    neither. *)
Example plot_files_example :
  match snd (plot_fit (c_plot true) (mkPF None None (fz 20) false show_png)),
        snd (plot_fit (c_plot false) (mkPF None None (fz 20) false show_png)) with
  | Ok m, Ok p =>
      ou_files m = [("out.png", "png")]%string /\
      ou_files p = [("out.png", "png"); ("out.iframe", "iframe")]%string
  | _, _ => False
  end.
Proof. exact plot_files_example_main. Qed.

(** C96: refuted: the documentation says that a missing extension is defaulted to png;
    in fact the extension is always appended, so that no call ever writes the file it
    was given the name of. *)
Theorem plot_filename_refuted :
  forall (A : Type) (N : Num A) (c : calib A) name fmt,
    (forall a c' sp ou, plot_fit c a = (c', sp, Ok ou) ->
       sh_name (pf_show a) = Some name -> ~ In (name, fmt) (ou_files ou)) /\
    (forall px s ou, plot_arc c px s = Ok (Some ou) ->
       sh_name s = Some name -> ~ In (name, fmt) (ou_files ou)).
Proof. exact plot_filename_refuted_main. Qed.
Print Assumptions plot_filename_refuted.

(** C96, the part that holds: a name without extension gets .png under the default
    fig_type, and nothing else is written. *)
Theorem plot_filename_partial :
  forall (A : Type) (N : Num A) (c : calib A) name,
    (forall a c' sp ou, plot_fit c a = (c', sp, Ok ou) ->
       sh_name (pf_show a) = Some name -> sh_save (pf_show a) = true -> sh_type (pf_show a) = "png"%string ->
       ou_files ou = [((name ++ ".png")%string, "png"%string)]) /\
    (forall px s ou, plot_arc c px s = Ok (Some ou) ->
       sh_name s = Some name -> sh_save s = true -> sh_type s = "png"%string ->
       ou_files ou = [((name ++ ".png")%string, "png"%string)]).
Proof. exact plot_filename_partial_main. Qed.
Print Assumptions plot_filename_partial.

(** Non-vacuity of C96: "out.png" becomes "out.png.png". *)
Example plot_filename_example :
  match snd (plot_fit (c_plot true) (mkPF None None (fz 20) false (mkShow true "png" (Some "out.png"%string) false false))),
        plot_arc (set_c_spectrum (Some (map fz [1; 4; 2]%Z)) (c_plot false)) None (mkShow true "png" (Some "arc"%string) false false) with
  | Ok m, Ok (Some p) => ou_files m = [("out.png.png", "png")]%string /\ ou_files p = [("arc.png", "png")]%string
  | _, _ => False
  end.
Proof. exact plot_filename_example_main. Qed.

(** C95: refuted: the documentation says that nothing is displayed when JSON is asked
    for; in fact every successful call with display (the default) displays the figure. *)
Theorem plot_json_silent_refuted :
  forall (A : Type) (N : Num A) (c : calib A),
    (forall a c' sp ou, plot_fit c a = (c', sp, Ok ou) ->
       sh_json (pf_show a) = true -> sh_display (pf_show a) = true -> ou_shown ou = true) /\
    (forall px s ou, plot_arc c px s = Ok (Some ou) ->
       sh_json s = true -> sh_display s = true -> ou_shown ou = true).
Proof. exact plot_json_silent_refuted_main. Qed.
Print Assumptions plot_json_silent_refuted.

(** C95, the part that holds: JSON is returned exactly when it is asked for and plotly is
    selected, and nothing is displayed without display. *)
Theorem plot_json_silent_partial :
  forall (A : Type) (N : Num A) (c : calib A),
    (forall a c' sp ou, plot_fit c a = (c', sp, Ok ou) ->
       (ou_json ou = true <-> sh_json (pf_show a) = true /\ selected c Plotly) /\
       (sh_display (pf_show a) = false -> ou_shown ou = false)) /\
    (forall px s ou, plot_arc c px s = Ok (Some ou) ->
       (ou_json ou = true <-> sh_json s = true /\ selected c Plotly) /\
       (sh_display s = false -> ou_shown ou = false)).
Proof. exact plot_json_silent_partial_main. Qed.
Print Assumptions plot_json_silent_partial.

(** Non-vacuity of C95. *)
Example plot_json_silent_example :
  match snd (plot_fit (c_plot false) (mkPF None None (fz 20) false show_png)),
        plot_arc (set_c_spectrum (Some (map fz [1; 4; 2]%Z)) (c_plot false)) None show_png with
  | Ok m, Ok (Some p) => ou_shown m = true /\ ou_json m = true /\ ou_shown p = true /\ ou_json p = true
  | _, _ => False
  end.
Proof. exact plot_json_silent_example_main. Qed.

(** C77: refuted: in logarithmic display every negative value is overwritten in the
    array the caller gave, or in the calibrator's own spectrum. *)
Theorem plot_fit_leaves_spectrum_refuted :
  forall (c : calib xr) a c' sp r (s : list xr) v,
    plot_fit c a = (c', sp, r) -> pf_log a = true -> In v s -> v <' nZ 0 = true ->
    (pf_spectrum a = Some s -> sp <> Some s) /\
    (pf_spectrum a = None -> c_spectrum c = Some s -> c_spectrum c' <> Some s).
Proof. exact plot_fit_leaves_spectrum_refuted_main. Qed.
Print Assumptions plot_fit_leaves_spectrum_refuted.

(** C77, the part that holds: with log_spectrum off, or without negative values, the
    caller's spectrum and the whole calibrator are unchanged, whatever the outcome; and
    a spectrum given by the caller always spares the calibrator. *)
Theorem plot_fit_leaves_spectrum_partial :
  forall (A : Type) (N : Num A) (c : calib A) a c' sp r,
    plot_fit c a = (c', sp, r) ->
    (pf_spectrum a <> None -> c' = c) /\
    (pf_log a = false \/
     (forall s v, (pf_spectrum a = Some s \/ pf_spectrum a = None /\ c_spectrum c = Some s) -> In v s -> v <' nZ 0 = false) ->
     c' = c /\ sp = pf_spectrum a).
Proof. exact plot_fit_leaves_spectrum_partial_main. Qed.
Print Assumptions plot_fit_leaves_spectrum_partial.

(** Non-vacuity of C77: a successful call that overwrites the caller's -5, one that
    overwrites the stored -5, and one that changes nothing. *)
Example plot_fit_spectrum_example :
  let s := map fz [3; -5; 8]%Z in
  let a g l := mkPF None g (fz 20) l show_png in
  let cs := set_c_spectrum (Some s) (c_plot true) in
  (match plot_fit cs (a (Some s) true) with
   | (c', Some [_; v; _], Ok _) => v = fd 1 (-100) /\ c_spectrum c' = Some s | _ => False end) /\
  (match plot_fit cs (a None true) with
   | (c', None, Ok _) => match c_spectrum c' with Some [_; v; _] => v = fd 1 (-100) | _ => False end | _ => False end) /\
  (match plot_fit cs (a (Some s) false) with
   | (c', Some s', Ok _) => s' = s /\ c_spectrum c' = Some s | _ => False end).
Proof. exact plot_fit_spectrum_example_main. Qed.

(** C78: refuted: matplotlib draws, for a matched pair, the distance of its wavelength
    from the nearest atlas line, not from the fit: for matched lines of the atlas every
    residual, and the rms, is drawn as 0, whatever the coefficients. *)
Theorem plot_fit_residuals_refuted :
  forall (c : calib xr) a c' sp ou (at_ : atlas xr) lines,
    plot_fit c a = (c', sp, Ok ou) -> selected c Matplotlib ->
    c_atlas c = Some at_ -> get_lines at_ = map Fin lines ->
    (forall w, In w (mseq_vals (c_matlas c)) -> In w (get_lines at_)) ->
    Forall (fun q => snd q = Fin 0) (ou_points ou) /\ ou_rms ou = Some (Fin 0).
Proof. exact plot_fit_residuals_refuted_main. Qed.
Print Assumptions plot_fit_residuals_refuted.

(** C78: refuted, an instance in floating point: the coefficients given put every peak at
    wavelength 0, thousands of Angstrom from its matched line; the residuals drawn and
    the rms are 0. *)
Theorem plot_fit_residuals_instance_refuted :
  match snd (plot_fit (c_plot true) (mkPF (Some [fz 0; fz 0]) None (fz 5) false show_png)) with
  | Ok ou =>
      c_mpeaks (c_plot true) = MList ex_peaks /\ c_matlas (c_plot true) = MList ex_waves /\
      Forall (fun w => fz 3000 <' nabs (w -' fz 0) = true) ex_waves /\
      ou_points ou = map (fun _ => (fz 0, fz 0)) ex_peaks /\ ou_rms ou = Some (fz 0)
  | _ => False
  end.
Proof. exact plot_fit_residuals_instance_refuted_main. Qed.
Print Assumptions plot_fit_residuals_instance_refuted.

(** C78, the part that holds, over exact numbers: plotly draws, for exactly the peaks
    with an atlas line within the tolerance of the fit, the nearest line minus the fitted
    wavelength, at the fitted wavelength; the rms line is that of these residuals. *)
Theorem plot_fit_residuals_partial :
  forall (c : calib xr) a c' sp ou,
    plot_fit c a = (c', sp, Ok ou) -> selected c Plotly ->
    exists k co at_ m,
      c_kind c = Some k /\ match pf_coeff a with None => c_coeff c = Some co | Some l => l = co end /\
      c_atlas c = Some at_ /\
      (let f := fun p => eval_kind k p co in
       Forall (fun q => nearest f (get_lines at_) (fst q) (snd q) /\ within f (pf_tol a) (fst q) (snd q) = true) m /\
       (no_nan (get_lines at_) ->
        map fst m = filter (fun p => existsb (within f (pf_tol a) p) (get_lines at_)) (c_peaks c)) /\
       ou_points ou = map (fun q => (f (fst q), snd q -' f (fst q))) m /\
       ou_rms ou = Some (nsqrt (np_mean (map (fun q => (snd q -' f (fst q)) *' (snd q -' f (fst q))) m)))).
Proof. exact plot_fit_residuals_partial_main. Qed.
Print Assumptions plot_fit_residuals_partial.

(** Non-vacuity of C78 in plotly: the same nonsense coefficients draw nothing (and raise),
    the fitted ones draw all the peaks. *)
Example plot_fit_residuals_example :
  snd (plot_fit (c_plot false) (mkPF (Some [fz 0; fz 0]) None (fz 5) false show_png)) = Raise ValueError /\
  match snd (plot_fit (c_plot false) (mkPF None None (fz 20) false show_png)) return Prop with
  | Ok ou => List.length (ou_points ou) = List.length ex_peaks
  | _ => False
  end.
Proof. exact plot_fit_residuals_example_main. Qed.

(** C97: refuted: a calibrator made from peaks alone cannot be plotted: plot_arc()
    raises TypeError with either library. *)
Theorem plot_arc_without_spectrum_refuted :
  forall (A : Type) (N : Num A) (e : env A) peaks c0 h s,
    calib_init (e_hull e) peaks None = Ok c0 ->
    plot_arc (cal_run e c0 h) None s = Raise TypeError.
Proof. exact plot_arc_without_spectrum_refuted_main. Qed.
Print Assumptions plot_arc_without_spectrum_refuted.

(** C97, the part that holds, over exact numbers: with a spectrum, plot_arc() succeeds
    with either library and draws, at pixel i, the i-th value divided by the greatest
    value (if that is not 0). *)
Theorem plot_arc_without_spectrum_partial :
  forall (c : calib xr) lib s v vs,
    selected c lib -> c_spectrum c = Some (map Fin (v :: vs)) ->
    exists ou m, plot_arc c None s = Ok (Some ou) /\
      In m (v :: vs) /\ (forall u, In u (v :: vs) -> (u <= m)%R) /\
      List.length (ou_points ou) = List.length (v :: vs) /\
      forall i u, m <> 0%R -> nth_error (v :: vs) i = Some u ->
        nth_error (ou_points ou) i = Some (Fin (INR i), Fin (u / m)).
Proof. exact plot_arc_without_spectrum_partial_main. Qed.
Print Assumptions plot_arc_without_spectrum_partial.

(** Non-vacuity of C97, on both sides. *)
Example plot_arc_example :
  (exists c0 : calib f64, calib_init (e_hull env0) [fz 10; fz 20] None = Ok c0) /\
  match plot_arc (set_c_spectrum (Some (map fz [1; 4; 2]%Z)) (c_plot true)) None show_png with
  | Ok (Some ou) => ou_points ou = [(fz 0, fd 25 (-2)); (fz 1, fz 1); (fz 2, fd 5 (-1))]
  | _ => False
  end.
Proof. exact plot_arc_example_main. Qed.

(** C98: with constrain_poly, every pair kept lies, over exact numbers and for a convex
    hull test that accepts only points of the hull, on the detector and within the
    candidate tolerance of the region plot_search_space draws. *)
Theorem pairs_in_drawn_region :
  forall (e : env xr) (inside : list (xr * xr) -> xr * xr -> bool) peaks spectrum c0 h (a : atlas xr)
         (ct minw maxw rt m : R) px rows p w,
    (forall k pts, e_hull e k pts = Ok (map (inside k) pts)) ->
    (forall k q1 q2, inside (on_points k) (Fin q1, Fin q2) = true -> in_hull k (q1, q2)) ->
    calib_init (e_hull e) peaks spectrum = Ok c0 ->
    let c := cal_run e c0 h in
    let r := set_atlas (e_hull e) c a (Fin ct) true in
    snd r = Ok tt -> c_pairs (fst r) = PArr rows -> In (Fin p, Fin w) rows ->
    h_minw (c_hp c) = Some (Fin minw) -> h_maxw (c_hp c) = Some (Fin maxw) -> h_rt (c_hp c) = Some (Fin rt) ->
    (0 <= rt)%R -> (0 <= ct)%R ->
    g_pixels (c_gp c) = Some (map Fin px) -> In m px -> (forall x, In x px -> (x <= m)%R) -> (0 < m)%R ->
    (0 <= p <= m)%R /\
    ((maxw - minw) / m * p + minw - rt - ct <= w <= (maxw - minw) / m * p + minw + rt + ct)%R.
Proof. exact pairs_in_drawn_region_main. Qed.
Print Assumptions pairs_in_drawn_region.

(** Non-vacuity of C98: the pair (50, 6000) is kept, (50, 9000) is not. *)
Example pairs_in_drawn_region_example :
  let e := mkEnv (fun l : list xr => seq 0 (List.length l)) (mkCatalogue [] (fun _ => None)) (fun k pts => Ok (map (quad_inside k) pts)) in
  let at_ := mkAtlas (map (fun w => mkAL (Fin w) "Ar"%string (Fin 1) None) [6000; 9000]%R) (Fin 3000) (Fin 9000) (Fin 500) in
  let h := [OGeneral None (Some (map Fin [0; 100]%R)) None] in
  exists c0, calib_init (e_hull e) [Fin 50] (Some [Fin 1; Fin 2]) = Ok c0 /\
    (let c := cal_run e c0 h in
     let r := set_atlas (e_hull e) c at_ (Fin 10) true in
     snd r = Ok tt /\ c_pairs (fst r) = PArr [(Fin 50, Fin 6000)] /\
     h_minw (c_hp c) = Some (Fin 3000) /\ h_maxw (c_hp c) = Some (Fin 9000) /\ h_rt (c_hp c) = Some (Fin 500) /\
     g_pixels (c_gp c) = Some (map Fin [0; 100]%R)).
Proof. exact pairs_in_drawn_region_example_main. Qed.

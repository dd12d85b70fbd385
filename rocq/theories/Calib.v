(** * Calib: model of the state of a Calibrator and of the methods that configure
    it, /repo/src/rascal/calibrator.py:20-133, 822-1550. *)

From Coq Require Import ZArith Bool List String Lia.
From Verif Require Import Num Py Np Util Atlas Hough PolyEval.
Import ListNotations.
Local Open Scope num_scope.

Section Calib.
  Context {A : Type} {N : Num A}.

  (** calibrator.py:50-54, 40-41: num_pix, pixel_list, plotting_library,
      plot_with_matplotlib, plot_with_plotly. *)
  Record gprops : Type := mkG {
    g_num_pix : option A; g_pixels : option (list A); g_library : option string;
    g_mpl : bool; g_plotly : bool
  }.

  (** calibrator.py:57-63 and the four derived limits of 1094-1116. *)
  Record hprops : Type := mkH {
    h_num_slopes : option Z; h_xbins : option nat; h_ybins : option nat;
    h_minw : option A; h_maxw : option A; h_rt : option A; h_lt : option A;
    h_min_intercept : option A; h_max_intercept : option A;
    h_min_slope : option A; h_max_slope : option A
  }.

  (** calibrator.py:66-75.  minimum_matches may be an int or a float; sample_size
      and top_n_candidate are taken to be non-negative ints. *)
  Record rprops : Type := mkR {
    r_sample : option nat; r_top : option nat; r_linear : option bool; r_close : option bool;
    r_tol : option A; r_weighted : option bool; r_hweight : option A;
    r_matches : option A; r_util : option A; r_fit_error : option A
  }.

  (** self.pairs: no such attribute; np.array([]) of shape (0,); or an (n, 2)
      array. *)
  Inductive pairs_val : Type := PMissing | PFlat | PArr (l : list (A * A)).

  (** matched_peaks / matched_atlas: a python list, an ndarray, or None. *)
  Inductive mseq : Type := MList (l : list A) | MArr (l : list A) | MNone.
  Definition mseq_vals (m : mseq) : list A :=
    match m with MList l | MArr l => l | MNone => [] end.

  (** calibrator.py:34-84: the attributes of a Calibrator, in this order: self.peaks; self.spectrum; self.atlas; self.pix_known, self.wave_known; calibrator properties; Hough properties; RANSAC properties; self.candidate_tolerance (None: attribute missing); self.constrain_poly (None counts as False); self.pairs; self.ht; self.hough_lines; self.hough_points; self.matched_peaks; self.matched_atlas; self.fit_coeff; self.fit_type / polyfit / polyval (None: attribute missing); self.fit_deg (None: attribute missing); self.rms; self.residual; self.peak_utilisation; self.atlas_utilisation; self.residuals. *)
  Record calib : Type := mkCal {
    c_peaks : list A;
    c_spectrum : option (list A);
    c_atlas : option (atlas A);
    c_known : option (list A * list A);
    c_gp : gprops;
    c_hp : hprops;
    c_rp : rprops;
    c_cand_tol : option A;
    c_constrain : bool;
    c_pairs : pairs_val;
    c_ht : hough A;
    c_lines : option (list (A * A));
    c_points : option (points A);
    c_mpeaks : mseq;
    c_matlas : mseq;
    c_coeff : option (list A);
    c_kind : option fit_kind;
    c_deg : option nat;
    c_rms : option A;
    c_resid : option (list A);
    c_putil : option A;
    c_autil : option A;
    c_residuals : option (list A)
  }.

  Definition set_c_peaks (v : list A) (c : calib) : calib :=
    mkCal v (c_spectrum c) (c_atlas c) (c_known c) (c_gp c) (c_hp c) (c_rp c) (c_cand_tol c) (c_constrain c) (c_pairs c) (c_ht c) (c_lines c) (c_points c) (c_mpeaks c) (c_matlas c) (c_coeff c) (c_kind c) (c_deg c) (c_rms c) (c_resid c) (c_putil c) (c_autil c) (c_residuals c).

  Definition set_c_spectrum (v : option (list A)) (c : calib) : calib :=
    mkCal (c_peaks c) v (c_atlas c) (c_known c) (c_gp c) (c_hp c) (c_rp c) (c_cand_tol c) (c_constrain c) (c_pairs c) (c_ht c) (c_lines c) (c_points c) (c_mpeaks c) (c_matlas c) (c_coeff c) (c_kind c) (c_deg c) (c_rms c) (c_resid c) (c_putil c) (c_autil c) (c_residuals c).

  Definition set_c_atlas (v : option (atlas A)) (c : calib) : calib :=
    mkCal (c_peaks c) (c_spectrum c) v (c_known c) (c_gp c) (c_hp c) (c_rp c) (c_cand_tol c) (c_constrain c) (c_pairs c) (c_ht c) (c_lines c) (c_points c) (c_mpeaks c) (c_matlas c) (c_coeff c) (c_kind c) (c_deg c) (c_rms c) (c_resid c) (c_putil c) (c_autil c) (c_residuals c).

  Definition set_c_known (v : option (list A * list A)) (c : calib) : calib :=
    mkCal (c_peaks c) (c_spectrum c) (c_atlas c) v (c_gp c) (c_hp c) (c_rp c) (c_cand_tol c) (c_constrain c) (c_pairs c) (c_ht c) (c_lines c) (c_points c) (c_mpeaks c) (c_matlas c) (c_coeff c) (c_kind c) (c_deg c) (c_rms c) (c_resid c) (c_putil c) (c_autil c) (c_residuals c).

  Definition set_c_gp (v : gprops) (c : calib) : calib :=
    mkCal (c_peaks c) (c_spectrum c) (c_atlas c) (c_known c) v (c_hp c) (c_rp c) (c_cand_tol c) (c_constrain c) (c_pairs c) (c_ht c) (c_lines c) (c_points c) (c_mpeaks c) (c_matlas c) (c_coeff c) (c_kind c) (c_deg c) (c_rms c) (c_resid c) (c_putil c) (c_autil c) (c_residuals c).

  Definition set_c_hp (v : hprops) (c : calib) : calib :=
    mkCal (c_peaks c) (c_spectrum c) (c_atlas c) (c_known c) (c_gp c) v (c_rp c) (c_cand_tol c) (c_constrain c) (c_pairs c) (c_ht c) (c_lines c) (c_points c) (c_mpeaks c) (c_matlas c) (c_coeff c) (c_kind c) (c_deg c) (c_rms c) (c_resid c) (c_putil c) (c_autil c) (c_residuals c).

  Definition set_c_rp (v : rprops) (c : calib) : calib :=
    mkCal (c_peaks c) (c_spectrum c) (c_atlas c) (c_known c) (c_gp c) (c_hp c) v (c_cand_tol c) (c_constrain c) (c_pairs c) (c_ht c) (c_lines c) (c_points c) (c_mpeaks c) (c_matlas c) (c_coeff c) (c_kind c) (c_deg c) (c_rms c) (c_resid c) (c_putil c) (c_autil c) (c_residuals c).

  Definition set_c_cand_tol (v : option A) (c : calib) : calib :=
    mkCal (c_peaks c) (c_spectrum c) (c_atlas c) (c_known c) (c_gp c) (c_hp c) (c_rp c) v (c_constrain c) (c_pairs c) (c_ht c) (c_lines c) (c_points c) (c_mpeaks c) (c_matlas c) (c_coeff c) (c_kind c) (c_deg c) (c_rms c) (c_resid c) (c_putil c) (c_autil c) (c_residuals c).

  Definition set_c_constrain (v : bool) (c : calib) : calib :=
    mkCal (c_peaks c) (c_spectrum c) (c_atlas c) (c_known c) (c_gp c) (c_hp c) (c_rp c) (c_cand_tol c) v (c_pairs c) (c_ht c) (c_lines c) (c_points c) (c_mpeaks c) (c_matlas c) (c_coeff c) (c_kind c) (c_deg c) (c_rms c) (c_resid c) (c_putil c) (c_autil c) (c_residuals c).

  Definition set_c_pairs (v : pairs_val) (c : calib) : calib :=
    mkCal (c_peaks c) (c_spectrum c) (c_atlas c) (c_known c) (c_gp c) (c_hp c) (c_rp c) (c_cand_tol c) (c_constrain c) v (c_ht c) (c_lines c) (c_points c) (c_mpeaks c) (c_matlas c) (c_coeff c) (c_kind c) (c_deg c) (c_rms c) (c_resid c) (c_putil c) (c_autil c) (c_residuals c).

  Definition set_c_ht (v : hough A) (c : calib) : calib :=
    mkCal (c_peaks c) (c_spectrum c) (c_atlas c) (c_known c) (c_gp c) (c_hp c) (c_rp c) (c_cand_tol c) (c_constrain c) (c_pairs c) v (c_lines c) (c_points c) (c_mpeaks c) (c_matlas c) (c_coeff c) (c_kind c) (c_deg c) (c_rms c) (c_resid c) (c_putil c) (c_autil c) (c_residuals c).

  Definition set_c_lines (v : option (list (A * A))) (c : calib) : calib :=
    mkCal (c_peaks c) (c_spectrum c) (c_atlas c) (c_known c) (c_gp c) (c_hp c) (c_rp c) (c_cand_tol c) (c_constrain c) (c_pairs c) (c_ht c) v (c_points c) (c_mpeaks c) (c_matlas c) (c_coeff c) (c_kind c) (c_deg c) (c_rms c) (c_resid c) (c_putil c) (c_autil c) (c_residuals c).

  Definition set_c_points (v : option (points A)) (c : calib) : calib :=
    mkCal (c_peaks c) (c_spectrum c) (c_atlas c) (c_known c) (c_gp c) (c_hp c) (c_rp c) (c_cand_tol c) (c_constrain c) (c_pairs c) (c_ht c) (c_lines c) v (c_mpeaks c) (c_matlas c) (c_coeff c) (c_kind c) (c_deg c) (c_rms c) (c_resid c) (c_putil c) (c_autil c) (c_residuals c).

  Definition set_c_mpeaks (v : mseq) (c : calib) : calib :=
    mkCal (c_peaks c) (c_spectrum c) (c_atlas c) (c_known c) (c_gp c) (c_hp c) (c_rp c) (c_cand_tol c) (c_constrain c) (c_pairs c) (c_ht c) (c_lines c) (c_points c) v (c_matlas c) (c_coeff c) (c_kind c) (c_deg c) (c_rms c) (c_resid c) (c_putil c) (c_autil c) (c_residuals c).

  Definition set_c_matlas (v : mseq) (c : calib) : calib :=
    mkCal (c_peaks c) (c_spectrum c) (c_atlas c) (c_known c) (c_gp c) (c_hp c) (c_rp c) (c_cand_tol c) (c_constrain c) (c_pairs c) (c_ht c) (c_lines c) (c_points c) (c_mpeaks c) v (c_coeff c) (c_kind c) (c_deg c) (c_rms c) (c_resid c) (c_putil c) (c_autil c) (c_residuals c).

  Definition set_c_coeff (v : option (list A)) (c : calib) : calib :=
    mkCal (c_peaks c) (c_spectrum c) (c_atlas c) (c_known c) (c_gp c) (c_hp c) (c_rp c) (c_cand_tol c) (c_constrain c) (c_pairs c) (c_ht c) (c_lines c) (c_points c) (c_mpeaks c) (c_matlas c) v (c_kind c) (c_deg c) (c_rms c) (c_resid c) (c_putil c) (c_autil c) (c_residuals c).

  Definition set_c_kind (v : option fit_kind) (c : calib) : calib :=
    mkCal (c_peaks c) (c_spectrum c) (c_atlas c) (c_known c) (c_gp c) (c_hp c) (c_rp c) (c_cand_tol c) (c_constrain c) (c_pairs c) (c_ht c) (c_lines c) (c_points c) (c_mpeaks c) (c_matlas c) (c_coeff c) v (c_deg c) (c_rms c) (c_resid c) (c_putil c) (c_autil c) (c_residuals c).

  Definition set_c_deg (v : option nat) (c : calib) : calib :=
    mkCal (c_peaks c) (c_spectrum c) (c_atlas c) (c_known c) (c_gp c) (c_hp c) (c_rp c) (c_cand_tol c) (c_constrain c) (c_pairs c) (c_ht c) (c_lines c) (c_points c) (c_mpeaks c) (c_matlas c) (c_coeff c) (c_kind c) v (c_rms c) (c_resid c) (c_putil c) (c_autil c) (c_residuals c).

  Definition set_c_rms (v : option A) (c : calib) : calib :=
    mkCal (c_peaks c) (c_spectrum c) (c_atlas c) (c_known c) (c_gp c) (c_hp c) (c_rp c) (c_cand_tol c) (c_constrain c) (c_pairs c) (c_ht c) (c_lines c) (c_points c) (c_mpeaks c) (c_matlas c) (c_coeff c) (c_kind c) (c_deg c) v (c_resid c) (c_putil c) (c_autil c) (c_residuals c).

  Definition set_c_resid (v : option (list A)) (c : calib) : calib :=
    mkCal (c_peaks c) (c_spectrum c) (c_atlas c) (c_known c) (c_gp c) (c_hp c) (c_rp c) (c_cand_tol c) (c_constrain c) (c_pairs c) (c_ht c) (c_lines c) (c_points c) (c_mpeaks c) (c_matlas c) (c_coeff c) (c_kind c) (c_deg c) (c_rms c) v (c_putil c) (c_autil c) (c_residuals c).

  Definition set_c_putil (v : option A) (c : calib) : calib :=
    mkCal (c_peaks c) (c_spectrum c) (c_atlas c) (c_known c) (c_gp c) (c_hp c) (c_rp c) (c_cand_tol c) (c_constrain c) (c_pairs c) (c_ht c) (c_lines c) (c_points c) (c_mpeaks c) (c_matlas c) (c_coeff c) (c_kind c) (c_deg c) (c_rms c) (c_resid c) v (c_autil c) (c_residuals c).

  Definition set_c_autil (v : option A) (c : calib) : calib :=
    mkCal (c_peaks c) (c_spectrum c) (c_atlas c) (c_known c) (c_gp c) (c_hp c) (c_rp c) (c_cand_tol c) (c_constrain c) (c_pairs c) (c_ht c) (c_lines c) (c_points c) (c_mpeaks c) (c_matlas c) (c_coeff c) (c_kind c) (c_deg c) (c_rms c) (c_resid c) (c_putil c) v (c_residuals c).

  Definition set_c_residuals (v : option (list A)) (c : calib) : calib :=
    mkCal (c_peaks c) (c_spectrum c) (c_atlas c) (c_known c) (c_gp c) (c_hp c) (c_rp c) (c_cand_tol c) (c_constrain c) (c_pairs c) (c_ht c) (c_lines c) (c_points c) (c_mpeaks c) (c_matlas c) (c_coeff c) (c_kind c) (c_deg c) (c_rms c) (c_resid c) (c_putil c) (c_autil c) v.

  (* ---------------------------------------------------------------- *)
  (** ** General properties *)

  (** The pattern of all setters: a given value, else the stored one, else the
      default.  calibrator.py:928-935 etc. *)
  Definition keep {T} (given old : option T) (dflt : T) : option T :=
    match given with
    | Some v => Some v
    | None => match old with Some w => Some w | None => Some dflt end
    end.

  (** np.arange(n). *)
  Definition np_arange0 (n : A) : list A := np_arange1 (nZ 0) n.

  Definition use_matplotlib_g (g : gprops) : gprops :=
    mkG (g_num_pix g) (g_pixels g) (g_library g) true false.
  Definition use_plotly_g (g : gprops) : gprops :=
    mkG (g_num_pix g) (g_pixels g) (g_library g) false true.

  (** calibrator.py:841-857 use_matplotlib, use_plotly. *)
  Definition use_matplotlib (c : calib) : calib := set_c_gp (use_matplotlib_g (c_gp c)) c.
  Definition use_plotly (c : calib) : calib := set_c_gp (use_plotly_g (c_gp c)) c.

  (** calibrator.py:822-839 which_plotting_library. *)
  Definition which_plotting_library (c : calib) : option string :=
    if g_mpl (c_gp c) then Some "matplotlib"%string
    else if g_plotly (c_gp c) then Some "plotly"%string else None.

  (** calibrator.py:859-982 set_calibrator_properties.  The logger and the
      seed are not modelled (assumed not to raise); the interpolator pix_to_rawpix is in
      RawPix.v. *)
  Definition set_calibrator_properties (c : calib) (num_pix : option A)
      (pixel_list : option (list A)) (library : option string) : calib * res unit :=
    let g := c_gp c in
    let np :=
      match num_pix with
      | Some v => Ok v
      | None => match g_num_pix g with
                | Some v => Ok v
                | None => match c_spectrum c with
                          | Some s => Ok (nnat (List.length s))
                          | None => bind (py_max (c_peaks c)) (fun m => Ok (nlit 11 (-1) *' m))
                          end
                end
      end in
    match np with
    | Raise e => (c, Raise e)
    | Ok n =>
        let px := match keep pixel_list (g_pixels g) (np_arange0 n) with Some l => l | None => [] end in
        let lib := match keep library (g_library g) "matplotlib"%string with Some s => s | None => ""%string end in
        let g1 := mkG (Some n) (Some px) (Some lib) (g_mpl g) (g_plotly g) in
        let g2 := if String.eqb lib "matplotlib" then use_matplotlib_g g1
                  else if String.eqb lib "plotly" then use_plotly_g g1 else g1 in
        (set_c_gp g2 c, Ok tt)
    end.

  (* ---------------------------------------------------------------- *)
  (** ** Pairs *)

  (** scipy.spatial.Delaunay(corners).find_simplex(points) >= 0. *)
  Definition hull_test : Type := list (A * A) -> list (A * A) -> res (list bool).

  (** itertools.product(peaks, lines); calibrator.py:102-105. *)
  Definition product_pairs (peaks lines : list A) : list (A * A) := list_prod peaks lines.

  (** calibrator.py:109-126: the corners.  None if an attribute is missing. *)
  Definition corners (c : calib) : res (list (A * A)) :=
    match c_cand_tol c, h_max_intercept (c_hp c), h_min_intercept (c_hp c), h_maxw (c_hp c),
          h_rt (c_hp c), g_pixels (c_gp c) with
    | Some ct, Some hi, Some lo, Some maxw, Some rt, Some px =>
        bind (np_amax px) (fun m =>
        Ok [(nZ 0, hi +' ct); (nZ 0, lo -' ct);
            (m, maxw -' rt -' ct); (m, maxw +' rt +' ct)])
    | _, _, _, _, _, _ => Raise AttributeError
    end.

  (** calibrator.py:86-133 _generate_pairs. *)
  Definition generate_pairs (hull : hull_test) (c : calib) : calib * res unit :=
    match c_atlas c with
    | None => (c, Raise AttributeError)
    | Some at_ =>
        let pairs := product_pairs (c_peaks c) (get_lines at_) in
        if c_constrain c then
          match bind (corners c) (fun k =>
                match pairs with [] => Raise ValueError | _ => hull k pairs end) with
          | Raise e => (c, Raise e)
          | Ok mask => (set_c_pairs (PArr (mask_select mask pairs)) c, Ok tt)
          end
        else (set_c_pairs (match pairs with [] => PFlat | _ => PArr pairs end) c, Ok tt)
    end.

  (* ---------------------------------------------------------------- *)
  (** ** Hough properties *)

  (** The arguments of set_hough_properties, calibrator.py:984-993. *)
  Record hough_args : Type := mkHA {
    ha_num_slopes : option A; ha_xbins : option nat; ha_ybins : option nat;
    ha_minw : option A; ha_maxw : option A; ha_rt : option A; ha_lt : option A
  }.

  (** calibrator.py:1093-1116: the limits. *)
  Definition min_slope_of (minw maxw rt lt ptp : A) : A :=
    let min_intercept := minw -' rt in
    ((maxw -' rt -' lt) -' (min_intercept +' rt +' lt)) /' ptp.
  Definition max_slope_of (minw maxw rt lt ptp : A) : A :=
    let min_intercept := minw -' rt in
    ((maxw +' rt +' lt) -' (min_intercept -' rt -' lt)) /' ptp.

  (** int(num_slopes), calibrator.py:1023 (int() of a non-finite float raises). *)
  Definition int_of (v : A) : res Z :=
    match ntrunc v with Some z => Ok z
    | None => Raise (if nisnan v then ValueError else OverflowError) end.

  (** calibrator.py:984-1119 set_hough_properties. *)
  Definition set_hough_properties (hull : hull_test) (c : calib) (a : hough_args)
    : calib * res unit :=
    let h := c_hp c in
    match (match ha_num_slopes a with
           | Some v => bind (int_of v) (fun z => Ok (Some z))
           | None => Ok (keep None (h_num_slopes h) 2000%Z)
           end) with
    | Raise e => (c, Raise e)
    | Ok ns =>
        let val o d := match o with Some v => v | None => d end in
        let minw := keep (ha_minw a) (h_minw h) (nZ 3000) in
        let maxw := keep (ha_maxw a) (h_maxw h) (nZ 9000) in
        let rt := keep (ha_rt a) (h_rt h) (nZ 500) in
        let lt := keep (ha_lt a) (h_lt h) (nZ 100) in
        let minw' := val minw (nZ 0) in let maxw' := val maxw (nZ 0) in
        let rt' := val rt (nZ 0) in let lt' := val lt (nZ 0) in
        let h1 slo shi := mkH ns (keep (ha_xbins a) (h_xbins h) 100%nat)
                    (keep (ha_ybins a) (h_ybins h) 100%nat) minw maxw rt lt
                    (Some (minw' -' rt')) (Some (minw' +' rt')) slo shi in
        match g_pixels (c_gp c) with
        | None => (set_c_hp (h1 (h_min_slope h) (h_max_slope h)) c, Raise TypeError)
        | Some px =>
            match np_ptp px with
            | Raise e => (set_c_hp (h1 (h_min_slope h) (h_max_slope h)) c, Raise e)
            | Ok ptp =>
                let c' := set_c_hp (h1 (Some (min_slope_of minw' maxw' rt' lt' ptp))
                                       (Some (max_slope_of minw' maxw' rt' lt' ptp))) c in
                match c_atlas c with
                | None => (c', Ok tt)
                | Some _ => generate_pairs hull c'
                end
            end
        end
    end.

  (* ---------------------------------------------------------------- *)
  (** ** RANSAC properties *)

  (** The arguments of set_ransac_properties, calibrator.py:1121-1133. *)
  Record ransac_args : Type := mkRA {
    ra_sample : option nat; ra_top : option nat; ra_linear : option bool; ra_close : option bool;
    ra_tol : option A; ra_weighted : option bool; ra_hweight : option A;
    ra_matches : option A; ra_util : option A; ra_fit_error : option A
  }.

  (** calibrator.py:1121-1283 set_ransac_properties.  The assertions come last and
      one by one, after the earlier attributes have been assigned. *)
  Definition set_ransac_properties (c : calib) (a : ransac_args) : calib * res unit :=
    let r := c_rp c in
    let r0 m u e :=
      mkR (keep (ra_sample a) (r_sample r) 5%nat) (keep (ra_top a) (r_top r) 5%nat)
          (keep (ra_linear a) (r_linear r) true) (keep (ra_close a) (r_close r) false)
          (keep (ra_tol a) (r_tol r) (nZ 5)) (keep (ra_weighted a) (r_weighted r) true)
          (keep (ra_hweight a) (r_hweight r) (nZ 1)) m u e in
    let ok1 := match ra_matches a with Some v => nZ 0 <' v | None => true end in
    let ok2 := match ra_util a with Some v => (nZ 0 <=' v) && (v <=' nZ 1) | None => true end in
    let ok3 := match ra_fit_error a with Some v => nZ 0 <=' v | None => true end in
    let m := keep (ra_matches a) (r_matches r) (nZ 0) in
    let u := keep (ra_util a) (r_util r) (nZ 0) in
    let e := keep (ra_fit_error a) (r_fit_error r) (nlit 1 (-4)) in
    if negb ok1 then (set_c_rp (r0 (r_matches r) (r_util r) (r_fit_error r)) c, Raise AssertionError)
    else if negb ok2 then (set_c_rp (r0 m (r_util r) (r_fit_error r)) c, Raise AssertionError)
    else if negb ok3 then (set_c_rp (r0 m u (r_fit_error r)) c, Raise AssertionError)
    else (set_c_rp (r0 m u e) c, Ok tt).

  (* ---------------------------------------------------------------- *)
  (** ** Construction *)

  (** calibrator.py:21-84 __init__: the attributes, then the three setters. *)
  Definition calib_blank (peaks : list A) (spectrum : option (list A)) : calib :=
    mkCal peaks spectrum None None
      (mkG None None None false false)
      (mkH None None None None None None None None None None None)
      (mkR None None None None None None None None None None)
      None false PMissing hough_init None None (MList []) (MList []) None None None
      None None None None None.
  Definition no_hough_args : hough_args := mkHA None None None None None None None.
  Definition no_ransac_args : ransac_args :=
    mkRA None None None None None None None None None None.

  Definition calib_init (hull : hull_test) (peaks : list A) (spectrum : option (list A)) : res calib :=
    let (c1, r1) := set_calibrator_properties (calib_blank peaks spectrum) None None None in
    bind r1 (fun _ =>
    let (c2, r2) := set_hough_properties hull c1 no_hough_args in
    bind r2 (fun _ =>
    let (c3, r3) := set_ransac_properties c2 no_ransac_args in
    bind r3 (fun _ => Ok c3))).

  (* ---------------------------------------------------------------- *)
  (** ** Atlas *)

  (** calibrator.py:1399-1423 set_atlas. *)
  Definition set_atlas (hull : hull_test) (c : calib) (a : atlas A) (cand_tol : A) (constrain : bool)
    : calib * res unit :=
    generate_pairs hull
      (set_c_constrain constrain (set_c_cand_tol (Some cand_tol) (set_c_atlas (Some a) c))).

  (** calibrator.py:1285-1341 add_atlas; [None] limits are replaced first.  Everything
      else is passed on (linelist and brightest_n_lines, which the code leaves at
      their defaults, are taken from [a] too). *)
  Definition cal_add_atlas (argsort : list A -> list nat) (cat : catalogue A) (hull : hull_test) (c : calib)
      (a : add_args A) (cand_tol : A) (constrain : bool) : calib * res unit :=
    match h_minw (c_hp c), h_maxw (c_hp c), h_rt (c_hp c) with
    | Some minw, Some maxw, Some rt =>
        let lo := match aa_min a with Some v => v | None => minw -' rt end in
        let hi := match aa_max a with Some v => v | None => maxw +' rt end in
        let fin c := generate_pairs hull (set_c_constrain constrain (set_c_cand_tol (Some cand_tol) c)) in
        match c_atlas c with
        | None =>
            match atlas_init argsort cat (aa_elements a) lo hi rt (aa_min_intensity a)
                    (aa_min_distance a) (aa_vacuum a) (aa_pressure a) (aa_temperature a) (aa_rh a)
                    (aa_linelist a) with
            | Raise e => (c, Raise e)
            | Ok at_ => fin (set_c_atlas (Some at_) c)
            end
        | Some at_ =>
            let (at', r) := atlas_add argsort cat at_
              (mkAddArgs (aa_elements a) (Some lo) (Some hi) (aa_min_intensity a) (aa_min_distance a)
                 (aa_vacuum a) (aa_pressure a) (aa_temperature a) (aa_rh a) (aa_linelist a)
                 (aa_brightest_n a)) in
            let c' := set_c_atlas (Some at') c in
            match r with Raise e => (c', Raise e) | Ok _ => fin c' end
        end
    | _, _, _ => (c, Raise TypeError)
    end.

  (** calibrator.py:1364-1397 add_user_atlas; a new Atlas() has the limits 3000 and
      5000 and tolerance 500 (atlas.py:16-28). *)
  Definition cal_add_user_atlas (hull : hull_test) (c : calib) (u : user_args A) (cand_tol : A)
      (constrain : bool) : calib * res unit :=
    let at0 := match c_atlas c with Some a => a | None => mkAtlas [] (nZ 3000) (nZ 5000) (nZ 500) end in
    let (at', r) := add_user_atlas at0 u in
    let c' := set_c_atlas (Some at') c in
    match r with
    | Raise e => (c', Raise e)
    | Ok _ => generate_pairs hull (set_c_constrain constrain (set_c_cand_tol (Some cand_tol) c'))
    end.

  (** calibrator.py:1343-1348, 1357-1362: passed on to the atlas; nothing else. *)
  Definition cal_remove_lines (c : calib) (w tol : A) : calib * res unit :=
    match c_atlas c with
    | None => (c, Raise AttributeError)
    | Some a => (set_c_atlas (Some (remove_atlas_lines_range a w tol)) c, Ok tt)
    end.
  Definition cal_clear_atlas (c : calib) : calib * res unit :=
    match c_atlas c with
    | None => (c, Raise AttributeError)
    | Some a => (set_c_atlas (Some (atlas_clear a)) c, Ok tt)
    end.

  (* ---------------------------------------------------------------- *)
  (** ** Hough transform *)

  (** calibrator.py:1425-1452 do_hough_transform.  Comparing the array with [] is
      never true. *)
  Definition do_hough_transform (argsort : list A -> list nat) (c : calib) (brute : bool)
    : calib * res unit :=
    match c_pairs c with
    | PMissing => (c, Raise AttributeError)
    | p =>
        let h := c_hp c in
        let (t1, r1) := set_constraints (c_ht c) (h_min_slope h) (h_max_slope h)
                          (h_min_intercept h) (h_max_intercept h) in
        match r1 with
        | Raise e => (c, Raise e)
        | Ok _ =>
            match p with
            | PArr l =>
                let x := map fst l in let y := map snd l in
                let (t2, r2) :=
                  if brute then generate_hough_points_brute_force argsort t1 x y
                  else match h_num_slopes h with
                       | Some (Zneg _) => (t1, Raise ValueError)
                       | Some z => generate_hough_points t1 x y (Z.to_nat z)
                       | None => (t1, Raise TypeError)
                       end in
                match r2 with
                | Raise e => (set_c_ht t2 c, Raise e)
                | Ok _ =>
                    let (t3, r3) := match h_xbins h, h_ybins h with
                                    | Some xb, Some yb => bin_hough_points argsort t2 xb yb
                                    | _, _ => (t2, Raise TypeError)
                                    end in
                    match r3 with
                    | Raise e => (set_c_ht t3 c, Raise e)
                    | Ok _ => (set_c_lines (ho_lines t3) (set_c_points (ho_points t3) (set_c_ht t3 c)), Ok tt)
                    end
                end
            | _ => (set_c_ht t1 c, Raise IndexError)
            end
        end
    end.

  (** calibrator.py:1454-1487 save_hough_transform: the value of ht.save is not
      returned. *)
  Definition save_hough_transform (c : calib) (fs : files A) (filename fileformat : string)
      (to_disk : bool) : files A * res (@save_result A) :=
    let (fs', r) := hough_save (c_ht c) fs filename fileformat to_disk in
    (fs', bind r (fun _ => Ok SvNone)).

  (** calibrator.py:1489-1505 load_hough_transform. *)
  Definition load_hough_transform (c : calib) (fs : files A) (filename filetype : string)
    : calib * res unit :=
    let (t, r) := hough_load (c_ht c) fs filename filetype in (set_c_ht t c, r).

  (** calibrator.py:1651-1652: the Hough lines fit() is going to use. *)
  Definition fit_hough (argsort : list A -> list nat) (c : calib) : calib * res unit :=
    match c_lines c, c_points c with
    | Some _, Some _ => (c, Ok tt)
    | _, _ => do_hough_transform argsort c false
    end.

  (* ---------------------------------------------------------------- *)
  (** ** Known pairs *)

  (** np.asarray(v, dtype="float").reshape(-1): a list of numbers, or an exception
      for something that cannot be converted. *)
  Inductive known_arg : Type := KList (l : list A) | KBad (e : exn).

  (** calibrator.py:1507-1550 set_known_pairs. *)
  Definition set_known_pairs (c : calib) (pix wave : known_arg) : calib * res unit :=
    match pix with
    | KBad e => (c, Raise e)
    | KList p =>
        match wave with
        | KBad e => (c, Raise e)
        | KList w =>
            if negb (Nat.eqb (List.length p) (List.length w)) then (c, Raise AssertionError)
            else if existsb nisnan p then (c, Raise ValueError)
            else if existsb nisnan w then (c, Raise ValueError)
            else (set_c_known (Some (p, w)) c, Ok tt)
        end
    end.
End Calib.

Arguments calib A : clear implicits.
Arguments gprops A : clear implicits.
Arguments hprops A : clear implicits.
Arguments rprops A : clear implicits.
Arguments pairs_val A : clear implicits.
Arguments mseq A : clear implicits.
Arguments hough_args A : clear implicits.
Arguments ransac_args A : clear implicits.
Arguments known_arg A : clear implicits.
Arguments hull_test A : clear implicits.

(** * SetterSteps: the configuring calls assignment by assignment,
    /repo/src/rascal/calibrator.py:859-1283, 1399-1423, 1507-1550, and the growth of an atlas,
    /repo/src/rascal/atlas.py:96-280.

    Each call is given as the list of its assignments in the order of the code; an
    interruption (KeyboardInterrupt) leaves the calibrator after some of them.  An attribute
    that the code leaves alone is assigned its own value. *)

From Coq Require Import ZArith Bool List String Lia.
From Verif Require Import Num Py Np Util Atlas Hough PolyEval Calib.
Import ListNotations.
Local Open Scope num_scope.

Section SetterSteps.
  Context {A : Type} {N : Num A}.

  (** One assignment. *)
  Definition cstep : Type := calib A -> calib A.

  (** self.num_pix = ..., and so on; calibrator.py:911-982, 843-857. *)
  Definition on_g (f : gprops A -> gprops A) : cstep := fun c => set_c_gp (f (c_gp c)) c.
  Definition sg_num_pix v : cstep := on_g (fun g => mkG v (g_pixels g) (g_library g) (g_mpl g) (g_plotly g)).
  Definition sg_pixels v : cstep := on_g (fun g => mkG (g_num_pix g) v (g_library g) (g_mpl g) (g_plotly g)).
  Definition sg_library v : cstep := on_g (fun g => mkG (g_num_pix g) (g_pixels g) v (g_mpl g) (g_plotly g)).
  Definition sg_mpl v : cstep := on_g (fun g => mkG (g_num_pix g) (g_pixels g) (g_library g) v (g_plotly g)).
  Definition sg_plotly v : cstep := on_g (fun g => mkG (g_num_pix g) (g_pixels g) (g_library g) (g_mpl g) v).

  (** self.num_slopes = ..., and so on; calibrator.py:1021-1116. *)
  Definition on_h (f : hprops A -> hprops A) : cstep := fun c => set_c_hp (f (c_hp c)) c.
  Definition sh_num_slopes v : cstep := on_h (fun h => mkH v (h_xbins h) (h_ybins h) (h_minw h) (h_maxw h) (h_rt h) (h_lt h) (h_min_intercept h) (h_max_intercept h) (h_min_slope h) (h_max_slope h)).
  Definition sh_xbins v : cstep := on_h (fun h => mkH (h_num_slopes h) v (h_ybins h) (h_minw h) (h_maxw h) (h_rt h) (h_lt h) (h_min_intercept h) (h_max_intercept h) (h_min_slope h) (h_max_slope h)).
  Definition sh_ybins v : cstep := on_h (fun h => mkH (h_num_slopes h) (h_xbins h) v (h_minw h) (h_maxw h) (h_rt h) (h_lt h) (h_min_intercept h) (h_max_intercept h) (h_min_slope h) (h_max_slope h)).
  Definition sh_minw v : cstep := on_h (fun h => mkH (h_num_slopes h) (h_xbins h) (h_ybins h) v (h_maxw h) (h_rt h) (h_lt h) (h_min_intercept h) (h_max_intercept h) (h_min_slope h) (h_max_slope h)).
  Definition sh_maxw v : cstep := on_h (fun h => mkH (h_num_slopes h) (h_xbins h) (h_ybins h) (h_minw h) v (h_rt h) (h_lt h) (h_min_intercept h) (h_max_intercept h) (h_min_slope h) (h_max_slope h)).
  Definition sh_rt v : cstep := on_h (fun h => mkH (h_num_slopes h) (h_xbins h) (h_ybins h) (h_minw h) (h_maxw h) v (h_lt h) (h_min_intercept h) (h_max_intercept h) (h_min_slope h) (h_max_slope h)).
  Definition sh_lt v : cstep := on_h (fun h => mkH (h_num_slopes h) (h_xbins h) (h_ybins h) (h_minw h) (h_maxw h) (h_rt h) v (h_min_intercept h) (h_max_intercept h) (h_min_slope h) (h_max_slope h)).
  Definition sh_min_intercept v : cstep := on_h (fun h => mkH (h_num_slopes h) (h_xbins h) (h_ybins h) (h_minw h) (h_maxw h) (h_rt h) (h_lt h) v (h_max_intercept h) (h_min_slope h) (h_max_slope h)).
  Definition sh_max_intercept v : cstep := on_h (fun h => mkH (h_num_slopes h) (h_xbins h) (h_ybins h) (h_minw h) (h_maxw h) (h_rt h) (h_lt h) (h_min_intercept h) v (h_min_slope h) (h_max_slope h)).
  Definition sh_min_slope v : cstep := on_h (fun h => mkH (h_num_slopes h) (h_xbins h) (h_ybins h) (h_minw h) (h_maxw h) (h_rt h) (h_lt h) (h_min_intercept h) (h_max_intercept h) v (h_max_slope h)).
  Definition sh_max_slope v : cstep := on_h (fun h => mkH (h_num_slopes h) (h_xbins h) (h_ybins h) (h_minw h) (h_maxw h) (h_rt h) (h_lt h) (h_min_intercept h) (h_max_intercept h) (h_min_slope h) v).

  (** self.sample_size = ..., and so on; calibrator.py:1171-1283. *)
  Definition on_r (f : rprops A -> rprops A) : cstep := fun c => set_c_rp (f (c_rp c)) c.
  Definition sr_sample v : cstep := on_r (fun r => mkR v (r_top r) (r_linear r) (r_close r) (r_tol r) (r_weighted r) (r_hweight r) (r_matches r) (r_util r) (r_fit_error r)).
  Definition sr_top v : cstep := on_r (fun r => mkR (r_sample r) v (r_linear r) (r_close r) (r_tol r) (r_weighted r) (r_hweight r) (r_matches r) (r_util r) (r_fit_error r)).
  Definition sr_linear v : cstep := on_r (fun r => mkR (r_sample r) (r_top r) v (r_close r) (r_tol r) (r_weighted r) (r_hweight r) (r_matches r) (r_util r) (r_fit_error r)).
  Definition sr_close v : cstep := on_r (fun r => mkR (r_sample r) (r_top r) (r_linear r) v (r_tol r) (r_weighted r) (r_hweight r) (r_matches r) (r_util r) (r_fit_error r)).
  Definition sr_tol v : cstep := on_r (fun r => mkR (r_sample r) (r_top r) (r_linear r) (r_close r) v (r_weighted r) (r_hweight r) (r_matches r) (r_util r) (r_fit_error r)).
  Definition sr_weighted v : cstep := on_r (fun r => mkR (r_sample r) (r_top r) (r_linear r) (r_close r) (r_tol r) v (r_hweight r) (r_matches r) (r_util r) (r_fit_error r)).
  Definition sr_hweight v : cstep := on_r (fun r => mkR (r_sample r) (r_top r) (r_linear r) (r_close r) (r_tol r) (r_weighted r) v (r_matches r) (r_util r) (r_fit_error r)).
  Definition sr_matches v : cstep := on_r (fun r => mkR (r_sample r) (r_top r) (r_linear r) (r_close r) (r_tol r) (r_weighted r) (r_hweight r) v (r_util r) (r_fit_error r)).
  Definition sr_util v : cstep := on_r (fun r => mkR (r_sample r) (r_top r) (r_linear r) (r_close r) (r_tol r) (r_weighted r) (r_hweight r) (r_matches r) v (r_fit_error r)).
  Definition sr_fit_error v : cstep := on_r (fun r => mkR (r_sample r) (r_top r) (r_linear r) (r_close r) (r_tol r) (r_weighted r) (r_hweight r) (r_matches r) (r_util r) v).

  (** calibrator.py:86-133 _generate_pairs: the single assignment self.pairs = ..., or none
      when it raises. *)
  Definition pairs_step (hull : hull_test A) : cstep := fun c => fst (generate_pairs hull c).

  (** calibrator.py:910-982 set_calibrator_properties (logger, seed and pix_to_rawpix as in
      Calib.v). *)
  Definition calibrator_steps (c : calib A) (num_pix : option A) (pixel_list : option (list A))
      (library : option string) : list cstep :=
    match match num_pix with
          | Some v => Ok v
          | None => match g_num_pix (c_gp c) with
                    | Some v => Ok v
                    | None => match c_spectrum c with
                              | Some s => Ok (nnat (List.length s))
                              | None => bind (py_max (c_peaks c)) (fun m => Ok (nlit 11 (-1) *' m))
                              end
                    end
          end with
    | Raise _ => []
    | Ok n =>
        let lib := match keep library (g_library (c_gp c)) "matplotlib"%string with Some s => s | None => ""%string end in
        [sg_num_pix (Some n); sg_pixels (keep pixel_list (g_pixels (c_gp c)) (np_arange0 n)); sg_library (Some lib)] ++
        if String.eqb lib "matplotlib" then [sg_mpl true; sg_plotly false]
        else if String.eqb lib "plotly" then [sg_plotly true; sg_mpl false] else []
    end.

  (** calibrator.py:1021-1119 set_hough_properties. *)
  Definition hough_steps (hull : hull_test A) (c : calib A) (a : hough_args A) : list cstep :=
    let h := c_hp c in
    match (match ha_num_slopes a with
           | Some v => bind (int_of v) (fun z => Ok (Some z))
           | None => Ok (keep None (h_num_slopes h) 2000%Z)
           end) with
    | Raise _ => []
    | Ok ns =>
        let val o := match o with Some v => v | None => nZ 0 end in
        let minw := keep (ha_minw a) (h_minw h) (nZ 3000) in
        let maxw := keep (ha_maxw a) (h_maxw h) (nZ 9000) in
        let rt := keep (ha_rt a) (h_rt h) (nZ 500) in
        let lt := keep (ha_lt a) (h_lt h) (nZ 100) in
        [sh_num_slopes ns; sh_xbins (keep (ha_xbins a) (h_xbins h) 100%nat);
         sh_ybins (keep (ha_ybins a) (h_ybins h) 100%nat); sh_minw minw; sh_maxw maxw; sh_rt rt; sh_lt lt;
         sh_min_intercept (Some (val minw -' val rt)); sh_max_intercept (Some (val minw +' val rt))] ++
        match g_pixels (c_gp c) with
        | None => []
        | Some px =>
            match np_ptp px with
            | Raise _ => []
            | Ok ptp =>
                [sh_min_slope (Some (min_slope_of (val minw) (val maxw) (val rt) (val lt) ptp));
                 sh_max_slope (Some (max_slope_of (val minw) (val maxw) (val rt) (val lt) ptp))] ++
                match c_atlas c with None => [] | Some _ => [pairs_step hull] end
            end
        end
    end.

  (** calibrator.py:1171-1283 set_ransac_properties. *)
  Definition ransac_steps (c : calib A) (a : ransac_args A) : list cstep :=
    let r := c_rp c in
    [sr_sample (keep (ra_sample a) (r_sample r) 5%nat); sr_top (keep (ra_top a) (r_top r) 5%nat);
     sr_linear (keep (ra_linear a) (r_linear r) true); sr_close (keep (ra_close a) (r_close r) false);
     sr_tol (keep (ra_tol a) (r_tol r) (nZ 5)); sr_weighted (keep (ra_weighted a) (r_weighted r) true);
     sr_hweight (keep (ra_hweight a) (r_hweight r) (nZ 1))] ++
    if negb (match ra_matches a with Some v => nZ 0 <' v | None => true end) then [] else
    sr_matches (keep (ra_matches a) (r_matches r) (nZ 0)) ::
    if negb (match ra_util a with Some v => (nZ 0 <=' v) && (v <=' nZ 1) | None => true end) then [] else
    sr_util (keep (ra_util a) (r_util r) (nZ 0)) ::
    if negb (match ra_fit_error a with Some v => nZ 0 <=' v | None => true end) then [] else
    [sr_fit_error (keep (ra_fit_error a) (r_fit_error r) (nlit 1 (-4)))].

  (** calibrator.py:1416-1423 set_atlas. *)
  Definition set_atlas_steps (hull : hull_test A) (a : atlas A) (cand_tol : A) (constrain : bool) : list cstep :=
    [set_c_atlas (Some a); set_c_cand_tol (Some cand_tol); set_c_constrain constrain; pairs_step hull].

  (** calibrator.py:1549-1550 set_known_pairs: pix_known, then wave_known.  Without earlier
      known pairs the state between the two (wave_known is None) is not represented. *)
  Definition known_steps (c : calib A) (pix wave : known_arg A) : list cstep :=
    match set_known_pairs c pix wave with
    | (c', Ok _) =>
        match c_known c', c_known c with
        | Some (p, w), Some (_, w0) => [set_c_known (Some (p, w0)); set_c_known (Some (p, w))]
        | k, _ => [set_c_known k]
        end
    | (_, Raise _) => []
    end.

  (** atlas.py:200-204, 277-280: an atlas [s] to which [s'] adds lines one by one, when [k] of
      them have been appended (add_user_atlas has replaced the limits before). *)
  Definition atlas_growing (s s' : atlas A) (k : nat) : atlas A :=
    at_set_lines s' (firstn (List.length (at_lines s) + k) (at_lines s')).
End SetterSteps.
Arguments cstep A : clear implicits.

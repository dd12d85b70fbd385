(** * Props_Calib: property theorems only.  The proofs are in Main_Calib.v. *)

From Coq Require Import ZArith Bool List String Lia Reals Lra.
From Verif Require Import Num F64 XReal Py Np NpFacts ArgsortFacts Util Atlas Hough SpecHough HoughFacts Calib SpecCalib CalibFacts.
From Verif Require Main_Hough.
From Verif Require Import Main_Calib.
Import ListNotations.
Local Open Scope num_scope.

(** C42: set_hough_properties / set_ransac_properties (and any other calls in
    between, none of which raises). *)
Theorem properties_last_given :
  forall (A : Type) (N : Num A) (e : env A) peaks spectrum c0 h,
    calib_init (e_hull e) peaks spectrum = Ok c0 -> cal_ok e c0 h ->
    let c := cal_run e c0 h in
    (h_num_slopes (c_hp c) =
       Some (given_or (hough_arg (fun a => match ha_num_slopes a with Some v => ntrunc v | None => None end)) h 2000%Z) /\
     h_xbins (c_hp c) = Some (given_or (hough_arg ha_xbins) h 100%nat) /\
     h_ybins (c_hp c) = Some (given_or (hough_arg ha_ybins) h 100%nat) /\
     h_minw (c_hp c) = Some (given_or (hough_arg ha_minw) h (nZ 3000)) /\
     h_maxw (c_hp c) = Some (given_or (hough_arg ha_maxw) h (nZ 9000)) /\
     h_rt (c_hp c) = Some (given_or (hough_arg ha_rt) h (nZ 500)) /\
     h_lt (c_hp c) = Some (given_or (hough_arg ha_lt) h (nZ 100))) /\
    (r_sample (c_rp c) = Some (given_or (ransac_arg ra_sample) h 5%nat) /\
     r_top (c_rp c) = Some (given_or (ransac_arg ra_top) h 5%nat) /\
     r_linear (c_rp c) = Some (given_or (ransac_arg ra_linear) h true) /\
     r_close (c_rp c) = Some (given_or (ransac_arg ra_close) h false) /\
     r_tol (c_rp c) = Some (given_or (ransac_arg ra_tol) h (nZ 5)) /\
     r_weighted (c_rp c) = Some (given_or (ransac_arg ra_weighted) h true) /\
     r_hweight (c_rp c) = Some (given_or (ransac_arg ra_hweight) h (nZ 1)) /\
     r_matches (c_rp c) = Some (given_or (ransac_arg ra_matches) h (nZ 0)) /\
     r_util (c_rp c) = Some (given_or (ransac_arg ra_util) h (nZ 0)) /\
     r_fit_error (c_rp c) = Some (given_or (ransac_arg ra_fit_error) h (nlit 1 (-4)))).
Proof. exact properties_last_given_main. Qed.
Print Assumptions properties_last_given.

(** Non-vacuity of C42: a history that sets xbins twice. *)
Example properties_last_given_example :
  exists c0, calib_init all_inside [fz 10; fz 20] None = Ok c0 /\
    let h := [OHough (mkHA (Some (fz 1000)) (Some 10%nat) None None None None None);
              ORansac (mkRA (Some 7%nat) None None None None None None None None None);
              OHough (mkHA None (Some 20%nat) None (Some (fz 4000)) None None None);
              OHough (mkHA None None None None None None None)] in
    cal_ok env0 c0 h /\
    h_xbins (c_hp (cal_run env0 c0 h)) = Some 20%nat /\
    h_num_slopes (c_hp (cal_run env0 c0 h)) = Some 1000%Z.
Proof. exact properties_last_given_example_main. Qed.

(** C43: after any history, also one with rejected calls, in IEEE doubles. *)
Theorem ransac_properties_valid :
  forall (fexp : f64 -> f64) (e : env f64) peaks spectrum c0 h,
    let N := F64num fexp in
    calib_init (e_hull e) peaks spectrum = Ok c0 ->
    let r := c_rp (cal_run e c0 h) in
    exists m u f, r_matches r = Some m /\ r_util r = Some u /\ r_fit_error r = Some f /\
      (m = nZ 0 \/ nZ 0 <' m = true) /\
      (nZ 0 <=' u = true /\ u <=' nZ 1 = true) /\ nZ 0 <=' f = true.
Proof. exact ransac_properties_valid_main. Qed.
Print Assumptions ransac_properties_valid.

(** Non-vacuity of C43: a history with a rejected and an accepted call. *)
Example ransac_properties_valid_example :
  exists c0, calib_init (N := F64c) all_inside [fz 10; fz 20] None = Ok c0 /\
    let h := [ORansac (mkRA None None None None None None None (Some (fz (-1))) None None);
              ORansac (mkRA None None None None None None None (Some (fz 4)) (Some (fz 2)) None)] in
    snd (cal_step env0 c0 (hd OUsePlotly h)) = Raise AssertionError /\
    r_matches (c_rp (cal_run env0 c0 h)) = Some (fz 4) /\
    r_util (c_rp (cal_run env0 c0 h)) = Some (fz 0).
Proof. exact ransac_properties_valid_example_main. Qed.

(** C44: refuted: a rejected call has already replaced other properties. *)
Theorem rejected_call_atomic_refuted :
  exists (c0 : calib f64) a,
    calib_init all_inside [fz 10; fz 20] None = Ok c0 /\
    snd (set_ransac_properties c0 a) = Raise AssertionError /\
    r_sample (c_rp (fst (set_ransac_properties c0 a))) <> r_sample (c_rp c0).
Proof. exact rejected_call_atomic_refuted_main. Qed.
Print Assumptions rejected_call_atomic_refuted.

(** C44, what does hold: a rejected call never stores the rejected values, changes
    no property it was not given, and touches nothing but the RANSAC properties. *)
Theorem rejected_call_partial :
  forall (A : Type) (N : Num A) (c : calib A) (a : ransac_args A) ex,
    snd (set_ransac_properties c a) = Raise ex ->
    r_matches (c_rp c) <> None -> r_util (c_rp c) <> None -> r_fit_error (c_rp c) <> None ->
    let c' := fst (set_ransac_properties c a) in
    ex = AssertionError /\
    ((exists v, ra_matches a = Some v /\ nZ 0 <' v = false /\ r_matches (c_rp c') = r_matches (c_rp c)) \/
     (exists v, ra_util a = Some v /\ (nZ 0 <=' v) && (v <=' nZ 1) = false /\ r_util (c_rp c') = r_util (c_rp c)) \/
     (exists v, ra_fit_error a = Some v /\ nZ 0 <=' v = false)) /\
    r_fit_error (c_rp c') = r_fit_error (c_rp c) /\
    (ra_matches a = None -> r_matches (c_rp c') = r_matches (c_rp c)) /\
    (ra_util a = None -> r_util (c_rp c') = r_util (c_rp c)) /\
    (ra_sample a = None -> r_sample (c_rp c) <> None -> r_sample (c_rp c') = r_sample (c_rp c)) /\
    c' = set_c_rp (c_rp c') c.
Proof. exact rejected_call_partial_main. Qed.
Print Assumptions rejected_call_partial.

(** C45: refuted: with the default settings (3000-9000, range_tolerance 500,
    linearity_tolerance 100) and 100 pixels, the straight solution from 3500 to
    8500 (both ends 500 off) is below min_slope. *)
Theorem slope_lower_limit_refuted :
  exists (c' : calib xr) lo w0 w1,
    g_pixels (c_gp c') = Some [Fin 0; Fin 99] /\
    snd (set_hough_properties all_inside c' no_hough_args) = Ok tt /\
    (let hp := c_hp (fst (set_hough_properties all_inside c' no_hough_args)) in
     h_minw hp = Some (Fin 3000) /\ h_maxw hp = Some (Fin 9000) /\ h_rt hp = Some (Fin 500) /\
     h_lt hp = Some (Fin 100) /\ h_min_slope hp = Some (Fin lo)) /\
    within w0 3000 500 /\ within w1 9000 500 /\
    (straight_slope w0 w1 99 < lo)%R.
Proof. exact slope_lower_limit_refuted_main. Qed.
Print Assumptions slope_lower_limit_refuted.

(** C45, what does hold: the upper limit always brackets, and the lower limit
    brackets exactly when range_tolerance <= 2 * linearity_tolerance. *)
Theorem slope_limits_partial :
  forall (hull : hull_test xr) (c c' : calib xr) a px p q minw maxw rt lt,
    set_hough_properties hull c a = (c', Ok tt) ->
    g_pixels (c_gp c') = Some (map Fin px) -> In p px -> In q px -> (p < q)%R ->
    h_minw (c_hp c') = Some (Fin minw) -> h_maxw (c_hp c') = Some (Fin maxw) ->
    h_rt (c_hp c') = Some (Fin rt) -> h_lt (c_hp c') = Some (Fin lt) -> (0 <= lt)%R ->
    exists first last lo hi, In first px /\ In last px /\
      (forall x, In x px -> first <= x <= last)%R /\
      h_min_slope (c_hp c') = Some (Fin lo) /\ h_max_slope (c_hp c') = Some (Fin hi) /\
      (forall w0 w1, within w0 minw rt -> within w1 maxw rt ->
         straight_slope w0 w1 (last - first) <= hi)%R /\
      ((0 <= rt)%R ->
       ((forall w0 w1, within w0 minw rt -> within w1 maxw rt ->
          lo <= straight_slope w0 w1 (last - first))%R <-> (rt <= 2 * lt)%R)).
Proof. exact slope_limits_partial_main. Qed.
Print Assumptions slope_limits_partial.

(** C46: the limits are ordered and the Hough transform accepts them. *)
Theorem limits_consistent :
  forall (hull : hull_test xr) (c c' : calib xr) a px p q minw maxw rt lt,
    set_hough_properties hull c a = (c', Ok tt) ->
    g_pixels (c_gp c') = Some (map Fin px) -> In p px -> In q px -> (p < q)%R ->
    h_minw (c_hp c') = Some (Fin minw) -> h_maxw (c_hp c') = Some (Fin maxw) ->
    h_rt (c_hp c') = Some (Fin rt) -> h_lt (c_hp c') = Some (Fin lt) ->
    (0 < rt)%R -> (0 < lt)%R ->
    exists slo shi ilo ihi,
      h_min_slope (c_hp c') = Some (Fin slo) /\ h_max_slope (c_hp c') = Some (Fin shi) /\
      h_min_intercept (c_hp c') = Some (Fin ilo) /\ h_max_intercept (c_hp c') = Some (Fin ihi) /\
      (slo < shi)%R /\ (ilo < ihi)%R /\
      (forall t, snd (set_constraints t (h_min_slope (c_hp c')) (h_max_slope (c_hp c'))
                 (h_min_intercept (c_hp c')) (h_max_intercept (c_hp c'))) = Ok tt).
Proof. exact limits_consistent_main. Qed.
Print Assumptions limits_consistent.

(** Non-vacuity of C45 and C46. *)
Example limits_example :
  exists (c c' : calib xr),
    set_hough_properties all_inside c (mkHA None None None (Some (Fin 4000)) (Some (Fin 6000))
      (Some (Fin 100)) (Some (Fin 50))) = (c', Ok tt) /\
    g_pixels (c_gp c') = Some (map Fin [0; 1; 99]%R) /\
    h_minw (c_hp c') = Some (Fin 4000) /\ h_maxw (c_hp c') = Some (Fin 6000) /\
    h_rt (c_hp c') = Some (Fin 100) /\ h_lt (c_hp c') = Some (Fin 50).
Proof. exact limits_example_main. Qed.

(** C47: refuted: for every n, a later num_pix leaves the pixel list as it was at
    construction and so has no influence on the limits. *)
Theorem num_pix_ignored_refuted :
  forall (A : Type) (N : Num A) (e : env A) peaks spectrum c0 (n : A) lib,
    calib_init (e_hull e) peaks spectrum = Ok c0 ->
    let c := cal_run e c0 [OGeneral (Some n) None lib] in
    g_num_pix (c_gp c) = Some n /\ g_pixels (c_gp c) = g_pixels (c_gp c0) /\
    forall a, c_hp (fst (set_hough_properties (e_hull e) c a)) =
              c_hp (fst (set_hough_properties (e_hull e) c0 a)).
Proof. exact num_pix_ignored_refuted_main. Qed.
Print Assumptions num_pix_ignored_refuted.

(** C47: the same with numbers: 100 pixels are asked for, 22 are used. *)
Example num_pix_ignored_example :
  exists c0 : calib f64, calib_init all_inside [fz 10; fz 20] None = Ok c0 /\
    g_pixels (c_gp (cal_run env0 c0 [OGeneral (Some (fz 100)) None None])) <> Some (np_arange0 (fz 100)) /\
    (exists l, g_pixels (c_gp (cal_run env0 c0 [OGeneral (Some (fz 100)) None None])) = Some l /\
       List.length l = 22%nat /\ List.length (np_arange0 (fz 100)) = 100%nat).
Proof. exact num_pix_ignored_example_main. Qed.

(** C47, what does hold: a given pixel_list is used by the next
    set_hough_properties, after any history. *)
Theorem pixel_list_used_partial :
  forall (A : Type) (N : Num A) (e : env A) (c : calib A) np px lib a,
    let c1 := fst (set_calibrator_properties c np (Some px) lib) in
    let c2 := fst (set_hough_properties (e_hull e) c1 a) in
    snd (set_calibrator_properties c np (Some px) lib) = Ok tt ->
    snd (set_hough_properties (e_hull e) c1 a) = Ok tt ->
    g_pixels (c_gp c1) = Some px /\
    exists minw maxw rt lt ptp,
      h_minw (c_hp c2) = Some minw /\ h_maxw (c_hp c2) = Some maxw /\
      h_rt (c_hp c2) = Some rt /\ h_lt (c_hp c2) = Some lt /\ np_ptp px = Ok ptp /\
      h_min_slope (c_hp c2) = Some (((maxw -' rt -' lt) -' (minw -' rt +' rt +' lt)) /' ptp) /\
      h_max_slope (c_hp c2) = Some (((maxw +' rt +' lt) -' (minw -' rt -' rt -' lt)) /' ptp).
Proof. exact pixel_list_used_partial_main. Qed.
Print Assumptions pixel_list_used_partial.

(** C48: exactly one library at all times; an unknown name does not change the
    selection. *)
Theorem one_library :
  forall (A : Type) (N : Num A) (e : env A) peaks spectrum c0 h,
    calib_init (e_hull e) peaks spectrum = Ok c0 ->
    let c := cal_run e c0 h in
    (which_plotting_library c = Some "matplotlib"%string \/
     which_plotting_library c = Some "plotly"%string) /\
    g_mpl (c_gp c) = negb (g_plotly (c_gp c)) /\
    (which_plotting_library (use_plotly c) = Some "plotly"%string /\
     which_plotting_library (use_matplotlib c) = Some "matplotlib"%string) /\
    (forall np px l, let c' := fst (set_calibrator_properties c np px (Some l)) in
       snd (set_calibrator_properties c np px (Some l)) = Ok tt ->
       (l = "plotly"%string -> which_plotting_library c' = Some "plotly"%string) /\
       (l = "matplotlib"%string -> which_plotting_library c' = Some "matplotlib"%string) /\
       (l <> "plotly"%string -> l <> "matplotlib"%string ->
        which_plotting_library c' = which_plotting_library c)).
Proof. exact one_library_main. Qed.
Print Assumptions one_library.

(** Non-vacuity of C48. *)
Example one_library_example :
  exists c0 : calib f64, calib_init all_inside [fz 10; fz 20] None = Ok c0 /\
    which_plotting_library (cal_run env0 c0 [OUsePlotly; OGeneral None None (Some "bokeh"%string)])
      = Some "plotly"%string.
Proof. exact one_library_example_main. Qed.

(** C49: refuted: the next set_calibrator_properties goes back to matplotlib. *)
Theorem use_plotly_permanent_refuted :
  exists c0 : calib f64, calib_init all_inside [fz 10; fz 20] None = Ok c0 /\
    which_plotting_library (cal_run env0 c0 [OUsePlotly]) = Some "plotly"%string /\
    which_plotting_library (cal_run env0 c0 [OUsePlotly; OGeneral (Some (fz 30)) None None])
      = Some "matplotlib"%string.
Proof. exact use_plotly_permanent_refuted_main. Qed.
Print Assumptions use_plotly_permanent_refuted.

(** C49, what does hold: after use_plotly() all other calls leave plotly selected,
    and so do they all after set_calibrator_properties(plotting_library="plotly"). *)
Theorem use_plotly_partial :
  forall (A : Type) (N : Num A) (e : env A) (c : calib A) h,
    Forall (fun o => names_library o = false) h ->
    (Forall (fun o => is_general o = false) h ->
     which_plotting_library (cal_run e (use_plotly c) h) = Some "plotly"%string) /\
    (forall np px, snd (set_calibrator_properties c np px (Some "plotly"%string)) = Ok tt ->
     Forall (fun o => match o with OGeneral _ _ (Some _) => False | _ => True end) h ->
     which_plotting_library
       (cal_run e (fst (set_calibrator_properties c np px (Some "plotly"%string))) h)
       = Some "plotly"%string).
Proof. exact use_plotly_partial_main. Qed.
Print Assumptions use_plotly_partial.

(** C50: the stored known pairs are valid after any history, an accepted call
    stores its arguments and a rejected one changes nothing. *)
Theorem known_pairs_valid :
  forall (A : Type) (N : Num A) (e : env A) peaks spectrum c0 h,
    calib_init (e_hull e) peaks spectrum = Ok c0 ->
    let c := cal_run e c0 h in
    valid_known (c_known c) /\
    forall p w c' r, set_known_pairs c p w = (c', r) ->
      match r with
      | Ok _ => exists lp lw, p = KList lp /\ w = KList lw /\ valid_known (Some (lp, lw)) /\
                 c_known c' = Some (lp, lw)
      | Raise _ => c' = c /\ forall lp lw, p = KList lp -> w = KList lw -> ~ valid_known (Some (lp, lw))
      end.
Proof. exact known_pairs_valid_main. Qed.
Print Assumptions known_pairs_valid.

(** Non-vacuity of C50: an accepted call followed by a rejected one. *)
Example known_pairs_valid_example :
  exists c0 : calib f64, calib_init all_inside [fz 10; fz 20] None = Ok c0 /\
    c_known (cal_run env0 c0 [OKnown (KList [fz 3]) (KList [fz 4000]);
                              OKnown (KList [fz 3; fz 5]) (KList [fz 4100])])
      = Some ([fz 3], [fz 4000]).
Proof. exact known_pairs_valid_example_main. Qed.

(** C51: the pairs after set_atlas without constrain_poly. *)
Theorem pairs_full_product :
  forall (A : Type) (N : Num A) (hull : hull_test A) (c : calib A) (a : atlas A) ct,
    let c' := fst (set_atlas hull c a ct false) in
    snd (set_atlas hull c a ct false) = Ok tt /\
    (c_peaks c <> [] -> get_lines a <> [] ->
     exists rows, c_pairs c' = PArr rows /\
       List.length rows = (List.length (c_peaks c) * List.length (get_lines a))%nat /\
       (forall i j p w, nth_error (c_peaks c) i = Some p -> nth_error (get_lines a) j = Some w ->
          nth_error rows (i * List.length (get_lines a) + j) = Some (p, w))).
Proof. exact pairs_full_product_main. Qed.
Print Assumptions pairs_full_product.

Example pairs_full_product_example :
  exists c0 : calib f64, calib_init all_inside [fz 10; fz 20] None = Ok c0 /\
    c_pairs (fst (set_atlas all_inside c0 atlas2 (fz 10) false)) =
      PArr [(fz 10, fz 4000); (fz 10, fz 5000); (fz 20, fz 4000); (fz 20, fz 5000)].
Proof. exact pairs_full_product_example_main. Qed.

(** C52: with constrain_poly, for a hull test that decides each point. *)
Theorem pairs_constrained :
  forall (A : Type) (N : Num A) (e : env A) (inside : list (A * A) -> A * A -> bool)
         peaks spectrum c0 h (a : atlas A) ct,
    (forall k pts, e_hull e k pts = Ok (map (inside k) pts)) ->
    calib_init (e_hull e) peaks spectrum = Ok c0 ->
    let c := cal_run e c0 h in
    snd (set_atlas (e_hull e) c a ct true) = Ok tt ->
    exists minw maxw rt px m rows,
      h_minw (c_hp c) = Some minw /\ h_maxw (c_hp c) = Some maxw /\ h_rt (c_hp c) = Some rt /\
      g_pixels (c_gp c) = Some px /\ np_amax px = Ok m /\
      is_product (c_peaks c) (get_lines a) rows /\
      c_pairs (fst (set_atlas (e_hull e) c a ct true)) =
        PArr (filter (inside [(nZ 0, minw +' rt +' ct); (nZ 0, minw -' rt -' ct);
                              (m, maxw -' rt -' ct); (m, maxw +' rt +' ct)]) rows).
Proof. exact pairs_constrained_main. Qed.
Print Assumptions pairs_constrained.

(** Non-vacuity of C52: a box as hull test that drops one of the four pairs. *)
Example pairs_constrained_example :
  let inside := fun (_ : list (f64 * f64)) (q : f64 * f64) => fst q <' fz 15 in
  let e := mkEnv argsort_stable (mkCatalogue [] (fun _ => None)) (fun k pts => Ok (map (inside k) pts)) in
  exists c0 : calib f64, calib_init (e_hull e) [fz 10; fz 20] None = Ok c0 /\
    snd (set_atlas (e_hull e) c0 atlas2 (fz 10) true) = Ok tt /\
    c_pairs (fst (set_atlas (e_hull e) c0 atlas2 (fz 10) true)) =
      PArr [(fz 10, fz 4000); (fz 10, fz 5000)].
Proof. exact pairs_constrained_example_main. Qed.

(** C53: refuted: removing lines or clearing the atlas leaves the old pairs. *)
Theorem pairs_follow_atlas_refuted :
  exists c0 : calib f64, calib_init all_inside [fz 10; fz 20] None = Ok c0 /\
    (let c := cal_run env0 c0 [OSetAtlas atlas2 (fz 10) false; ORemove (fz 4000) (fz 1)] in
     exists a, c_atlas c = Some a /\ get_lines a = [fz 5000] /\
       c_pairs c = PArr [(fz 10, fz 4000); (fz 10, fz 5000); (fz 20, fz 4000); (fz 20, fz 5000)]) /\
    (let c := cal_run env0 c0 [OSetAtlas atlas2 (fz 10) false; OClear] in
     exists a, c_atlas c = Some a /\ get_lines a = [] /\
       c_pairs c = PArr [(fz 10, fz 4000); (fz 10, fz 5000); (fz 20, fz 4000); (fz 20, fz 5000)]).
Proof. exact pairs_follow_atlas_refuted_main. Qed.
Print Assumptions pairs_follow_atlas_refuted.

(** C53, what does hold: in a history of accepted calls without
    remove_atlas_lines_range and clear_atlas, the pairs are those of the current
    atlas (as long as constrain_poly is off). *)
Theorem pairs_follow_atlas_partial :
  forall (A : Type) (N : Num A) (e : env A) peaks spectrum c0 h,
    calib_init (e_hull e) peaks spectrum = Ok c0 -> cal_ok e c0 h ->
    Forall (fun o => shrinks_atlas o = false) h ->
    let c := cal_run e c0 h in
    match c_atlas c with
    | None => c_pairs c = PMissing
    | Some a => c_constrain c = false -> pairs_of_atlas peaks a (c_pairs c)
    end.
Proof. exact pairs_follow_atlas_partial_main. Qed.
Print Assumptions pairs_follow_atlas_partial.

(** Non-vacuity of C53: lines added later appear in the pairs. *)
Example pairs_follow_atlas_example :
  exists c0 : calib f64, calib_init all_inside [fz 10; fz 20] None = Ok c0 /\
    let u := mkUserArgs (UElSeq (SeqList ["Ar"%string])) (SeqList [fz 6000]) (Some (SeqList [fz 1])) false (fz 0) (fz 0) (fz 0) in
    let h := [OSetAtlas atlas2 (fz 10) false; OAddUser u (fz 10) false] in
    cal_ok env0 c0 h /\
    c_pairs (cal_run env0 c0 h) =
      PArr [(fz 10, fz 4000); (fz 10, fz 5000); (fz 10, fz 6000);
            (fz 20, fz 4000); (fz 20, fz 5000); (fz 20, fz 6000)].
Proof. exact pairs_follow_atlas_example_main. Qed.

Theorem stale_hough_refuted :
  exists c0 : calib f64, calib_init all_inside [fz 10; fz 20] None = Ok c0 /\
    let later := OHough (mkHA None None None (Some (fz 4000)) (Some (fz 5000)) None None) in
    let c := cal_run env0 c0 (hough_history ++ [later]) in
    cal_ok env0 c0 (hough_history ++ [later]) /\
    fit_hough argsort_stable c = (c, Ok tt) /\
    c_lines c <> None /\
    c_lines (fst (do_hough_transform argsort_stable c false)) <> c_lines c.
Proof. exact stale_hough_refuted_main. Qed.
Print Assumptions stale_hough_refuted.

(** ... and a transform loaded by the user is thrown away by fit(). *)
Theorem loaded_hough_discarded_refuted :
  exists c0 : calib f64, calib_init all_inside [fz 10; fz 20] None = Ok c0 /\
    let c1 := cal_run env0 c0 hough_history in
    let fs := fst (save_hough_transform c1 (fun _ => None) "t" "npy" true) in
    let other := OHough (mkHA (Some (fz 10)) (Some 2%nat) (Some 2%nat) (Some (fz 4000)) (Some (fz 5000)) None None) in
    let h := [other; OSetAtlas atlas2 (fz 10) false; OLoad fs "t" "npy"] in
    let c2 := cal_run env0 c0 h in
    cal_ok env0 c0 h /\ ho_points (c_ht c2) = ho_points (c_ht c1) /\
    ho_points (c_ht c2) <> None /\
    snd (fit_hough argsort_stable c2) = Ok tt /\
    ho_points (c_ht (fst (fit_hough argsort_stable c2))) <> ho_points (c_ht c2).
Proof. exact loaded_hough_discarded_refuted_main. Qed.
Print Assumptions loaded_hough_discarded_refuted.

(** C54, what does hold: as long as no transform has been computed, fit() computes
    one from the current pairs, limits and settings, whatever happened before. *)
Theorem fit_hough_current_partial :
  forall (A : Type) (N : Num A) (e : env A) peaks spectrum c0 h,
    calib_init (e_hull e) peaks spectrum = Ok c0 ->
    Forall (fun o => transforms o = false) h ->
    let c := cal_run e c0 h in
    let (c', r) := fit_hough (e_argsort e) c in
    r = Ok tt ->
    exists rows ns xb yb t1 t2,
      c_pairs c = PArr rows /\ h_num_slopes (c_hp c) = Some ns /\ (0 <= ns)%Z /\
      h_xbins (c_hp c) = Some xb /\ h_ybins (c_hp c) = Some yb /\
      set_constraints (c_ht c) (h_min_slope (c_hp c)) (h_max_slope (c_hp c))
        (h_min_intercept (c_hp c)) (h_max_intercept (c_hp c)) = (t1, Ok tt) /\
      generate_hough_points t1 (map fst rows) (map snd rows) (Z.to_nat ns) = (t2, Ok tt) /\
      bin_hough_points (e_argsort e) t2 xb yb = (c_ht c', Ok tt) /\
      c_lines c' = ho_lines (c_ht c') /\ c_points c' = ho_points (c_ht c').
Proof. exact fit_hough_current_partial_main. Qed.
Print Assumptions fit_hough_current_partial.

(** Non-vacuity of C54: a history after which fit() can compute the transform. *)
Example fit_hough_current_example :
  exists c0 : calib f64, calib_init all_inside [fz 10; fz 20] None = Ok c0 /\
    snd (fit_hough argsort_stable (cal_run env0 c0 (firstn 2 hough_history))) = Ok tt.
Proof. exact fit_hough_current_example_main. Qed.

(** C84: refuted: save_hough_transform(to_disk=False) returns nothing, for every
    transform and format. *)
Theorem save_returns_data_refuted :
  forall (A : Type) (N : Num A) (c : calib A) fs name fmt v,
    snd (save_hough_transform c fs name fmt false) = Ok v -> v = SvNone.
Proof. exact save_returns_data_refuted_main. Qed.
Print Assumptions save_returns_data_refuted.

(** C84 (part that holds): with to_disk=False no file is touched; with to_disk=True
    the data go to the named file, from where any calibrator can load them. *)
Theorem save_to_disk_partial :
  forall (A : Type) (N : Num A) (c d : calib A) fs name fmt,
    fst (save_hough_transform c fs name fmt false) = fs /\
    (complete (c_ht c) -> str_in "npy"%string (split_plus fmt) = true -> str_last 4 name <> ".npy"%string ->
     exists d', load_hough_transform d (fst (save_hough_transform c fs name fmt true)) name "npy"%string = (d', Ok tt) /\
       same_stored (c_ht c) (c_ht d')).
Proof. exact save_to_disk_partial_main. Qed.
Print Assumptions save_to_disk_partial.

(** A transform computed in a session is complete. *)
Example save_to_disk_example :
  exists c0 : calib f64, calib_init all_inside [fz 10; fz 20] None = Ok c0 /\
    complete (c_ht (cal_run env0 c0 hough_history)) /\ str_last 4 "hough" <> ".npy"%string.
Proof. exact save_to_disk_example_main. Qed.

(** C84: while the HoughTransform itself returns its content. *)
Example save_returns_data_example :
  exists c0 : calib f64, calib_init all_inside [fz 10; fz 20] None = Ok c0 /\
    let c := cal_run env0 c0 hough_history in
    (exists d, snd (hough_save (c_ht c) (fun _ => None) "t" "npy" false) = Ok (SvNpy d)) /\
    snd (save_hough_transform c (fun _ => None) "t" "npy" false) = Ok SvNone.
Proof. exact save_returns_data_example_main. Qed.

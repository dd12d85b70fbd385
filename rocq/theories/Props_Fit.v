(** * Props_Fit: property theorems only.  The proofs are in Main_Fit.v. *)

From Coq Require Import ZArith Bool List String Lia Reals Lra Sorted.
From Verif Require Import Num F64 XReal Py Np NpFacts ArgsortFacts Util Models Atlas Hough PolyEval Calib SpecCalib Main_Calib Cand SpecCand CandFacts Ransac SpecRansac RansacFacts Main_Ransac Fit SpecFit FitFacts.
From Verif Require Import Main_Fit.
Import ListNotations.
Local Open Scope num_scope.

(** C90: what a successful fit reports was observed: different peaks of the calibrator,
    in one-to-one correspondence with lines of its atlas in increasing order, more of
    them than the degree; with linear candidates each pair is one of the pairs allowed
    by the calibrator's limits and lies within candidate_tolerance of a Hough line. *)
Theorem fit_matches_observed :
  forall (A : Type) (N : Num A) (O : NumOrder A) (o : oracle A) fuel c a c' v at_,
    (forall l, is_argsort l (o_argsort o l)) -> pairs_current c -> c_atlas c = Some at_ ->
    no_nan (c_peaks c) -> no_nan (get_lines at_) ->
    fit o fuel c a = Some (c', Ok v) ->
    exists xs ys,
      fv_mpeaks v = MList xs /\ fv_matlas v = MList ys /\ List.length xs = List.length ys /\
      pairwise_different xs /\ StronglySorted (fun u w => u <' w = true) ys /\
      (degree_used a < List.length xs)%nat /\
      (forall p, In p xs -> exists q, In q (c_peaks c) /\ q ==' p = true) /\
      (forall w, In w ys -> exists z, In z (get_lines at_) /\ z ==' w = true) /\
      (r_linear (c_rp c) = Some true ->
       exists lines pairs, c_lines c' = Some lines /\ c_pairs c = PArr pairs /\
         forall k p w, nth_error xs k = Some p -> nth_error ys k = Some w ->
           exists p' w', In (p', w') pairs /\ p' ==' p = true /\ w' ==' w = true /\
                         near_line lines (fa_ctol a) p' w').
Proof. exact fit_matches_observed_main. Qed.
Print Assumptions fit_matches_observed.

(** A session through the API, for C65, C68, C90, C91: five peaks, five lines. *)
Example fit_session_example :
  cal_ok env0 (match calib_init all_inside ex_peaks None with Ok c => c | Raise _ => calib_blank [] None end)
    (session 2 (fz 1) ex_waves) /\
  pairs_current c_session /\
  match c_atlas c_session with
  | Some at_ => get_lines at_ = ex_waves
  | None => False
  end /\
  r_linear (c_rp c_session) = Some true /\
  match fit o_ex 60 c_session a_session with
  | Some (c', Ok v) =>
      fv_mpeaks v = MList ex_peaks /\ fv_matlas v = MList ex_waves /\ fv_putil v = fz 1 /\
      r_sample (c_rp c') = Some 2%nat
  | _ => False
  end.
Proof. exact fit_session_example_main. Qed.

(** C65: the utilisations are the number of matches over the number of peaks and over
    the number of lines, and are fractions. *)
Theorem fit_utilisation :
  forall (o : oracle xr) fuel c a c' v at_,
    (forall l, is_argsort l (o_argsort o l)) -> pairs_current c -> c_atlas c = Some at_ ->
    no_nan (c_peaks c) -> no_nan (get_lines at_) ->
    fit o fuel c a = Some (c', Ok v) ->
    exists xs pu au,
      fv_mpeaks v = MList xs /\
      fv_putil v = Fin pu /\ fv_autil v = Fin au /\ c_putil c' = Some (Fin pu) /\ c_autil c' = Some (Fin au) /\
      (pu = INR (List.length xs) / INR (List.length (c_peaks c)))%R /\
      (au = INR (List.length xs) / INR (atlas_len at_))%R /\
      (0 < pu <= 1)%R /\ (0 < au <= 1)%R.
Proof. exact fit_utilisation_main. Qed.
Print Assumptions fit_utilisation.

(** C65 needs pairs generated from the current atlas: after clear_atlas the old pairs
    are still used, the fit reports lines that are not in the atlas and the atlas
    utilisation is infinite. *)
Theorem fit_stale_pairs_refuted :
  let c := after ex_peaks (session 2 (fz 1) ex_waves ++ [OClear]) in
  match c_atlas c, fit o_ex 60 c a_session with
  | Some at_, Some (c', Ok v) =>
      get_lines at_ = [] /\ fv_matlas v = MList ex_waves /\ fz 1 <' fv_autil v = true
  | _, _ => False
  end.
Proof. exact fit_stale_pairs_refuted_main. Qed.
Print Assumptions fit_stale_pairs_refuted.

(** C91: what fit returns is what it stores. *)
Theorem fit_returns_stored :
  forall (A : Type) (N : Num A) (O : NumOrder A) (o : oracle A) fuel c a c' v,
    fit o fuel c a = Some (c', Ok v) ->
    c_coeff c' = Some (fv_coeff v) /\ c_mpeaks c' = fv_mpeaks v /\ c_matlas c' = fv_matlas v /\
    c_rms c' = Some (fv_rms v) /\ c_resid c' = fv_resid v /\
    c_putil c' = Some (fv_putil v) /\ c_autil c' = Some (fv_autil v) /\ c_kind c' = fa_type a /\
    same_input c c'.
Proof. exact fit_returns_stored_main. Qed.
Print Assumptions fit_returns_stored.

(** C68, the part that holds: unless coefficients for a higher degree are supplied or
    the degree is at least the number of lines, a successful search (not brute force)
    ran with a sample larger than the degree and no larger than the numbers of peaks
    and of lines. *)
Theorem sample_size_usable_partial :
  forall (A : Type) (N : Num A) (O : NumOrder A) (o : oracle A) fuel c a c' v at_,
    (forall l, is_argsort l (o_argsort o l)) -> pairs_current c -> c_atlas c = Some at_ ->
    no_nan (c_peaks c) -> no_nan (get_lines at_) ->
    fit o fuel c a = Some (c', Ok v) -> fa_brute a = false ->
    (degree_used a <= fa_deg a < atlas_len at_)%nat ->
    exists n, r_sample (c_rp c') = Some n /\
      (degree_used a < n)%nat /\ (n <= List.length (c_peaks c))%nat /\ (n <= atlas_len at_)%nat.
Proof. exact sample_size_usable_partial_main. Qed.
Print Assumptions sample_size_usable_partial.

Theorem sample_size_usable_refuted :
  (let a := mkFA 3 1 (Some [fz 3000; fz 9; fz 0]) (fz 5) (Some FitPoly) (fz 50) false in
   match fit o_quad 60 c_session a with
   | Some (c', Ok v) => degree_used a = 2%nat /\ r_sample (c_rp c') = Some 2%nat
   | _ => False
   end) /\
  (let c := after ex_peaks (session 2 (fz 1) [fz 4002; fz 6101]) in
   let a := mkFA 3 2 None (fz 5) (Some FitPoly) (fz 5000) false in
   match c_atlas c, fit o_quad 60 c a with
   | Some at_, Some (c', r) =>
       atlas_len at_ = 2%nat /\ r_sample (c_rp c') = Some 3%nat /\ (exists e, r = Raise e)
   | _, _ => False
   end).
Proof. exact sample_size_usable_refuted_main. Qed.
Print Assumptions sample_size_usable_refuted.

(** C86, the part that holds: of what the user supplied, fit changes only sample_size
    and minimum_matches. *)
Theorem fit_keeps_settings_partial :
  forall (A : Type) (N : Num A) (O : NumOrder A) (o : oracle A) fuel c a c' r,
    fit o fuel c a = Some (c', r) -> same_input c c' /\ same_ransac c c'.
Proof. exact fit_keeps_settings_partial_main. Qed.
Print Assumptions fit_keeps_settings_partial.

(** C86 fails: a fit with a small atlas lowers sample_size from 9 to 5 and
    minimum_matches from 7 to 5 for good. *)
Theorem fit_keeps_settings_refuted :
  let c := after ex_peaks (session 9 (fz 7) ex_waves) in
  r_sample (c_rp c) = Some 9%nat /\ r_matches (c_rp c) = Some (fz 7) /\
  match fit o_ex 60 c a_session with
  | Some (c', _) => r_sample (c_rp c') = Some 5%nat /\ r_matches (c_rp c') = Some (fz 5)
  | None => False
  end.
Proof. exact fit_keeps_settings_refuted_main. Qed.
Print Assumptions fit_keeps_settings_refuted.

(** C87, the part that holds: a fit that raises leaves the figures of the last fit (rms,
    residuals, utilisations) and everything the user supplied, but sample_size and
    minimum_matches, unchanged. *)
Theorem failed_fit_partial :
  forall (A : Type) (N : Num A) (O : NumOrder A) (o : oracle A) fuel c a c' e,
    fit o fuel c a = Some (c', Raise e) -> same_input c c' /\ same_ransac c c' /\ same_figures c c'.
Proof. exact failed_fit_partial_main. Qed.
Print Assumptions failed_fit_partial.

(** C87 fails: after a successful fit, a second call with an unknown fit_type, or one
    that finds no solution, raises and the coefficients are gone. *)
Theorem failed_fit_refuted :
  match fit o_ex 60 c_session a_session with
  | Some (c', Ok v) =>
      c_coeff c' = Some (fv_coeff v) /\
      match fit o_ex 60 c' (mkFA 3 1 None (fz 5) None (fz 50) false) with
      | Some (c'', Raise ValueError) => c_coeff c'' = None
      | _ => False
      end /\
      match fit o_ex 60 c' (mkFA 3 1 None (fz 5) (Some FitPoly) (fz 0) false) with
      | Some (c'', Raise AssertionError) => c_coeff c'' = None
      | _ => False
      end
  | _ => False
  end.
Proof. exact failed_fit_refuted_main. Qed.
Print Assumptions failed_fit_refuted.

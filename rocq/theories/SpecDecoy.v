(** * SpecDecoy: candidates among which those on a polynomial are mixed with wrong ones. *)

From Coq Require Import ZArith Bool List Reals Sorted String.
From Verif Require Import Num XReal Py Np Util Models SpecPoly Atlas Hough SpecHough PolyEval Calib Cand Ransac Fit SpecRecover.
Import ListNotations.
Local Open Scope R_scope.

(** Only co goes through candidates (pixel, wavelength) of as many different peaks as
    the settings ask for: more than the degree, at least minimum_matches (m) and at
    least the share t (minimum_peak_utilisation) of the np peaks of the calibrator. *)
Definition unambiguous (deg : nat) (co : list R) (cands : list (R * R)) (m t : R) (np : nat) : Prop :=
  forall p pts,
    List.length p = S deg -> NoDup (map fst pts) -> incl pts cands ->
    (deg < List.length pts)%nat -> m <= INR (List.length pts) -> t * INR np <= INR (List.length pts) ->
    (forall u w, In (u, w) pts -> poly p u = w) ->
    p = co.

(** The candidates of calibrator c are the pairs of x and y.  Each peak of us has the
    wavelength of the polynomial co among its candidates, and any others; the
    polynomial is increasing around the peaks and the settings admit it. *)
Record decoy_problem (o : oracle xr) (c : calib xr) (ctol : xr) (deg size : nat) (co us x y : list R) : Prop := {
  dp_candidates : ransac_xy o c ctol = Ok (map Fin x, map Fin y) /\ List.length x = List.length y;
  dp_peaks : forall u, In u us <-> In u x;
  dp_true : forall u, In u us -> In (u, poly co u) (combine x y);
  dp_sorted : StronglySorted Rlt us;
  dp_degree : List.length co = S deg /\ (1 <= deg < List.length us)%nat;
  dp_kind : c_kind c = Some FitPoly;
  dp_known : c_known c = None;
  dp_size : r_sample (c_rp c) = Some size;
  dp_tol : exists tol, r_tol (c_rp c) = Some (Fin tol) /\ 0 < tol;
  dp_intercept : exists lo hi, h_min_intercept (c_hp c) = Some (Fin lo) /\ h_max_intercept (c_hp c) = Some (Fin hi) /\
                   lo <= hd 0 co <= hi;
  dp_increasing : let width := last us 0 - hd 0 us in
    forall u v, hd 0 us - width / 5 <= u -> v <= last us 0 + width / 5 -> u < v -> poly co u < poly co v;
  dp_pixels : exists px, g_pixels (c_gp c) = Some (map Fin px);
  dp_matches : exists m t,
    r_matches (c_rp c) = Some (Fin m) /\ m <= INR (List.length us) /\
    r_util (c_rp c) = Some (Fin t) /\ t * INR (List.length (c_peaks c)) <= INR (List.length us) /\
    unambiguous deg co (combine x y) m t (List.length (c_peaks c));
  (** no lower limit on the error of an acceptable fit *)
  dp_error : exists e, r_fit_error (c_rp c) = Some (Fin e) /\ e <= 0;
  dp_density : usable_density o c;
  dp_polyfit : exact_polyfit o deg co;
  dp_robust : exact_robust o deg co us
}.

(** Every trial fit made gave deg + 1 finite coefficients. *)
Definition finite_fits (o : oracle xr) (deg : nat) (log : list (list xr * list xr)) : Prop :=
  forall d p, In d log -> o_polyfit o FitPoly (fst d) (snd d) deg = Ok p ->
    exists q, p = map Fin q /\ List.length q = S deg.

(** A sample of right candidates only: more different peaks than the degree. *)
Definition true_sample (deg : nat) (co : list R) (d : list xr * list xr) : Prop :=
  exists xh, NoDup xh /\ (deg < List.length xh)%nat /\ d = (map Fin xh, map Fin (map (poly co) xh)).

(** The same in terms of the settings before the call of fit: x and y are the
    candidates it searches among. *)
Record decoy_session (c : calib xr) (a : fit_args xr) (co us x y : list R) : Prop := {
  ds_args : fa_type a = Some FitPoly /\ fa_coeff a = None;
  ds_peaks : List.length x = List.length y /\ forall u, In u us <-> In u x;
  ds_true : forall u, In u us -> In (u, poly co u) (combine x y);
  ds_sorted : StronglySorted Rlt us;
  ds_degree : List.length co = S (fa_deg a) /\ (1 <= fa_deg a < List.length us)%nat;
  ds_known : c_known c = None;
  ds_tol : exists tol, r_tol (c_rp c) = Some (Fin tol) /\ 0 < tol;
  ds_intercept : exists lo hi, h_min_intercept (c_hp c) = Some (Fin lo) /\ h_max_intercept (c_hp c) = Some (Fin hi) /\
                   lo <= hd 0 co <= hi;
  ds_increasing : let width := last us 0 - hd 0 us in
    forall u v, hd 0 us - width / 5 <= u -> v <= last us 0 + width / 5 -> u < v -> poly co u < poly co v;
  ds_pixels : exists px, g_pixels (c_gp c) = Some (map Fin px);
  ds_matches : exists m t at_,
    c_atlas c = Some at_ /\ m <= INR (atlas_len at_) /\ m <= INR (List.length (c_peaks c)) /\
    r_matches (c_rp c) = Some (Fin m) /\ m <= INR (List.length us) /\
    r_util (c_rp c) = Some (Fin t) /\ t * INR (List.length (c_peaks c)) <= INR (List.length us) /\
    unambiguous (fa_deg a) co (combine x y) m t (List.length (c_peaks c));
  ds_error : exists e, r_fit_error (c_rp c) = Some (Fin e) /\ e <= 0;
  ds_weight : exists w, r_hweight (c_rp c) = Some (Fin w) /\ 0 <= w
}.

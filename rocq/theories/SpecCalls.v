(** * SpecCalls: how a search rates its trial fits. *)

From Coq Require Import ZArith Bool List.
From Verif Require Import Num Py Np PolyEval Atlas Calib Cand Ransac Fit SpecRansac.
Import ListNotations.
Local Open Scope num_scope.

Section Spec.
  Context {A : Type} {N : Num A}.

  (** Every candidate pair (x_i, y_i) is a peak and a line of the calibrator. *)
  Definition candidates_of (c : calib A) (x y : list A) : Prop :=
    length x = length y /\ (forall p, In p x -> In p (c_peaks c)) /\
    exists at_, c_atlas c = Some at_ /\ forall w, In w y -> In w (get_lines at_).

  (** The numbers by which trials are rated are the attributes of the calibrator: the
      kind of polynomial, ransac_tolerance, the limits on the intercept, the pixel list,
      hough_weight and the Hough transform, minimum_fit_error, minimum_matches,
      minimum_peak_utilisation and the number of peaks. *)
  Definition rated_by (o : oracle A) (c : calib A) (deg : nat) (x y : list A) (f : cfg A) : Prop :=
    c_kind c = Some (f_kind f) /\ f_deg f = deg /\
    f_peaks f = np_unique x /\ f_dict f = build_dict x y /\ r_tol (c_rp c) = Some (f_tol f) /\
    h_min_intercept (c_hp c) = Some (f_ilo f) /\ h_max_intercept (c_hp c) = Some (f_ihi f) /\
    g_pixels (c_gp c) = Some (f_pixels f) /\ f_hw f = r_hweight (c_rp c) /\
    make_spline o (c_ht c) (r_hweight (c_rp c)) = Ok (f_spline f) /\
    r_fit_error (c_rp c) = Some (f_minerr f) /\ r_matches (c_rp c) = Some (f_minmatch f) /\
    r_util (c_rp c) = Some (f_minutil f) /\ f_npeaks f = length (c_peaks c).
End Spec.

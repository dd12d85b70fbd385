(** * SpecSim: the settings of a calibration of a simulated arc. *)

From Coq Require Import ZArith Bool List Reals Sorted String.
From Verif Require Import Num XReal Py Np Util Models SpecPoly Atlas Hough SpecHough PolyEval Calib Cand Ransac Fit SpecRecover SpecVote SpecRegion SpecCover Synthetic.
Import ListNotations.
Local Open Scope R_scope.

(** The inversion of the model of s gives solutions. *)
Definition inverts (inv : inverter xr) (s : synth xr) : Prop :=
  forall v p, inv (sy_model s) v = Ok p -> Forall2 (fun pix x => model_at s pix = Ok x) p v.

(** The settings of the calibrator c and the arguments a of fit, for peaks at us and
    atlas lines at ls; co are the coefficients fit ought to find, lowest power first.
    Nothing is said about which line belongs to which peak: that follows from the
    simulation. *)
Record sim_settings (c : calib xr) (a : fit_args xr) (us ls : list R) (n xb yb : nat)
    (lo_s hi_s lo_i hi_i tol : R) (size : nat) (co : list R) : Prop := {
  (** the arguments of fit *)
  si_args : fa_type a = Some FitPoly /\ fa_coeff a = None /\ fa_brute a = false /\ (1 <= fa_tries a)%nat /\
            fa_ctol a = Fin tol;
  si_degree : fa_deg a = (List.length co - 1)%nat;
  (** the Hough properties, and no transform yet *)
  si_hough : h_num_slopes (c_hp c) = Some (Z.of_nat n) /\ (n >= 1)%nat /\
             h_xbins (c_hp c) = Some xb /\ (xb >= 1)%nat /\ h_ybins (c_hp c) = Some yb /\ (yb >= 1)%nat /\
             h_min_slope (c_hp c) = Some (Fin lo_s) /\ h_max_slope (c_hp c) = Some (Fin hi_s) /\
             h_min_intercept (c_hp c) = Some (Fin lo_i) /\ h_max_intercept (c_hp c) = Some (Fin hi_i) /\
             lo_s <= hi_s /\ lo_i <= hi_i /\ c_lines c = None;
  si_widths : (exists rt, h_rt (c_hp c) = Some rt) /\ (exists lt, h_lt (c_hp c) = Some lt);
  (** the RANSAC properties *)
  si_linear : r_linear (c_rp c) = Some true /\ r_close (c_rp c) = Some false;
  si_top : (exists top, r_top (c_rp c) = Some top /\ (1 <= top)%nat) /\ (exists b, r_weighted (c_rp c) = Some b);
  si_tol : exists t, r_tol (c_rp c) = Some (Fin t) /\ 0 < t;
  si_size : r_sample (c_rp c) = Some size /\ (List.length co <= size < List.length us)%nat /\ (size <= List.length ls)%nat;
  si_matches : exists m, r_matches (c_rp c) = Some (Fin m) /\ m <= INR (List.length us);
  si_util : exists t, r_util (c_rp c) = Some (Fin t) /\ t <= 1;
  si_weight : exists w, r_hweight (c_rp c) = Some (Fin w) /\ 0 <= w;
  si_rest : c_known c = None /\ exists px, g_pixels (c_gp c) = Some (map Fin px);
  (** the limits let a line through each right pair, the bins are fine enough, *)
  si_right : forall u, In u us -> line_through lo_s hi_s lo_i hi_i n u (poly co u) /\
               half_bin lo_s hi_s xb * Rabs u + half_bin lo_i hi_i yb <= tol;
  (** and no wrong pair is near a line that can be tried *)
  si_wrong : forall p w, In p us -> In w ls -> compatible lo_s hi_s lo_i hi_i n (list_prod us ls) tol p w -> w = poly co p;
  si_intercept : lo_i <= hd 0 co <= hi_i;
  (** no peak on an inner edge of the ten bins of the sampler (see C66) *)
  si_edges : forall lo hi, data_range us lo hi -> forall p i, In p us -> (1 <= i <= 9)%nat -> p <> edge lo hi 10 i
}.

(** The polynomial increases on the detector, from p0 to p1, and a fifth of its width
    beyond, and the peaks lie on it. *)
Definition on_detector (co us : list R) (p0 p1 : R) : Prop :=
  p0 < p1 /\ (forall u, In u us -> p0 <= u <= p1) /\
  let m := (p1 - p0) / 5 in
  forall u v, p0 - m <= u -> v <= p1 + m -> u < v -> poly co u < poly co v.

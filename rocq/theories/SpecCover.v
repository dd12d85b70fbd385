(** * SpecCover: what is asked of a calibrator and of the libraries for data on a
    polynomial to be recovered, in terms of what the user sets. *)

From Coq Require Import ZArith Bool List Reals Sorted String.
From Verif Require Import Num XReal Py Np Util Models SpecPoly Atlas Hough SpecHough PolyEval Calib Cand Ransac Fit SpecRecover SpecVote SpecRegion.
Import ListNotations.
Local Open Scope R_scope.

(** One of the slopes tried gives a line through (p, w) with an intercept inside the
    limits. *)
Definition line_through (lo_s hi_s lo_i hi_i : R) (n : nat) (p w : R) : Prop :=
  exists k, (k < n)%nat /\ lo_i <= w - slope_at lo_s hi_s n k * p <= hi_i.

(** RectBivariateSpline: finite and not negative everywhere. *)
Definition spline_not_negative (o : oracle xr) : Prop :=
  forall xs ys h, exists sp, o_spline o xs ys h = Ok sp /\ forall a b, exists v, sp (Fin a) (Fin b) = Fin v /\ 0 <= v.

(** The settings and the data of one fit.  The lines lie on the polynomial co at the
    pixels us; the limits and tolerances exclude every wrong pair and no right one. *)
Record sound_session (c : calib xr) (a : fit_args xr) (pairs : list (R * R)) (n xb yb : nat)
    (lo_s hi_s lo_i hi_i tol : R) (size : nat) (co us : list R) : Prop := {
  (** the arguments of fit *)
  ss_args : fa_type a = Some FitPoly /\ fa_coeff a = None /\ fa_brute a = false /\ (1 <= fa_tries a)%nat /\
            fa_ctol a = Fin tol;
  ss_degree : List.length co = S (fa_deg a) /\ (1 <= fa_deg a)%nat;
  (** the Hough properties, and no transform yet *)
  ss_ready : hough_ready c pairs n xb yb lo_s hi_s lo_i hi_i /\ c_lines c = None;
  ss_widths : (exists rt, h_rt (c_hp c) = Some rt) /\ (exists lt, h_lt (c_hp c) = Some lt);
  (** the RANSAC properties *)
  ss_linear : r_linear (c_rp c) = Some true /\ r_close (c_rp c) = Some false;
  ss_top : (exists top, r_top (c_rp c) = Some top /\ (1 <= top)%nat) /\ (exists b, r_weighted (c_rp c) = Some b);
  ss_tol : exists t, r_tol (c_rp c) = Some (Fin t) /\ 0 < t;
  ss_size : r_sample (c_rp c) = Some size /\ (fa_deg a < size < List.length us)%nat /\
            exists at_, c_atlas c = Some at_ /\ (size <= atlas_len at_)%nat;
  ss_matches : exists m, r_matches (c_rp c) = Some (Fin m) /\ m <= INR (List.length us);
  ss_util : exists t, r_util (c_rp c) = Some (Fin t) /\ t * INR (List.length (c_peaks c)) <= INR (List.length us);
  ss_weight : exists w, r_hweight (c_rp c) = Some (Fin w) /\ 0 <= w;
  ss_rest : c_known c = None /\ exists px, g_pixels (c_gp c) = Some (map Fin px);
  (** the data: exactly the pixels us have their line, *)
  ss_data : StronglySorted Rlt us /\ forall u, In u us <-> In (u, poly co u) pairs;
  (** the limits let a line through each right pair, and the bins are fine enough, *)
  ss_right : forall u, In u us -> line_through lo_s hi_s lo_i hi_i n u (poly co u) /\
               half_bin lo_s hi_s xb * Rabs u + half_bin lo_i hi_i yb <= tol;
  (** and no wrong pair is near a line that can be tried *)
  ss_wrong : forall p w, In (p, w) pairs -> compatible lo_s hi_s lo_i hi_i n pairs tol p w -> w = poly co p;
  ss_intercept : lo_i <= hd 0 co <= hi_i;
  ss_increasing : let width := last us 0 - hd 0 us in
    forall u v, hd 0 us - width / 5 <= u -> v <= last us 0 + width / 5 -> u < v -> poly co u < poly co v;
  (** no peak on an inner edge of the ten bins of the sampler (see C66) *)
  ss_edges : forall lo hi, data_range us lo hi -> forall p i, In p us -> (1 <= i <= 9)%nat -> p <> edge lo hi 10 i
}.

(** * SpecRecover: candidates that lie exactly on a polynomial, exact fitters, and
    draws without replacement. *)

From Coq Require Import ZArith Bool List Reals Sorted Permutation String.
From Verif Require Import Num XReal Py Np Util Models SpecPoly Hough SpecHough PolyEval Calib Cand Ransac.
Import ListNotations.
Local Open Scope R_scope.

(** sum of co_i u^i *)
Definition poly (co : list R) (u : R) : R := basis_sum powB co u.

(** np.random.choice: a sample without replacement, and one of the choices. *)
Definition honest_draws (o : oracle xr) : Prop :=
  (forall t l n p, (n <= List.length l)%nat ->
     List.length (o_sample o t l n p) = n /\ exists rest, Permutation (o_sample o t l n p ++ rest) l) /\
  (forall t l, l <> [] -> In (o_pick o t l) l).

(** np.polynomial.polynomial.polyfit, given at least deg + 1 points of the polynomial
    co, finds coefficients of some polynomial through them. *)
Definition exact_polyfit (o : oracle xr) (deg : nat) (co : list R) : Prop :=
  forall xh, NoDup xh -> (deg < List.length xh)%nat ->
    exists p, o_polyfit o FitPoly (map Fin xh) (map Fin (map (poly co) xh)) deg = Ok (map Fin p) /\
      List.length p = S deg /\ forall u, In u xh -> poly p u = poly co u.

(** scipy's least_squares, started anywhere on the points us of the polynomial co
    (divided by their standard deviations), finds coefficients (highest power first)
    without residual. *)
Definition exact_robust (o : oracle xr) (deg : nat) (co us : list R) : Prop :=
  exists sx sy,
    np_std (map Fin us) = Fin sx /\ np_std (map Fin (map (poly co) us)) = Fin sy /\ sx <> 0 /\ sy <> 0 /\
    forall start, List.length start = (deg + 1)%nat ->
      exists q,
        o_ls o (map Fin (map (fun v => v / sx) us)) (map Fin (map (fun v => v / sy) (map (poly co) us))) deg start
          = Ok (map Fin q) /\
        List.length q = (deg + 1)%nat /\
        forall u, In u us -> poly (rev q) (u / sx) = poly co u / sy.

(** The Hough density is finite and not negative (or there is none). *)
Definition usable_density (o : oracle xr) (c : calib xr) : Prop :=
  ho_xedges (c_ht c) = None \/
  (exists x0 x1 xe y0 y1 ye h w,
     ho_xedges (c_ht c) = Some (x0 :: x1 :: xe) /\ ho_yedges (c_ht c) = Some (y0 :: y1 :: ye) /\
     ho_hist (c_ht c) = Some h /\ r_hweight (c_rp c) = Some (Fin w) /\ 0 <= w /\
     forall xs ys, exists sp, o_spline o xs ys h = Ok sp /\ forall a b, exists v, sp (Fin a) (Fin b) = Fin v /\ 0 <= v).

(** The candidates of calibrator c lie on the polynomial co of degree deg at the
    pixels us, which is increasing around them; the settings admit it. *)
Record exact_problem (o : oracle xr) (c : calib xr) (ctol : xr) (deg size : nat) (co us : list R) : Prop := {
  (** each peak of us has one candidate wavelength, the value of the polynomial *)
  ep_candidates : exists x, ransac_xy o c ctol = Ok (map Fin x, map Fin (map (poly co) x)) /\ forall u, In u us <-> In u x;
  ep_sorted : StronglySorted Rlt us;
  ep_degree : List.length co = S deg /\ (1 <= deg)%nat;
  ep_kind : c_kind c = Some FitPoly;
  ep_known : c_known c = None;
  (** fewer peaks in a sample than there are, more than the degree *)
  ep_size : r_sample (c_rp c) = Some size /\ (deg < size < List.length us)%nat;
  ep_tol : exists tol, r_tol (c_rp c) = Some (Fin tol) /\ 0 < tol;
  ep_intercept : exists lo hi, h_min_intercept (c_hp c) = Some (Fin lo) /\ h_max_intercept (c_hp c) = Some (Fin hi) /\
                   lo <= hd 0 co <= hi;
  ep_increasing : let width := last us 0 - hd 0 us in
    forall u v, hd 0 us - width / 5 <= u -> v <= last us 0 + width / 5 -> u < v -> poly co u < poly co v;
  ep_pixels : exists px, g_pixels (c_gp c) = Some (map Fin px);
  ep_matches : exists m, r_matches (c_rp c) = Some (Fin m) /\ m <= INR (List.length us);
  ep_util : exists t, r_util (c_rp c) = Some (Fin t) /\ t * INR (List.length (c_peaks c)) <= INR (List.length us);
  (** no peak on an inner edge of the ten bins of the sampler (see C66) *)
  ep_edges : forall lo hi, data_range us lo hi -> forall p i, In p us -> (1 <= i <= 9)%nat -> p <> edge lo hi 10 i;
  ep_density : usable_density o c;
  ep_draws : honest_draws o;
  ep_polyfit : exact_polyfit o deg co;
  ep_robust : exact_robust o deg co us
}.

(** * Props_Density: property theorems only.  The proofs are in Main_Density.v. *)

From Coq Require Import ZArith Bool List String Lia Reals Lra.
From Verif Require Import Num F64 XReal Py Np NpFacts Util Models Atlas Hough SpecHough HoughFacts PolyEval Calib Cand Ransac RansacFacts Main_Ransac SpecVote RecoverFacts Main_Recover.
From Verif Require Import Main_Density.
Import ListNotations.
Local Open Scope num_scope.

(** C67, what is computed: for the histogram left by a transform with bins [xb] by [yb]
    over the slopes from lo_s to hi_s and the intercepts from lo_i to hi_i, the
    interpolation is made through the centres of the bins, slopes first, and the bonus is
    hough_weight times the sum over the pixels of its value at (intercept, slope) of the
    tangent of the trial fit. *)
Theorem hough_density_partial :
  forall (o : oracle xr) c x y deg size n coeff brute f l s0 hist lo_s hi_s xb lo_i hi_i yb (w : R) k pixels,
    (1 <= xb)%nat -> (1 <= yb)%nat ->
    stored (c_ht c) hist (map (edge lo_s hi_s xb) (seq 0 (S xb))) (map (edge lo_i hi_i yb) (seq 0 (S yb))) ->
    r_hweight (c_rp c) = Some (Fin w) -> c_kind c = Some k -> g_pixels (c_gp c) = Some pixels ->
    ransac_setup o c x y deg size n coeff brute = Ok (f, l, s0) ->
    exists density,
      o_spline o (map Fin (map (centre lo_s hi_s xb) (seq 0 xb))) (map Fin (map (centre lo_i hi_i yb) (seq 0 yb))) hist
        = Ok density /\
      forall c0 c1 co,
        hough_bonus f (c0 :: c1 :: co) =
          Ok (Fin w *' np_sum (map (fun p => let slope := eval_kind k p (derivative (c0 :: c1 :: co)) in
                                             let intercept := eval_kind k p (c0 :: c1 :: co) -' slope *' p in
                                             density intercept slope) pixels)).
Proof. exact hough_density_partial_main. Qed.
Print Assumptions hough_density_partial.

Example hough_density_example :
  let hist := [[1; 0]; [2; 5]; [0; 3]]%nat in
  let c := set_c_ht (mkHough None None (Some hist) (Some (map Fin (map (edge 5 20 3) (seq 0 4))))
             (Some (map Fin (map (edge 50 150 2) (seq 0 3)))) None None None None) (set_c_kind (Some FitPoly) (ex_c 0)) in
  stored (c_ht c) hist (map (edge 5 20 3) (seq 0 4)) (map (edge 50 150 2) (seq 0 3)) /\
  r_hweight (c_rp c) = Some (Fin 1) /\ g_pixels (c_gp c) = Some (map Fin [0; 1; 2; 3; 4]%R) /\
  map (centre 5 20 3) (seq 0 3) = [15 / 2; 25 / 2; 35 / 2]%R /\
  exists f l s0, ransac_setup ex_o c (map Fin [0; 1; 4]%R) (map Fin [100; 110; 140]%R) 1 2 3 None true = Ok (f, l, s0).
Proof. exact hough_density_example_main. Qed.

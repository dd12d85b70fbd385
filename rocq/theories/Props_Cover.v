(** * Props_Cover: property theorems only.  The proofs are in Main_Cover.v. *)

From Coq Require Import ZArith Bool List String Lia Reals Lra Sorted Permutation.
From Verif Require Import Num F64 XReal Py Np NpFacts ArgsortFacts Util Models Atlas Hough SpecHough HoughFacts PolyEval SpecPoly PolyFacts Main_Models Calib SpecCalib Main_Calib Cand SpecCand CandFacts Ransac SpecRansac RansacFacts SampleFacts SpecRecover RecoverFacts PolyIdent Fit SpecFit FitFacts Main_Fit Main_Recover SpecVote Main_Cand Main_Vote SpecRegion Main_Region SpecCover.
From Verif Require Import Main_Cover.
Import ListNotations.
Local Open Scope num_scope.

(** C139: every (peak, line) pair through which the limits let a line with one of the
    tried slopes is among the candidates, if candidate_tolerance covers half a bin. *)
Theorem admissible_pairs_kept :
  forall argsort (c c' : calib xr) pairs n xb yb lo_s hi_s lo_i hi_i r rt lt tol,
    (forall l, is_argsort l (argsort l)) -> hough_ready c pairs n xb yb lo_s hi_s lo_i hi_i ->
    h_rt (c_hp c) = Some rt -> h_lt (c_hp c) = Some lt ->
    do_hough_transform argsort c false = (c', r) ->
    exists cs, candidates_linear c' (Fin tol) = Ok cs /\
      forall p w, In (p, w) pairs -> line_through lo_s hi_s lo_i hi_i n p w ->
        (half_bin lo_s hi_s xb * Rabs p + half_bin lo_i hi_i yb <= tol)%R ->
        exists cand g, In cand cs /\ In (Fin p, Fin w, g) cand.
Proof. exact admissible_pairs_kept_main. Qed.
Print Assumptions admissible_pairs_kept.

Example admissible_pairs_kept_example :
  hough_ready kept_c reg_pairs 1 10 10 10 10 95 105 /\ In (1, 110)%R reg_pairs /\
  line_through 10 10 95 105 1 1 110 /\ (half_bin 10 10 10 * Rabs 1 + half_bin 95 105 10 <= 1)%R.
Proof. exact admissible_pairs_kept_example_main. Qed.

(** C140, true part: with minimum_fit_error = 0, fit returns exactly the polynomial, with
    every right pair and no error, whatever was drawn. *)
Theorem perfect_session_partial :
  forall (o : oracle xr) (c : calib xr) (a : fit_args xr) pairs n xb yb lo_s hi_s lo_i hi_i tol size co us (e : R),
    (forall l, is_argsort l (o_argsort o l)) ->
    honest_draws o -> spline_not_negative o -> exact_polyfit o (fa_deg a) co -> exact_robust o (fa_deg a) co us ->
    sound_session c a pairs n xb yb lo_s hi_s lo_i hi_i tol size co us ->
    r_fit_error (c_rp c) = Some (Fin e) -> (e <= 0)%R ->
    forall fuel, (2 <= fuel)%nat ->
    exists c' v, fit o fuel c a = Some (c', Ok v) /\
      fv_coeff v = map Fin co /\
      fv_mpeaks v = MList (map Fin us) /\ fv_matlas v = MList (map Fin (map (poly co) us)) /\
      fv_rms v = Fin 0 /\ fv_resid v = Some (map (fun _ => Fin 0) us).
Proof. exact perfect_session_partial_main. Qed.
Print Assumptions perfect_session_partial.

(** C140: with any positive minimum_fit_error (the default is 1e-4) fit never returns on
    such data. *)
Theorem perfect_session_refuted :
  forall (o : oracle xr) (c : calib xr) (a : fit_args xr) pairs n xb yb lo_s hi_s lo_i hi_i tol size co us (e : R),
    (forall l, is_argsort l (o_argsort o l)) ->
    honest_draws o -> spline_not_negative o -> exact_polyfit o (fa_deg a) co -> exact_robust o (fa_deg a) co us ->
    sound_session c a pairs n xb yb lo_s hi_s lo_i hi_i tol size co us ->
    r_fit_error (c_rp c) = Some (Fin e) -> (0 < e)%R ->
    forall fuel, fit o fuel c a = None.
Proof. exact perfect_session_refuted_main. Qed.
Print Assumptions perfect_session_refuted.

(** Lines at 100, 110 and 140, peaks at 0, 1 and 4: the straight line 100 + 10 u. *)
Example perfect_session_example :
  (forall e, sound_session (cover_c e) ex_a reg_pairs 1 10 10 10 10 95 105 1 2 [100; 10]%R [0; 1; 4]%R) /\
  (forall fuel, fit ex_o fuel (cover_c (1 / 10000)) ex_a = None) /\
  exists c' v, fit ex_o 2 (cover_c 0) ex_a = Some (c', Ok v) /\ fv_coeff v = map Fin [100; 10]%R /\
    fv_mpeaks v = MList (map Fin [0; 1; 4]%R).
Proof. exact perfect_session_example_main. Qed.

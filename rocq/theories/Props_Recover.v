(** * Props_Recover: property theorems only.  The proofs are in Main_Recover.v. *)

From Coq Require Import ZArith Bool List String Lia Reals Lra Sorted Permutation.
From Verif Require Import Num F64 XReal Py Np NpFacts ArgsortFacts Util Models Atlas Hough SpecHough HoughFacts PolyEval SpecPoly PolyFacts Main_Models Calib Main_Calib Cand SpecCand CandFacts Ransac SpecRansac RansacFacts SampleFacts SpecRecover RecoverFacts PolyIdent Fit SpecFit FitFacts.
From Verif Require Import Main_Recover.
Import ListNotations.
Local Open Scope num_scope.

(** Candidates that lie exactly on a polynomial, with fitters that find it: as long as
    minimum_fit_error is positive (it is 1e-4 unless set), every trial is rejected for
    being too good and fit never returns, whatever the random draws. *)
Theorem exact_data_refuted :
  forall (o : oracle xr) (c : calib xr) (a : fit_args xr) c1 c2 size (co us : list R) (e : R),
    fa_coeff a = None -> fa_brute a = false -> (1 <= fa_tries a)%nat ->
    fit_begin c a = (c1, Ok tt) -> fit_prepare o c1 a = (c2, Ok tt) ->
    exact_problem o c2 (fa_ctol a) (fa_deg a) size co us ->
    r_fit_error (c_rp c2) = Some (Fin e) -> (0 < e)%R ->
    forall fuel, fit o fuel c a = None.
Proof. exact exact_data_refuted_main. Qed.
Print Assumptions exact_data_refuted.

(** With minimum_fit_error = 0 the fit of such data returns exactly the polynomial,
    matches every candidate peak with its wavelength, and reports no error. *)
Theorem exact_data_partial :
  forall (o : oracle xr) (c : calib xr) (a : fit_args xr) c1 c2 size (co us : list R) (e : R) at_,
    fa_coeff a = None -> fa_brute a = false -> (1 <= fa_tries a)%nat ->
    fit_begin c a = (c1, Ok tt) -> fit_prepare o c1 a = (c2, Ok tt) ->
    exact_problem o c2 (fa_ctol a) (fa_deg a) size co us ->
    r_fit_error (c_rp c2) = Some (Fin e) -> (e <= 0)%R -> c_atlas c2 = Some at_ ->
    forall fuel, (2 <= fuel)%nat ->
    exists c' v, fit o fuel c a = Some (c', Ok v) /\
      fv_coeff v = map Fin co /\
      fv_mpeaks v = MList (map Fin us) /\ fv_matlas v = MList (map Fin (map (poly co) us)) /\
      fv_rms v = Fin 0 /\ fv_resid v = Some (map (fun _ => Fin 0) us) /\
      fv_putil v = nnat (List.length us) /' nnat (List.length (c_peaks c2)) /\
      fv_autil v = nnat (List.length us) /' nnat (atlas_len at_) /\
      c_coeff c' = Some (map Fin co) /\ c_mpeaks c' = fv_mpeaks v /\ c_matlas c' = fv_matlas v.
Proof. exact exact_data_partial_main. Qed.
Print Assumptions exact_data_partial.

(** Three lines at 100, 110 and 140 on the pixels 0, 1 and 4, a straight line to fit
    and the default minimum_fit_error. *)
Example exact_data_refuted_example :
  exists c1 c2, fit_begin (ex_c (1 / 10000)) ex_a = (c1, Ok tt) /\ fit_prepare ex_o c1 ex_a = (c2, Ok tt) /\
    exact_problem ex_o c2 (fa_ctol ex_a) (fa_deg ex_a) 2 [100; 10]%R [0; 1; 4]%R /\
    r_fit_error (c_rp c2) = Some (Fin (1 / 10000)) /\ (forall fuel, fit ex_o fuel (ex_c (1 / 10000)) ex_a = None).
Proof. exact exact_data_refuted_example_main. Qed.

(** The same with minimum_fit_error = 0. *)
Example exact_data_example :
  exists c' v, fit ex_o 2 (ex_c 0) ex_a = Some (c', Ok v) /\ fv_coeff v = map Fin [100; 10]%R /\
    fv_mpeaks v = MList (map Fin [0; 1; 4]%R) /\ fv_rms v = Fin 0.
Proof. exact exact_data_example_main. Qed.

(** * Props_Truth: property theorems only.  The proofs are in Main_Truth.v. *)

From Coq Require Import ZArith Bool List String Lia Reals Lra Sorted Permutation.
From Verif Require Import Num F64 XReal Py Np NpFacts ArgsortFacts Util Models SpecPoly Atlas Hough PolyEval Calib SpecCalib Main_Calib Cand SpecCand CandFacts Ransac SpecRansac RansacFacts Main_Ransac Fit SpecFit FitFacts Main_Fit Calls SpecRecover SpecCover SpecDecoy Main_Recover Main_Decoy.
From Verif Require Import Main_Truth.
Import ListNotations.
Local Open Scope num_scope.

(** C125 in terms of a call of fit: among candidates (the attributes candidate_peak and
    candidate_arc) of which those on the polynomial co are mixed with any wrong ones, a
    fit that returns and that has made one trial fit to right candidates only returns
    co, with every peak matched with its right line and no residual. *)
Theorem decoys_session :
  forall (o : oracle xr) (c : calib xr) (a : fit_args xr) (co us x y : list R) fuel c' v d,
    spline_not_negative o -> exact_polyfit o (fa_deg a) co -> exact_robust o (fa_deg a) co us ->
    decoy_session c a co us x y -> fit_candidates o c a = Some (map Fin x, map Fin y) ->
    fit o fuel c a = Some (c', Ok v) ->
    finite_fits o (fa_deg a) (fit_calls o fuel c a) ->
    In d (fit_calls o fuel c a) -> true_sample (fa_deg a) co d ->
    fv_coeff v = map Fin co /\
    fv_mpeaks v = MList (map Fin us) /\ fv_matlas v = MList (map Fin (map (poly co) us)) /\
    fv_rms v = Fin 0 /\ fv_resid v = Some (map (fun _ => Fin 0) us).
Proof. exact decoys_session_main. Qed.
Print Assumptions decoys_session.

(** The peaks are at 0, 1 and 4, the atlas has lines at 100, 110, 110.5 and 140, the
    candidates contain the wrong (1, 110.5), and the first two peaks are drawn: the fit
    gives 100 + 10 u. *)
Example decoys_session_example :
  exists c' v,
    spline_not_negative dc_o /\ exact_polyfit dc_o 1 [100; 10]%R /\ exact_robust dc_o 1 [100; 10]%R [0; 1; 4]%R /\
    decoy_session dc_c dc_a [100; 10]%R [0; 1; 4]%R [0; 1; 1; 4]%R [100; 110; 221 / 2; 140]%R /\
    fit_candidates dc_o dc_c dc_a = Some (map Fin [0; 1; 1; 4]%R, map Fin [100; 110; 221 / 2; 140]%R) /\
    fit dc_o 3 dc_c dc_a = Some (c', Ok v) /\
    finite_fits dc_o 1 (fit_calls dc_o 3 dc_c dc_a) /\
    In ([Fin 0; Fin 1], [Fin 100; Fin 110]) (fit_calls dc_o 3 dc_c dc_a) /\
    true_sample 1 [100; 10]%R ([Fin 0; Fin 1], [Fin 100; Fin 110]) /\
    fv_coeff v = map Fin [100; 10]%R.
Proof. exact decoys_session_example_main. Qed.

(** * Props_Apart: property theorems only.  The proofs are in Main_Apart.v. *)

From Coq Require Import ZArith Bool List String Lia Reals Lra Sorted.
From Verif Require Import Num F64 XReal Py Np NpFacts ArgsortFacts Util Models Atlas Hough PolyEval Calib SpecCalib Main_Calib Cand SpecCand CandFacts Ransac SpecRansac RansacFacts Main_Ransac Fit SpecFit FitFacts Main_Fit SpecPoly SpecRecover Main_Recover.
From Verif Require Import Main_Apart.
Import ListNotations.
Local Open Scope num_scope.

(** C88, seen through fit: with filter_close any two matched wavelengths are at least
    three ransac_tolerances apart. *)
Theorem fit_lines_separated :
  forall (o : oracle xr) fuel c a c' v at_ (peaks lines : list R) t,
    (forall l, is_argsort l (o_argsort o l)) -> pairs_current c -> c_atlas c = Some at_ ->
    c_peaks c = map Fin peaks -> get_lines at_ = map Fin lines ->
    r_close (c_rp c) = Some true -> r_tol (c_rp c) = Some (Fin t) ->
    fit o fuel c a = Some (c', Ok v) ->
    exists ws, fv_matlas v = MList (map Fin ws) /\ (degree_used a < List.length ws)%nat /\
      forall w w', In w ws -> In w' ws -> (w < w')%R -> (3 * t <= w' - w)%R.
Proof. exact fit_lines_separated_main. Qed.
Print Assumptions fit_lines_separated.

Example fit_lines_separated_example :
  pairs_current apart_c /\ r_close (c_rp apart_c) = Some true /\ r_tol (c_rp apart_c) = Some (Fin 1) /\
  exists c' v, fit ex_o 2 apart_c ex_a = Some (c', Ok v) /\ fv_mpeaks v = MList (map Fin [0; 1; 4]%R) /\
    fv_matlas v = MList (map Fin (map (poly [100; 10]%R) [0; 1; 4]%R)).
Proof. exact fit_lines_separated_example_main. Qed.

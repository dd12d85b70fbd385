(** * Props_Bins: property theorems only.  The proofs are in Main_Bins.v. *)

From Coq Require Import ZArith Bool List String Lia Reals Lra Sorted Permutation.
From Verif Require Import Num F64 XReal Py Np NpFacts ArgsortFacts Util Models SpecPoly Atlas Hough SpecHough PolyEval Calib SpecCalib Main_Calib Cand SpecCand CandFacts SampleFacts Ransac SpecRansac RansacFacts Main_Ransac Fit SpecFit FitFacts Main_Fit Calls SpecRecover RecoverFacts SpecCover SpecDecoy Main_Recover Main_Decoy Main_Truth.
From Verif Require Import Main_Bins.
Import ListNotations.
Local Open Scope num_scope.

(** C66 at the level of fit: if fit, not asked for brute force, returns, then every
    candidate peak on an inner edge of the ten equal bins between the first and the last
    candidate peak has another candidate peak in the bin below. *)
Theorem fit_returns_clear_partial :
  forall (o : oracle xr) fuel (c : calib xr) (a : fit_args xr) c' v (x y : list R) lo hi,
    fit o fuel c a = Some (c', Ok v) -> fa_brute a = false ->
    fit_candidates o c a = Some (map Fin x, map Fin y) -> data_range x lo hi ->
    forall p i, In p x -> (1 <= i <= 9)%nat -> p = edge lo hi 10 i ->
      exists q, In q x /\ (edge lo hi 10 (i - 1) <= q < edge lo hi 10 i)%R.
Proof. exact fit_returns_clear_partial_main. Qed.
Print Assumptions fit_returns_clear_partial.

(** Candidates at 0, 1 and 4: none of them is on an inner edge, and fit returns. *)
Example fit_returns_clear_example :
  exists c' v,
    fit dc_o 3 dc_c dc_a = Some (c', Ok v) /\ fa_brute dc_a = false /\
    fit_candidates dc_o dc_c dc_a = Some (map Fin [0; 1; 1; 4]%R, map Fin [100; 110; 221 / 2; 140]%R) /\
    data_range [0; 1; 1; 4]%R 0 4.
Proof. exact fit_returns_clear_example_main. Qed.

(** C66 fails for every session whose candidates have three equally spaced peaks: fit
    does not return, however many tries it has and whatever the lines and settings are. *)
Theorem fit_three_even_refuted :
  forall (o : oracle xr) fuel (c : calib xr) (a : fit_args xr) c' v (x y : list R) p d,
    fa_brute a = false -> fit_candidates o c a = Some (map Fin x, map Fin y) ->
    (0 < d)%R -> (forall q, In q x <-> q = p \/ q = (p + d)%R \/ q = (p + 2 * d)%R) ->
    fit o fuel c a <> Some (c', Ok v).
Proof. exact fit_three_even_refuted_main. Qed.
Print Assumptions fit_three_even_refuted.

(** Peaks at 0, 1 and 2 of the exact spectrum 100 + 10 u with lines at 100, 110 and 120:
    the candidates are right, and fit does not return. *)
Example fit_three_even_example :
  fa_brute dc_a = false /\
  fit_candidates dc_o bn_c dc_a = Some (map Fin [0; 1; 2]%R, map Fin [100; 110; 120]%R) /\
  (forall q, In q [0; 1; 2]%R <-> q = 0%R \/ q = (0 + 1)%R \/ q = (0 + 2 * 1)%R).
Proof. exact fit_three_even_example_main. Qed.

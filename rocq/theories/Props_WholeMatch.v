(** * Props_WholeMatch: property theorems only.  The proofs are in Main_WholeMatch.v. *)

From Coq Require Import ZArith Bool List String Lia Reals Lra Sorted Permutation.
From Verif Require Import Num F64 XReal Py Np NpFacts ArgsortFacts Util Models Atlas Hough PolyEval Calib SpecCalib Main_Calib Cand SpecCand CandFacts Ransac RansacFacts SampleFacts Main_Ransac Fit Main_Fit MatchPeaks SpecMatch MatchFacts Main_Match Main_Refine Whole WholeMatch SpecWholeMatch.
From Verif Require Import Main_WholeMatch.
Import ListNotations.
Local Open Scope num_scope.

(** C155, what holds: match_peaks with refine and without robust_refit, given whole
    numbers, stores and returns them with the correction of the minimiser added and the
    decimals of each sum cut off.  Without refine, or with robust_refit, the result is the
    one for the same numbers as floats. *)
Theorem whole_refine_partial :
  (forall (o : oracle xr) mini c fit a c' v,
    match_peaks_ints o mini c fit a = (c', Ok v) -> ma_refine a = true -> ma_robust a = false ->
    exists n first rest delta new,
      n = oget (Z.of_nat (List.length fit) - 1)%Z (ma_ndelta a) /\ fit = first ++ rest /\
      Z.of_nat (List.length first) = Z.min (Z.of_nat (List.length fit)) (Z.max 0 (if (n <? 0)%Z then Z.of_nat (List.length fit) + n else n)) /\
      mini (fun d => adjust_ints c d fit (ma_tol a) (ma_frac a)) (map (fun z => nZ z *' nlit 1 (-3)) first) = Ok delta /\
      shifted_whole fit delta new /\ mv_coeff v = map (fun z => Fin (IZR z)) new /\ c_coeff c' = Some (mv_coeff v)) /\
  (forall (A : Type) (N : Num A) (o : oracle A) mini c fit a,
    ma_refine a = false ->
    match_peaks_ints o mini c fit a =
    match_peaks o mini c (mkMA (MArr (map nZ fit)) (ma_ndelta a) false (ma_tol a) (ma_frac a) (ma_robust a) (ma_deg a))) /\
  (forall (A : Type) (N : Num A) (o : oracle A) mini c fit a c' v,
    ma_robust a = true -> match_peaks_ints o mini c fit a = (c', Ok v) ->
    match_peaks o mini c (mkMA (MArr (map nZ fit)) (ma_ndelta a) false (ma_tol a) (ma_frac a) true (ma_deg a)) = (c', Ok v)).
Proof. exact whole_refine_partial_main. Qed.
Print Assumptions whole_refine_partial.

(** C155 fails for all coefficients that are not negative: every correction of less than 1
    leaves them as they are, and the function the minimiser is to minimise does not tell
    such corrections apart. *)
Theorem whole_refine_refuted :
  forall (o : oracle xr) mini c fit a c' v ds,
    match_peaks_ints o mini c fit a = (c', Ok v) -> ma_refine a = true -> ma_robust a = false ->
    Forall (fun z => 0 <= z)%Z fit ->
    (forall f x0, mini f x0 = Ok (map Fin ds)) -> Forall (fun d => 0 <= d < 1)%R ds -> (exists d, In d ds /\ (0 < d)%R) ->
    mv_coeff v = map (fun z => Fin (IZR z)) fit /\
    ~ shifted (map (fun z => Fin (IZR z)) fit) (map Fin ds) (mv_coeff v) /\
    (forall ds', List.length ds' = List.length ds -> Forall (fun d => 0 <= d < 1)%R ds' ->
       adjust_ints c (map Fin ds') fit (ma_tol a) (ma_frac a) = adjust_ints c (map Fin ds) fit (ma_tol a) (ma_frac a)).
Proof. exact whole_refine_refuted_main. Qed.
Print Assumptions whole_refine_refuted.

(** The hypotheses of C155 are met: with 3000 + 10 x all five peaks match.  The correction
    0.5 is lost and 1.5 becomes 1; for floats both are added. *)
Example whole_refine_example :
  let a := ma_plain (fz 20) true false in
  let af := mkMA (MArr [fz 3000; fz 10]) None true (fz 20) (fd 5 (-1)) false None in
  match match_peaks_ints o_ex (mini_by (fd 5 (-1))) c_fitted [3000; 10]%Z a,
        match_peaks_ints o_ex (mini_by (fd 15 (-1))) c_fitted [3000; 10]%Z a,
        match_peaks o_ex (mini_by (fd 5 (-1))) c_fitted af,
        match_peaks_ints o_ex (mini_by (fd 5 (-1))) c_fitted [-3000; 10]%Z a return Prop with
  | (c1, Ok v1), (_, Ok v2), (_, Ok v3), (_, Raise _) =>
      mv_peaks v1 = MArr ex_peaks /\ mv_coeff v1 = [fz 3000; fz 10] /\ c_coeff c1 = Some [fz 3000; fz 10] /\
      mv_coeff v2 = [fz 3001; fz 10] /\ mv_coeff v3 = [fd 30005 (-1); fz 10] /\
      add_delta_ints [-3; 7]%Z [fd 5 (-1); fd (-12) 0] = Ok [-2; -5]%Z
  | _, _, _, _ => False
  end.
Proof. exact whole_refine_example_main. Qed.

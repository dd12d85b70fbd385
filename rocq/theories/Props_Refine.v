(** * Props_Refine: property theorems only.  The proofs are in Main_Refine.v. *)

From Coq Require Import ZArith Bool List String Lia Reals Lra Sorted Permutation.
From Verif Require Import Num F64 XReal Py Np NpFacts ArgsortFacts Util Models Atlas Hough PolyEval Calib SpecCalib Main_Calib Cand SpecCand CandFacts Ransac RansacFacts SampleFacts Main_Ransac Fit Main_Fit MatchPeaks SpecMatch MatchFacts Main_Match.
From Verif Require Import Main_Refine.
Import ListNotations.
Local Open Scope num_scope.

(** C72 fails for every input: whatever the minimiser returns (and whether or not refine
    is set), the matched peaks, matched lines and utilisations are the same, and with
    robust_refit so is everything else. *)
Theorem refine_used_refuted :
  forall (A : Type) (N : Num A) (o : oracle A) mini1 mini2 c a1 a2 c1 c2 v1 v2,
    same_but_refine a1 a2 ->
    match_peaks o mini1 c a1 = (c1, Ok v1) -> match_peaks o mini2 c a2 = (c2, Ok v2) ->
    mv_peaks v1 <> MNone -> mv_peaks v2 <> MNone ->
    mv_peaks v1 = mv_peaks v2 /\ mv_atlas v1 = mv_atlas v2 /\ mv_putil v1 = mv_putil v2 /\ mv_autil v1 = mv_autil v2 /\
    (ma_robust a1 = true -> v1 = v2 /\ c1 = c2).
Proof. exact refine_used_refuted_main. Qed.
Print Assumptions refine_used_refuted.

(** C72, the part that holds: with refine and without robust_refit, the coefficients
    returned and stored are the input with the minimiser's result added. *)
Theorem refine_used_partial :
  forall (A : Type) (N : Num A) (o : oracle A) mini c a c' v,
    match_peaks o mini c a = (c', Ok v) -> mv_peaks v <> MNone -> ma_refine a = true -> ma_robust a = false ->
    exists l n first delta,
      input_coeff c a l /\ n = oget (Z.of_nat (List.length l) - 1)%Z (ma_ndelta a) /\ python_prefix l n first /\
      mini (fun d => snd (adjust_polyfit c d l (ma_tol a) (ma_frac a))) (map (fun v => v *' nlit 1 (-3)) first) = Ok delta /\
      shifted l delta (mv_coeff v) /\ existsb nisnan (mv_coeff v) = false /\ c_coeff c' = Some (mv_coeff v).
Proof. exact refine_used_partial_main. Qed.
Print Assumptions refine_used_partial.

Example refine_used_example :
  match match_peaks o_ex no_mini c_fitted (ma_plain (fz 20) true false), match_peaks o_ex mini_up c_fitted (ma_plain (fz 20) true false),
        match_peaks o_ex mini_up c_fitted (ma_plain (fz 20) true true), c_coeff c_fitted with
  | (_, Ok v1), (_, Ok v2), (_, Ok v3), Some [b; a] =>
      mv_peaks v1 = MArr ex_peaks /\ mv_peaks v2 = MArr ex_peaks /\ mv_coeff v2 = [b +' fz 100; a] /\
      mv_coeff v1 <> mv_coeff v2 /\ mv_peaks v3 = MArr ex_peaks
  | _, _, _, _ => False
  end.
Proof. exact refine_used_example_main. Qed.

(** C94, the part that holds: with robust_refit the residuals returned are, possibly up
    to sign, the matched lines minus the returned polynomial at the matched peaks, and
    without sign change if the robust fit has no NaN; without it they are the absolute
    residuals of a plain fit of the matched pairs.  The rms is theirs in either case. *)
Theorem match_peaks_residuals_partial :
  forall (A : Type) (N : Num A) (o : oracle A) mini c a c' v xs ys k,
    match_peaks o mini c a = (c', Ok v) -> mv_peaks v = MArr xs -> mv_atlas v = MArr ys -> c_kind c = Some k ->
    let diff co := map (fun q => snd q -' eval_kind k (fst q) co) (combine xs ys) in
    exists l r, input_coeff c a l /\ mv_resid v = Some r /\ mv_rms v = Some (root_mean_square r) /\
      c_residuals c' = mv_resid v /\ c_rms c' = mv_rms v /\
      (ma_robust a = true ->
         (r = diff (mv_coeff v) /\ c_coeff c' = Some (mv_coeff v)) \/
         (r = map nabs (diff (mv_coeff v)) /\ exists bad, c_coeff c' = Some bad /\ existsb nisnan bad = true)) /\
      (ma_robust a = false ->
         exists p, o_polyfit o k xs ys (oget (List.length l - 1)%nat (ma_deg a)) = Ok p /\ r = map nabs (diff p)).
Proof. exact match_peaks_residuals_partial_main. Qed.
Print Assumptions match_peaks_residuals_partial.

(** C94 fails in binary64 with refine and without robust_refit: the residuals are those
    of another polynomial, the unrefined polyfit of the matches. *)
Theorem match_peaks_residuals_refuted :
  match match_peaks o_ex mini_up c_fitted (ma_plain (fz 20) true false) with
  | (c', Ok v) =>
      match mv_peaks v, mv_atlas v, mv_resid v with
      | MArr (x :: _), MArr (y :: _), Some (r :: _) =>
          r <' fz 5 = true /\ fz 50 <' nabs (y -' eval_kind FitPoly x (mv_coeff v)) = true /\ c_kind c_fitted = Some FitPoly
      | _, _, _ => False
      end
  | _ => False
  end.
Proof. exact match_peaks_residuals_refuted_main. Qed.
Print Assumptions match_peaks_residuals_refuted.

(** C73: the cost is infinite, or a number that is not negative. *)
Theorem adjust_polyfit_nonnegative :
  forall (c : calib xr) delta fit tol frac v,
    snd (adjust_polyfit c delta fit tol frac) = Ok v ->
    v = Inf false \/ exists r, v = Fin r /\ (0 <= r)%R.
Proof. exact adjust_polyfit_nonnegative_main. Qed.
Print Assumptions adjust_polyfit_nonnegative.

(** C73: the cost is the sum of the squared distances to the nearest lines, over the
    peaks with a line within the tolerance, per degree of freedom; it is infinite
    exactly if there is less than one degree of freedom, less than the fraction of the
    peaks has such a line, or the shifted curve does not increase on the pixels; and the
    caller's coefficients are not changed. *)
Theorem adjust_polyfit_cost :
  forall (c : calib xr) delta fit tol frac at_ k px co,
    c_atlas c = Some at_ -> no_nan (get_lines at_) -> get_lines at_ <> [] ->
    c_kind c = Some k -> g_pixels (c_gp c) = Some px ->
    shifted fit delta co -> co <> [] ->
    let f := fun p => eval_kind k p co in
    let matched := filter (fun p => existsb (within f tol p) (get_lines at_)) (c_peaks c) in
    let dof := (Z.of_nat (List.length matched) - Z.of_nat (List.length co) - 1)%Z in
    let enough := nltb (nnat (List.length matched)) (nnat (List.length (c_peaks c)) *' frac) = false in
    let increasing := Sorted (fun u v => u <' v = true) (map f (np_sort px)) in
    let r := adjust_polyfit c delta fit tol frac in
    fst r = fit /\
    (~ ((1 <= dof)%Z /\ enough /\ increasing) -> snd r = Ok (Inf false)) /\
    ((1 <= dof)%Z /\ enough /\ increasing ->
     exists pairs ds,
       map fst pairs = matched /\
       Forall (fun q => nearest f (get_lines at_) (fst q) (snd q)) pairs /\
       map (fun q => snd q -' f (fst q)) pairs = map Fin ds /\
       snd r = Ok (Fin (fold_right Rplus 0 (map (fun d => d * d) ds) / IZR dof)%R)).
Proof. exact adjust_polyfit_cost_main. Qed.
Print Assumptions adjust_polyfit_cost.

Example adjust_polyfit_example :
  let co := map Fin [3000; 10]%R in
  let f := fun p => eval_kind FitPoly p co in
  let matched := filter (fun p => existsb (within f (Fin 5) p) (map Fin [3001; 3010; 3020; 3030]%R)) (c_peaks c_four) in
  shifted (map Fin [2999; 10]%R) [Fin 1] co /\
  matched = map Fin [0; 1; 2; 3]%R /\
  nltb (nnat (List.length matched)) (nnat (List.length (c_peaks c_four)) *' Fin 1) = false /\
  Sorted (fun u v => u <' v = true) (map f (map Fin [0; 1; 2; 3]%R)) /\
  (match snd (adjust_polyfit c_fitted [fz 1] [fz 3000; fz 10] (fz 20) (fd 5 (-1))) return Prop with
   | Ok v => fz 2 <' v = true /\ v <' fz 20 = true | Raise _ => False end) /\
  snd (adjust_polyfit c_fitted [fz 400] [fz 3000; fz 10] (fz 20) (fd 5 (-1))) = Ok ninf.
Proof. exact adjust_polyfit_example_main. Qed.

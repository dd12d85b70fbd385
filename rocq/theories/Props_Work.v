(** * Props_Work: property theorems only.  The proofs are in Main_Work.v. *)

From Coq Require Import ZArith Bool List String Lia Reals Lra Sorted Permutation.
From Verif Require Import Num F64 XReal Py Np NpFacts ArgsortFacts Util Models Atlas Hough PolyEval Calib SpecCalib Main_Calib Cand SpecCand CandFacts Ransac SpecRansac RansacFacts Main_Ransac Fit SpecFit FitFacts Main_Fit SpecBrute Main_Brute Calls SpecCalls Main_Calls.
From Verif Require Import Main_Work.
Import ListNotations.
Local Open Scope num_scope.

(** C62: max_tries has no influence at all with brute_force, or if sample_size and the
    number of lines are not below the number of peaks. *)
Theorem max_tries_ignored_refuted :
  forall (A : Type) (N : Num A) (O : NumOrder A) (o : oracle A) fuel c at_ size n m deg coeff ftol ty ctol brute,
    (forall l, is_argsort l (o_argsort o l)) -> pairs_current c -> c_atlas c = Some at_ ->
    no_nan (c_peaks c) -> no_nan (get_lines at_) -> r_sample (c_rp c) = Some size ->
    brute = true \/
      (List.length (c_peaks c) <= size /\ List.length (c_peaks c) <= List.length (get_lines at_))%nat ->
    fit o fuel c (mkFA n deg coeff ftol ty ctol brute) = fit o fuel c (mkFA m deg coeff ftol ty ctol brute) /\
    fit_calls o fuel c (mkFA n deg coeff ftol ty ctol brute) = fit_calls o fuel c (mkFA m deg coeff ftol ty ctol brute).
Proof. exact max_tries_ignored_refuted_main. Qed.
Print Assumptions max_tries_ignored_refuted.

(** C62: of the trial fits made by a fit that returns, those that meet all limits of the
    calibrator are at most max_tries, or as many as there are choices of candidate pairs. *)
Theorem fit_work_partial :
  forall (A : Type) (N : Num A) (O : NumOrder A) (o : oracle A) fuel c a c' v at_ size,
    (forall l, is_argsort l (o_argsort o l)) -> pairs_current c -> c_atlas c = Some at_ ->
    no_nan (c_peaks c) -> no_nan (get_lines at_) -> r_sample (c_rp c) = Some size ->
    fit o fuel c a = Some (c', Ok v) ->
    let m := Nat.max (fa_deg a + 1) (Nat.min size (List.length (get_lines at_))) in
    exists x y f below rest,
      candidates_of c x y /\ rated_by o c' (degree_used a) x y f /\
      Permutation (fit_calls o fuel c a) (below ++ rest) /\
      (forall d cost, In d below -> ~ good_trial o f d cost) /\
      ((List.length rest <= fa_tries a)%nat \/
       (exists choices, NoDup choices /\ (forall smp, In smp choices <-> choice_of (List.length x) m smp) /\
          (List.length rest <= List.length choices)%nat)).
Proof. exact fit_work_partial_main. Qed.
Print Assumptions fit_work_partial.

(** C60: the limits that hold for whatever fit returns, and what its figures are. *)
Theorem fit_quality_partial :
  forall (A : Type) (N : Num A) (O : NumOrder A) (o : oracle A) fuel c a c' v at_,
    (forall l, is_argsort l (o_argsort o l)) -> pairs_current c -> c_atlas c = Some at_ ->
    no_nan (c_peaks c) -> no_nan (get_lines at_) ->
    fit o fuel c a = Some (c', Ok v) ->
    exists xs ys k tol m u e,
      fv_mpeaks v = MList xs /\ fv_matlas v = MList ys /\ fa_type a = Some k /\
      r_tol (c_rp c) = Some tol /\ r_matches (c_rp c') = Some m /\ r_util (c_rp c) = Some u /\
      r_fit_error (c_rp c) = Some e /\
      (degree_used a < List.length xs)%nat /\ nnat (List.length xs) <' m = false /\
      nnat (List.length xs) <' u *' nnat (List.length (c_peaks c)) = false /\
      fv_rms v <' e = false /\
      fv_resid v = Some (map (fun q => let d := eval_kind k (fst q) (fv_coeff v) -' snd q in
                                       if tol <' nabs d then tol else d) (combine xs ys)) /\
      (forall res, fv_resid v = Some res -> fv_rms v = nsqrt (np_sum (map (fun r => r *' r) res) /' nnat (List.length res))).
Proof. exact fit_quality_partial_main. Qed.
Print Assumptions fit_quality_partial.

(** C64: what fit returns costs no more than the errors of the coefficients supplied. *)
Theorem supplied_fit_partial :
  forall (A : Type) (N : Num A) (O : NumOrder A) (o : oracle A) fuel c a c' v at_ co0,
    (forall l, is_argsort l (o_argsort o l)) -> pairs_current c -> c_atlas c = Some at_ ->
    no_nan (c_peaks c) -> no_nan (get_lines at_) -> fa_coeff a = Some co0 ->
    fit o fuel c a = Some (c', Ok v) ->
    exists x y f d cost xs ys err mx my,
      candidates_of c x y /\ rated_by o c' (degree_used a) x y f /\
      In d (fit_calls o fuel c a) /\ trial_result o f d cost xs ys (fv_coeff v) /\
      match_bijective (fun p => eval_kind (f_kind f) p co0) (f_dict f) (f_peaks f) = Ok (err, mx, my) /\
      (nisnan (np_sum err) = false -> cost <=' np_sum err = true).
Proof. exact supplied_fit_partial_main. Qed.
Print Assumptions supplied_fit_partial.

(** C64: fit succeeds without initial coefficients; supplied with coefficients nearer than
    ransac_tolerance to every line it raises an exception. *)
Theorem supplied_fit_refuted :
  let supplied := [fz 3000; fz 10] in
  forallb (fun q => nabs (eval_kind FitPoly (fst q) supplied -' snd q) <' fz 5) (combine ex_peaks ex_waves) = true /\
  r_tol (c_rp c_supplied) = Some (fz 5) /\
  match fit o_ex 60 c_supplied (mkFA 3 1 None (fz 5) (Some FitPoly) (fz 50) false) with
  | Some (_, Ok v) => fv_mpeaks v = MList ex_peaks /\ fv_matlas v = MList ex_waves
  | _ => False
  end /\
  match fit o_ex 60 c_supplied (mkFA 3 1 (Some supplied) (fz 5) (Some FitPoly) (fz 50) false) with
  | Some (_, Raise AssertionError) => True
  | _ => False
  end.
Proof. exact supplied_fit_refuted_main. Qed.
Print Assumptions supplied_fit_refuted.

(** With hough_weight 1 the fit with the same coefficients returns. *)
Example supplied_fit_example :
  pairs_current c_session /\
  match fit o_ex 60 c_session (mkFA 3 1 (Some [fz 3000; fz 10]) (fz 5) (Some FitPoly) (fz 50) false) with
  | Some (_, Ok v) => fv_mpeaks v = MList ex_peaks
  | _ => False
  end.
Proof. exact supplied_fit_example_main. Qed.

(** sample_size 5 with five peaks: one trial fit is made although max_tries is 0. *)
Example max_tries_ignored_example :
  let c := after ex_peaks (session 5 (fz 1) ex_waves) in
  let a := mkFA 0 1 None (fz 5) (Some FitPoly) (fz 50) false in
  r_sample (c_rp c) = Some 5%nat /\ List.length (c_peaks c) = 5%nat /\
  match c_atlas c with Some at_ => get_lines at_ = ex_waves | None => False end /\
  List.length (fit_calls o_ex 60 c a) = 1%nat /\
  match fit o_ex 60 c a with Some (_, Ok v) => fv_mpeaks v = MList ex_peaks | _ => False end.
Proof. exact max_tries_ignored_example_main. Qed.

(** In the session of Main_Fit two of the five trial fits are rejected. *)
Example fit_work_example :
  pairs_current c_session /\ r_sample (c_rp c_session) = Some 2%nat /\ fa_tries a_session = 3%nat /\
  List.length (fit_calls o_ex 60 c_session a_session) = 5%nat /\
  match fit o_ex 60 c_session a_session with
  | Some (c', Ok v) =>
      fv_mpeaks v = MList ex_peaks /\ r_matches (c_rp c') = Some (fz 1) /\ fv_rms v <' fz 2 = true
  | _ => False
  end.
Proof. exact fit_work_example_main. Qed.

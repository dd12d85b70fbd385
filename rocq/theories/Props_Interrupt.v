(** * Props_Interrupt: property theorems only.  The proofs are in Main_Interrupt.v. *)

From Coq Require Import ZArith Bool List String Lia Reals Lra Sorted Permutation.
From Verif Require Import Num F64 XReal Py Np NpFacts ArgsortFacts Util UtilFacts Models Atlas AtlasFacts SpecAtlas Hough SpecHough HoughFacts PolyEval Calib SpecCalib CalibFacts Main_Calib Cand SpecCand CandFacts Ransac SpecRansac RansacFacts Main_Ransac Fit SpecFit FitFacts Main_Fit Main_Limits SpecAgain Main_Again Interrupt SpecInterrupt.
From Verif Require Import Main_Interrupt.
Import ListNotations.
Local Open Scope num_scope.

(** The Hough points are assigned before the lines: after any history of calls, whether or
    not they raise, and at every moment of a fit, there are lines only if there are
    points. *)
Theorem points_before_lines :
  (forall (A : Type) (N : Num A) (e : env A) peaks spectrum c0 h,
     calib_init (e_hull e) peaks spectrum = Ok c0 ->
     c_points (cal_run e c0 h) = None -> c_lines (cal_run e c0 h) = None) /\
  (forall (A : Type) (N : Num A) (o : oracle A) (c : calib A) a,
     (c_points c = None -> c_lines c = None) ->
     (forall d, interrupted o c a d -> c_points d = None -> c_lines d = None) /\
     (forall fuel c' r, fit o fuel c a = Some (c', r) -> c_points c' = None -> c_lines c' = None)).
Proof. exact points_before_lines_main. Qed.
Print Assumptions points_before_lines.

(** Fitting again after an interruption, with the same arguments and the same random
    decisions, gives the answer the first call would have given: always when the
    interruption came before the search, and later if sample_size is still what the user
    set or what fit makes of it before the search.  (The Hough lines and points are
    assigned together except by the interruption itself.) *)
Theorem interrupted_fit_retry_partial :
  forall (A : Type) (N : Num A) (O : NumOrder A) (o : oracle A) fuel (c d : calib A) (a : fit_args A),
    (c_points c = None -> c_lines c = None) ->
    interrupted_early o c a d \/ (interrupted o c a d /\ sample_size_kept a c d) ->
    same_answer (fit o fuel c a) (fit o fuel d a).
Proof. exact interrupted_fit_retry_partial_main. Qed.
Print Assumptions interrupted_fit_retry_partial.

(** Whenever fit is interrupted, what the user supplied and the search settings other than
    sample_size and minimum_matches are as before.  Either rms, residuals and utilisations
    are those of the earlier solution, and the coefficients are the earlier ones (then so
    are the matched pairs) or the argument fit_coeff; or the coefficients and the matched
    pairs are those of the answer fit was about to return, and each figure is the old or
    the new one. *)
Theorem interrupted_fit_partial :
  forall (A : Type) (N : Num A) (o : oracle A) (c d : calib A) (a : fit_args A),
    fa_coeff a <> Some [] -> interrupted o c a d ->
    same_input c d /\ same_ransac c d /\ c_residuals d = c_residuals c /\
    ((same_figures c d /\
      ((c_coeff d = c_coeff c /\ c_mpeaks d = c_mpeaks c /\ c_matlas d = c_matlas c) \/ c_coeff d = fa_coeff a)) \/
     exists fuel c' v, fit o fuel c a = Some (c', Ok v) /\
       c_coeff d = Some (fv_coeff v) /\ c_mpeaks d = fv_mpeaks v /\ c_matlas d = fv_matlas v /\
       (c_rms d = c_rms c \/ c_rms d = Some (fv_rms v)) /\ (c_resid d = c_resid c \/ c_resid d = fv_resid v) /\
       (c_putil d = c_putil c \/ c_putil d = Some (fv_putil v)) /\ (c_autil d = c_autil c \/ c_autil d = Some (fv_autil v))).
Proof. exact interrupted_fit_partial_main. Qed.
Print Assumptions interrupted_fit_partial.

(** What is not guaranteed.  Without fit_coeff, the first assignments of fit discard the
    earlier solution, while the pairs and figures that belong to it stay.  And during the
    search the two lists of matched pairs can belong to different solutions: here a
    calibrator with a finished fit of five pairs is left with three peaks and five lines.
    Nor does fitting again always give the same: after a brute-force fit interrupted in its
    loop, sample_size is 5 instead of 2, and three peaks are matched instead of four. *)
Theorem interrupted_fit_refuted :
  (forall (A : Type) (N : Num A) (o : oracle A) (c : calib A) (a : fit_args A) p,
     c_coeff c = Some p -> fa_coeff a = None ->
     exists d, interrupted o c a d /\ c_coeff d = None /\ same_figures c d /\
       c_mpeaks d = c_mpeaks c /\ c_matlas d = c_matlas c) /\
  (exists c v d,
    fit o_ex 60 c_session a_session = Some (c, Ok v) /\ interrupted o_ex c a_session d /\
    List.length (mseq_vals (fv_mpeaks v)) = 5%nat /\
    List.length (mseq_vals (c_mpeaks d)) = 3%nat /\ List.length (mseq_vals (c_matlas d)) = 5%nat) /\
  (exists d c' v d' w,
    interrupted o_ex c_brute a_brute d /\
    fit o_ex 60 c_brute a_brute = Some (c', Ok v) /\ fit o_ex 60 d a_brute = Some (d', Ok w) /\
    r_sample (c_rp c_brute) = Some 2%nat /\ r_sample (c_rp d) = Some 5%nat /\
    List.length (mseq_vals (fv_mpeaks v)) = 4%nat /\ List.length (mseq_vals (fv_mpeaks w)) = 3%nat).
Proof. exact interrupted_fit_refuted_main. Qed.
Print Assumptions interrupted_fit_refuted.

(** The same session, interrupted in its first fit after one sample: five peaks and three
    lines are matched, sample_size is untouched, and the fit done again succeeds with the
    answer of a fit that is not interrupted. *)
Example interrupted_fit_retry_example :
  exists d v, interrupted o_ex c_session a_session d /\ sample_size_kept a_session c_session d /\
    (c_points c_session = None -> c_lines c_session = None) /\
    List.length (mseq_vals (c_mpeaks d)) = 5%nat /\ List.length (mseq_vals (c_matlas d)) = 3%nat /\
    match fit o_ex 60 d a_session with Some (_, Ok w) => w = v | _ => False end /\
    match fit o_ex 60 c_session a_session with Some (_, Ok w) => w = v | _ => False end.
Proof. exact interrupted_fit_retry_example_main. Qed.

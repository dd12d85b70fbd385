(** * Props_Again: property theorems only.  The proofs are in Main_Again.v. *)

From Coq Require Import ZArith Bool List String Lia Reals Lra Sorted Permutation.
From Verif Require Import Num F64 XReal Py Np NpFacts ArgsortFacts Util UtilFacts Models Atlas AtlasFacts SpecAtlas Hough SpecHough HoughFacts PolyEval Calib SpecCalib CalibFacts Main_Calib Cand SpecCand CandFacts Ransac SpecRansac RansacFacts Main_Ransac Fit SpecFit FitFacts Main_Fit Main_Limits SpecAgain.
From Verif Require Import Main_Again.
Import ListNotations.
Local Open Scope num_scope.

(** What fit returns, and whether it raises or does not end, depends only on what the
    user supplied and on the Hough transform in use: two calibrators that agree on these
    give the same answer, and agree on them afterwards. *)
Theorem fit_ignores_earlier_results :
  forall (A : Type) (N : Num A) (o : oracle A) fuel (c d : calib A) (a : fit_args A),
    same_question c d ->
    match fit o fuel c a, fit o fuel d a with
    | Some (c', Ok v), Some (d', Ok w) =>
        v = w /\ same_question c' d' /\ c_coeff d' = c_coeff c' /\ c_kind d' = c_kind c' /\ c_deg d' = c_deg c' /\
        c_mpeaks d' = c_mpeaks c' /\ c_matlas d' = c_matlas c' /\ c_rms d' = c_rms c' /\ c_resid d' = c_resid c' /\
        c_putil d' = c_putil c' /\ c_autil d' = c_autil c'
    | Some (c', Raise _), Some (d', Raise _) => same_question c' d'
    | None, None => True
    | _, _ => False
    end.
Proof. exact fit_ignores_earlier_results_main. Qed.
Print Assumptions fit_ignores_earlier_results.

(** The hypothesis: a calibrator after a fit, and a fresh one with the same settings but
    the transform of the first; the second fit of the same calibrator starts from four
    matches, a stored polynomial and its figures. *)
Example fit_ignores_earlier_results_example :
  match fit o_ex 60 c_session a_session with
  | Some (c', Ok v) =>
      let d := set_c_points (c_points c') (set_c_lines (c_lines c') (set_c_ht (c_ht c') (set_c_rp (c_rp c') c_session))) in
      same_question c' d /\ c_mpeaks d = MList [] /\ c_mpeaks c' = MList ex_peaks /\ c_coeff d = None /\ c_coeff c' <> None /\
      match fit o_ex 60 d a_session with Some (_, Ok w) => v = w | _ => False end
  | _ => False
  end.
Proof. exact fit_ignores_earlier_results_example_main. Qed.

(** If fit leaves sample_size as it was, the same fit with the same random decisions
    returns the same and changes nothing any more. *)
Theorem fit_repeatable_partial :
  forall (A : Type) (N : Num A) (O : NumOrder A) (o : oracle A) fuel c a c' v,
    fit o fuel c a = Some (c', Ok v) -> r_sample (c_rp c') = r_sample (c_rp c) ->
    fit o fuel c' a = Some (c', Ok v).
Proof. exact fit_repeatable_partial_main. Qed.
Print Assumptions fit_repeatable_partial.

(** In general it does not: with brute force fit replaces sample_size by the number of
    candidate peaks, and the second fit of this session matches three peaks instead of
    four. *)
Theorem fit_repeatable_refuted :
  exists h a c' v c'' w,
    let c := after ex_peaks h in
    cal_ok env0 (match calib_init all_inside ex_peaks None with Ok c => c | Raise _ => calib_blank [] None end) h /\
    fit o_ex 60 c a = Some (c', Ok v) /\ fit o_ex 60 c' a = Some (c'', Ok w) /\
    r_sample (c_rp c) = Some 2%nat /\ r_sample (c_rp c') = Some 5%nat /\
    List.length (mseq_vals (fv_mpeaks v)) = 4%nat /\ List.length (mseq_vals (fv_mpeaks w)) = 3%nat.
Proof. exact fit_repeatable_refuted_main. Qed.
Print Assumptions fit_repeatable_refuted.

Example fit_repeatable_example :
  match fit o_ex 60 c_session a_session with
  | Some (c', Ok v) =>
      r_sample (c_rp c') = r_sample (c_rp c_session) /\
      match fit o_ex 60 c' a_session with Some (_, Ok w) => v = w | _ => False end
  | _ => False
  end.
Proof. exact fit_repeatable_example_main. Qed.

(** * Props_Session: property theorems only.  The proofs are in Main_Session.v. *)

From Coq Require Import ZArith Bool List String Lia Reals Lra Sorted Permutation.
From Verif Require Import Num F64 XReal Py Np NpFacts ArgsortFacts Util UtilFacts Models Atlas AtlasFacts SpecAtlas Hough SpecHough HoughFacts PolyEval Calib SpecCalib CalibFacts Main_Calib Cand SpecCand CandFacts Ransac SpecRansac RansacFacts Main_Ransac Fit SpecFit FitFacts Main_Fit Main_Limits MatchPeaks SpecMatch MatchFacts Main_Match Main_Edit Main_Pairs Plot SpecAgain Main_Again SpecSession.
From Verif Require Import Main_Session.
Import ListNotations.
Local Open Scope num_scope.

(** C114: whatever else was called in between and whatever raised, the peaks, the atlas,
    the known pairs, all properties but sample_size and minimum_matches and the pairs
    are those the configuring calls alone would have left; and the length of the
    spectrum stays the same. *)
Theorem session_settings :
  forall (A : Type) (N : Num A) (O : NumOrder A) (e : env A) c0 ks c,
    session_run e c0 ks = Some c ->
    same_settings (cal_run e c0 (configuration ks)) c.
Proof. exact session_settings_main. Qed.
Print Assumptions session_settings.

(** C114: so the plotting library is still one of the two, and the RANSAC thresholds are
    still valid, in every session. *)
Theorem session_valid :
  forall (fexp : f64 -> f64) (e : env f64) peaks spectrum c0 ks c,
    let N := F64num fexp in
    calib_init (e_hull e) peaks spectrum = Ok c0 ->
    session_run e c0 ks = Some c ->
    (which_plotting_library c = Some "matplotlib"%string \/ which_plotting_library c = Some "plotly"%string) /\
    exists u f, r_util (c_rp c) = Some u /\ r_fit_error (c_rp c) = Some f /\
      (nZ 0 <=' u = true /\ u <=' nZ 1 = true) /\ nZ 0 <=' f = true.
Proof. exact session_valid_main. Qed.
Print Assumptions session_valid.

(** C115: as long as no match_peaks raises, in every session the matched peaks and lines
    are two lists of the same length, all of which get_pix_wave_pairs lists. *)
Theorem session_matches :
  forall (A : Type) (N : Num A) (e : env A) c0 ks c,
    aligned c0 -> none_raises is_match e c0 ks -> session_run e c0 ks = Some c ->
    aligned c /\
    exists l, get_pix_wave_pairs c = Ok l /\ map snd l = combine (mseq_vals (c_mpeaks c)) (mseq_vals (c_matlas c)) /\
      List.length l = List.length (mseq_vals (c_mpeaks c)).
Proof. exact session_matches_main. Qed.
Print Assumptions session_matches.

(** C115: also when match_peaks raised, the peaks are a list and the lines are as many or
    None; and a fit, a manual_refit or a match_peaks that succeeds and returns peaks
    leaves two lists of the same length, whatever was there before. *)
Theorem session_matches_restored :
  forall (A : Type) (N : Num A) (e : env A),
    (forall peaks spectrum c0, calib_init (e_hull e) peaks spectrum = Ok c0 -> aligned c0) /\
    (forall c0 ks c, aligned c0 -> session_run e c0 ks = Some c ->
       c_mpeaks c <> MNone /\
       (c_matlas c = MNone \/ List.length (mseq_vals (c_mpeaks c)) = List.length (mseq_vals (c_matlas c)))) /\
    (forall o fuel c a c' v, fit o fuel c a = Some (c', Ok v) -> aligned c') /\
    (forall o c a c' v, manual_refit o c a = (c', Ok v) -> aligned c') /\
    (forall o mini c a c' v, match_peaks o mini c a = (c', Ok v) -> mv_peaks v <> MNone -> aligned c').
Proof. exact session_matches_restored_main. Qed.
Print Assumptions session_matches_restored.

Example session_example :
  aligned c_session /\ none_raises is_match env0 c_session good_calls /\
  match session_run env0 c_session good_calls with
  | Some c => matched_pairs c = combine ex_peaks ex_waves /\ which_plotting_library c = Some "plotly"%string /\
              option_map atlas_len (c_atlas c) = Some 4%nat /\ List.length (mseq_vals (c_mpeaks c)) = 5%nat
  | None => False
  end /\
  configuration good_calls = [OUsePlotly; ORemove (fz 4002) (fz 1)].
Proof. exact session_example_main. Qed.

(** C116, refuted: a match_peaks that raises loses the matched pairs.  If no peak has a
    line within the tolerance, it raises TypeError, the list of matched peaks is empty
    afterwards and the pairs can no longer be listed. *)
Theorem failed_match_keeps_pairs_refuted :
  forall (A : Type) (N : Num A) (o : oracle A) mini c a at_ k co,
    input_coeff c a co -> co <> [] -> ma_refine a = false -> c_atlas c = Some at_ -> c_kind c = Some k ->
    (forall p w, In p (c_peaks c) -> In w (get_lines at_) -> within (fun p => eval_kind k p co) (ma_tol a) p w = false) ->
    exists c', match_peaks o mini c a = (c', Raise TypeError) /\
      c_mpeaks c' = MArr [] /\ c_residuals c' = None /\ get_pix_wave_pairs c' = Raise TypeError.
Proof. exact failed_match_keeps_pairs_refuted_main. Qed.
Print Assumptions failed_match_keeps_pairs_refuted.

(** It happens: after the fit of the session five pairs are listed; after a match_peaks
    with tolerance 0, none can be. *)
Example failed_match_example :
  (exists l, get_pix_wave_pairs c_fitted = Ok l /\ List.length l = 5%nat) /\
  match call_step env0 c_fitted bad_call with
  | Some (c, Raise TypeError) => get_pix_wave_pairs c = Raise TypeError
  | _ => False
  end.
Proof. exact failed_match_example_main. Qed.

(** C116, what does hold: a match_peaks that raises changes no setting and no
    coefficient (for an optimiser that returns as many coefficients as it is given).  If it changed the matched pairs, the peaks stored are those with a line
    within the tolerance. *)
Theorem failed_match_keeps_pairs_partial :
  forall (A : Type) (N : Num A) (o : oracle A) mini c a c' err,
    (forall x y d p q, o_ls o x y d p = Ok q -> List.length q = List.length p) ->
    match_peaks o mini c a = (c', Raise err) ->
    same_settings c c' /\ c_spectrum c' = c_spectrum c /\ c_rp c' = c_rp c /\
    c_coeff c' = c_coeff c /\ c_kind c' = c_kind c /\ c_deg c' = c_deg c /\
    c_ht c' = c_ht c /\ c_lines c' = c_lines c /\ c_points c' = c_points c /\
    (c' = c \/
     exists co at_, input_coeff c a co /\ c_atlas c = Some at_ /\
       ((c_mpeaks c' = MArr [] /\ c_peaks c = []) \/
        exists k, c_kind c = Some k /\
        c_mpeaks c' = MArr (filter (fun p => existsb (within (fun p => eval_kind k p co) (ma_tol a) p) (get_lines at_)) (c_peaks c)))).
Proof. exact failed_match_keeps_pairs_partial_main. Qed.
Print Assumptions failed_match_keeps_pairs_partial.

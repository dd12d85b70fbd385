(** * Props_PeakOrder: property theorems only.  The proofs are in Main_PeakOrder.v. *)

From Coq Require Import ZArith Bool List String Lia Reals Lra Sorted Permutation.
From Verif Require Import Num F64 XReal Py Np NpFacts ArgsortFacts Util Models Atlas Hough SpecHough PolyEval Calib SpecCalib Main_Calib Cand SpecCand CandFacts SampleFacts Ransac RansacFacts Fit SpecFit FitFacts Calls RecoverFacts MatchPeaks SpecMatch Plot SpecSession Main_Session SpecPermute SpecPeakOrder Main_Permute Main_Ransac Main_Fit.
From Verif Require Import Main_PeakOrder.
Import ListNotations.
Local Open Scope num_scope.

(** Giving the peaks in another order changes nothing that fit returns: the same value
    or the same exception, and an equally long search, after any history of calls, for
    any degree, any number of tries and any random choices. *)
Theorem fit_peak_order :
  forall (e : env xr) (o : oracle xr) (fuel : nat) (a b : list R) (spectrum : option (list xr))
      (h : list (cal_op xr)) (fa : fit_args xr),
    (forall l, is_argsort l (e_argsort e l)) -> (forall l, is_argsort l (o_argsort o l)) ->
    pointwise (e_hull e) -> Permutation a b ->
    match calib_init (e_hull e) (map Fin a) spectrum, calib_init (e_hull e) (map Fin b) spectrum with
    | Ok c, Ok d =>
        (forall h1 h2, h = (h1 ++ h2)%list -> finite_atlas (cal_run e c h1)) ->
        r_linear (c_rp (cal_run e c h)) = Some true ->
        match fit o fuel (cal_run e c h) fa, fit o fuel (cal_run e d h) fa with
        | Some (c', r), Some (d', s) => r = s /\ reordered c' d'
        | None, None => True
        | _, _ => False
        end
    | Raise x, Raise y => x = y
    | _, _ => False
    end.
Proof. exact fit_peak_order_main. Qed.
Print Assumptions fit_peak_order.

(** The same for any session of configuring calls, fits, edits of the matched pairs and
    refits: the calibrators then agree in everything but the order of peaks, pairs and
    Hough points, and one more fit returns the same. *)
Theorem session_peak_order :
  forall (e : env xr) (a b : list R) (spectrum : option (list xr)) (ks : list (call xr)),
    (forall l, is_argsort l (e_argsort e l)) -> pointwise (e_hull e) -> Permutation a b ->
    Forall order_free ks ->
    match calib_init (e_hull e) (map Fin a) spectrum, calib_init (e_hull e) (map Fin b) spectrum with
    | Ok c, Ok d =>
        (forall ks1 ks2 c', ks = (ks1 ++ ks2)%list -> session_run e c ks1 = Some c' ->
           finite_atlas c' /\ r_linear (c_rp c') = Some true) ->
        match session_run e c ks, session_run e d ks with
        | Some c', Some d' =>
            reordered c' d' /\
            forall (o : oracle xr) fuel fa, (forall l, is_argsort l (o_argsort o l)) ->
              option_map snd (fit o fuel c' fa) = option_map snd (fit o fuel d' fa)
        | None, None => True
        | _, _ => False
        end
    | Raise x, Raise y => x = y
    | _, _ => False
    end.
Proof. exact session_peak_order_main. Qed.
Print Assumptions session_peak_order.

(** In a session with five peaks, given in order or in reverse, fit returns all five. *)
Example fit_peak_order_example :
  match fit o_ex 60 (after ex_peaks (ordered_session true 5 ex_waves)) a_session,
        fit o_ex 60 (after (rev ex_peaks) (ordered_session true 5 ex_waves)) a_session with
  | Some (c', Ok v), Some (d', Ok w) => v = w /\ fv_mpeaks v = MList ex_peaks /\ c_peaks c' <> c_peaks d'
  | _, _ => False
  end.
Proof. exact fit_peak_order_example_main. Qed.

(** With linear=False the order of the peaks does matter: the i-th peak is compared with
    the i-th line only, so that peaks given in reverse find no candidate and fit fails. *)
Theorem fit_peak_order_poly_refuted :
  exists (peaks lines : list f64) (fa : fit_args f64) (o : oracle f64) (fuel : nat),
    match fit o fuel (after peaks (ordered_session false 5 lines)) fa with
    | Some (_, Ok v) => fv_mpeaks v = MList peaks
    | _ => False
    end /\
    match fit o fuel (after (rev peaks) (ordered_session false 5 lines)) fa with
    | Some (_, Raise e) => e = AssertionError
    | _ => False
    end.
Proof. exact fit_peak_order_poly_refuted_main. Qed.
Print Assumptions fit_peak_order_poly_refuted.

(** The order of the atlas lines matters even with linear=True: with top_n_candidate = 1
    the same six lines in reverse order make fit miss two of the five peaks. *)
Theorem fit_line_order_refuted :
  exists (peaks lines : list f64) (fa : fit_args f64) (o : oracle f64) (fuel : nat),
    match fit o fuel (after peaks (ordered_session true 1 lines)) fa with
    | Some (_, Ok v) => List.length (mseq_vals (fv_mpeaks v)) = 5%nat
    | _ => False
    end /\
    match fit o fuel (after peaks (ordered_session true 1 (rev lines))) fa with
    | Some (_, Ok v) => List.length (mseq_vals (fv_mpeaks v)) = 3%nat
    | _ => False
    end.
Proof. exact fit_line_order_refuted_main. Qed.
Print Assumptions fit_line_order_refuted.

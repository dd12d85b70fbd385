(** * Props_Region: property theorems only.  The proofs are in Main_Region.v. *)

From Coq Require Import ZArith Bool List String Lia Reals Lra Sorted Permutation.
From Verif Require Import Num F64 XReal Py Np NpFacts ArgsortFacts Util Models Atlas Hough SpecHough HoughFacts PolyEval SpecPoly PolyFacts Main_Models Calib SpecCalib Main_Calib Cand SpecCand CandFacts Ransac SpecRansac RansacFacts Main_Ransac SpecRecover RecoverFacts PolyIdent Fit SpecFit FitFacts Main_Fit Main_Recover SpecVote Main_Vote SpecUnits SpecOptimal Main_Optimal SpecRegion.
From Verif Require Import Main_Region.
Import ListNotations.
Local Open Scope num_scope.

(** C137, the part that holds: every pair a fit matches is one of the pairs, within
    candidate_tolerance of a straight line whose slope and intercept are inside the
    limits, provided that at least two different slopes and two different intercepts
    were admitted by the limits (the cases of [reach] say what happens otherwise). *)
Theorem fit_within_limits_partial :
  forall (o : oracle xr) fuel c a c' v at_ peaks lines pairs n xb yb lo_s hi_s lo_i hi_i tol,
    (forall l, is_argsort l (o_argsort o l)) -> pairs_current c -> c_atlas c = Some at_ ->
    c_peaks c = map Fin peaks -> get_lines at_ = map Fin lines ->
    r_linear (c_rp c) = Some true -> fa_ctol a = Fin tol ->
    hough_ready c pairs n xb yb lo_s hi_s lo_i hi_i -> c_lines c = None ->
    fit o fuel c a = Some (c', Ok v) ->
    exists ps ws,
      fv_mpeaks v = MList (map Fin ps) /\ fv_matlas v = MList (map Fin ws) /\
      List.length ps = List.length ws /\ NoDup ps /\ (degree_used a < List.length ps)%nat /\
      forall p w, In (p, w) (combine ps ws) ->
        In (p, w) pairs /\ compatible lo_s hi_s lo_i hi_i n pairs tol p w.
Proof. exact fit_within_limits_partial_main. Qed.
Print Assumptions fit_within_limits_partial.

Theorem fit_within_limits_refuted :
  let c := after off_peaks off_session in
  let a := mkFA 3 1 None (fz 5) (Some FitPoly) (fz 2) false in
  h_min_intercept (c_hp c) = Some (fz (-100)) /\
  match h_min_slope (c_hp c), fit o_ex 60 c a return Prop with
  | Some s, Some (c', Ok v) =>
      fz 14 <' s = true /\ fv_mpeaks v = MList off_peaks /\
      nth 1 (fv_coeff v) (fz 0) <' fz 1 = true /\
      forallb (fun q => snd q +' fz 2 <' s *' fst q +' fz (-100))
        (combine off_peaks (mseq_vals (fv_matlas v))) = true
  | _, _ => False
  end.
Proof. exact fit_within_limits_refuted_main. Qed.
Print Assumptions fit_within_limits_refuted.

(** C138: if the limits leave only right pairs, that is, every (peak, line) pair within
    candidate_tolerance of a line that can be tried satisfies w = P(p) for one
    polynomial P of the degree asked for, then whatever was drawn and whatever the fitter
    used in the search returned, a successful fit matches right pairs only and, if
    least_squares finds the minimum it is asked for, returns exactly P. *)
Theorem fit_finds_truth :
  forall (o : oracle xr) fuel c a c' v at_ peaks lines pairs n xb yb lo_s hi_s lo_i hi_i tol co,
    (forall l, is_argsort l (o_argsort o l)) -> pairs_current c -> c_atlas c = Some at_ ->
    c_peaks c = map Fin peaks -> get_lines at_ = map Fin lines ->
    r_linear (c_rp c) = Some true -> fa_ctol a = Fin tol ->
    hough_ready c pairs n xb yb lo_s hi_s lo_i hi_i -> c_lines c = None ->
    (1 <= degree_used a)%nat -> List.length co = S (degree_used a) ->
    (forall p w, In (p, w) pairs -> compatible lo_s hi_s lo_i hi_i n pairs tol p w -> w = poly co p) ->
    fit o fuel c a = Some (c', Ok v) ->
    exists ps,
      fv_mpeaks v = MList (map Fin ps) /\ fv_matlas v = MList (map Fin (map (poly co) ps)) /\
      (library_minimises (o_ls o) huber (degree_used a) ps (map (poly co) ps) -> fv_coeff v = map Fin co).
Proof. exact fit_finds_truth_main. Qed.
Print Assumptions fit_finds_truth.

(** Non-vacuity of C137 and C138. *)
Example fit_finds_truth_example :
  (forall l, is_argsort l (o_argsort ex_o l)) /\ pairs_current reg_c /\
  hough_ready reg_c reg_pairs 1 1 1 10 10 95 105 /\ c_lines reg_c = None /\
  (forall p w, In (p, w) reg_pairs -> compatible 10 10 95 105 1 reg_pairs 1 p w -> w = poly [100; 10]%R p) /\
  exists c' v, fit ex_o 2 reg_c ex_a = Some (c', Ok v) /\ fv_mpeaks v = MList (map Fin [0; 1; 4]%R) /\
    library_minimises (o_ls ex_o) huber 1 [0; 1; 4]%R (map (poly [100; 10]%R) [0; 1; 4]%R).
Proof. exact fit_finds_truth_example_main. Qed.

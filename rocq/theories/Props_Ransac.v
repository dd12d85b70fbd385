(** * Props_Ransac: property theorems only.  The proofs are in Main_Ransac.v. *)

From Coq Require Import ZArith Bool List String Lia Reals Lra Sorted Permutation.
From Verif Require Import Num F64 XReal Py Np NpFacts ArgsortFacts Util Models Atlas Hough SpecHough HoughFacts PolyEval Calib Cand SpecCand CandFacts Ransac SpecRansac RansacFacts SampleFacts.
From Verif Require Import Main_Ransac.
Import ListNotations.
Local Open Scope num_scope.

(** C59 *)
Theorem ransac_valid_matching :
  forall (A : Type) (N : Num A) (O : NumOrder A) (o : oracle A) fuel c deg max_tries coeff ctol brute c' r co x y,
    (forall l, is_argsort l (o_argsort o l)) ->
    ransac_xy o c ctol = Ok (x, y) -> no_nan x -> no_nan y ->
    solve_ransac o fuel c deg max_tries coeff ctol brute = Some (c', Ok r) -> rr_p r = Some co ->
    exists xs ys,
      c_mpeaks c' = MList xs /\ c_matlas c' = MList ys /\ matching x y xs ys /\
      List.length xs = rr_inl r /\ StronglySorted (fun a b => a <' b = true) ys.
Proof. exact ransac_valid_matching_main. Qed.
Print Assumptions ransac_valid_matching.

Example ransac_valid_matching_example :
  exists c' r, solve_ransac o_ex 50 c_ex 1 3 None (fz 20) false = Some (c', Ok r) /\
    ransac_xy o_ex c_ex (fz 20) = Ok (ex_peaks, [fz 4002; fz 4897; fz 6101; fz 7302; fz 7999]) /\
    c_mpeaks c' = MList ex_peaks /\ c_matlas c' = MList [fz 4002; fz 4897; fz 6101; fz 7302; fz 7999] /\
    rr_inl r = 5%nat /\ rr_valid r = true /\ rr_p r <> None.
Proof. exact ransac_valid_matching_example_main. Qed.

(** C60, the part that holds in every arithmetic: the limits on the number of matches
    and the least error, and what the reported residuals and rms are. *)
Theorem ransac_quality_partial :
  forall (A : Type) (N : Num A) (O : NumOrder A) (o : oracle A) fuel c deg max_tries coeff ctol brute c' r co x y,
    (forall l, is_argsort l (o_argsort o l)) ->
    ransac_xy o c ctol = Ok (x, y) -> no_nan x -> no_nan y ->
    solve_ransac o fuel c deg max_tries coeff ctol brute = Some (c', Ok r) -> rr_p r = Some co ->
    (deg < rr_inl r)%nat /\ rr_valid r = Nat.ltb (deg + 1) (rr_inl r) /\
    (exists m, r_matches (c_rp c) = Some m /\ nnat (rr_inl r) <' m = false) /\
    (exists u, r_util (c_rp c) = Some u /\ nnat (rr_inl r) <' u *' nnat (List.length (c_peaks c)) = false) /\
    (exists e, r_fit_error (c_rp c) = Some e /\ rr_err r <' e = false) /\
    exists k tol xs ys tf,
      c_kind c = Some k /\ r_tol (c_rp c) = Some tol /\ c_mpeaks c' = MList xs /\ c_matlas c' = MList ys /\
      (* every match is nearer than the tolerance to the trial fit *)
      inliers (fun p => eval_kind k p tf) tol x y xs ys /\
      (* the reported numbers describe the refitted polynomial *)
      rr_resid r = Some (map (fun q => let d := eval_kind k (fst q) co -' snd q in
                                       if tol <' nabs d then tol else d) (combine xs ys)) /\
      (forall res, rr_resid r = Some res -> rr_err r = nsqrt (np_mean (map (fun v => v *' v) res))).
Proof. exact ransac_quality_partial_main. Qed.
Print Assumptions ransac_quality_partial.

(** C60, in exact numbers: the reported residuals and the rms are within the
    tolerance. *)
Theorem ransac_residuals_partial :
  forall (o : oracle xr) fuel c deg max_tries coeff ctol brute c' r co x y tol res,
    (forall l, is_argsort l (o_argsort o l)) ->
    ransac_xy o c ctol = Ok (x, y) -> no_nan x -> no_nan y ->
    solve_ransac o fuel c deg max_tries coeff ctol brute = Some (c', Ok r) -> rr_p r = Some co ->
    r_tol (c_rp c) = Some (Fin tol) -> (0 <= tol)%R ->
    rr_resid r = Some res -> no_nan res ->
    exists vs rms, res = map Fin vs /\ rr_err r = Fin rms /\
      (forall v, In v vs -> (Rabs v <= tol)%R) /\ (0 <= rms <= tol)%R.
Proof. exact ransac_residuals_partial_main. Qed.
Print Assumptions ransac_residuals_partial.

(** C60 fails for the residuals of the returned polynomial: they are replaced by the
    tolerance before they are reported. *)
Theorem ransac_residual_bound_refuted :
  exists c' r co p q,
    solve_ransac o_far 50 c_far 1 1 None (fz 20) false = Some (c', Ok r) /\
    rr_p r = Some co /\ rr_valid r = true /\ r_tol (c_rp c_far) = Some (fz 5) /\
    c_mpeaks c' = MList far_peaks /\ c_matlas c' = MList far_waves /\
    In (p, q) (combine far_peaks far_waves) /\
    fz 6 <' nabs (eval_kind FitPoly p co -' q) = true /\
    (exists res, rr_resid r = Some res /\ forallb (fun v => nabs v <=' fz 5) res = true).
Proof. exact ransac_residual_bound_refuted_main. Qed.
Print Assumptions ransac_residual_bound_refuted.

(** C61 *)
Theorem more_tries_not_worse :
  forall (A : Type) (N : Num A) (O : NumOrder A) (o : oracle A) fuel c x y deg size n m coeff brute f l1 s0 s1,
    (n <= m)%nat ->
    ransac_setup o c x y deg size n coeff brute = Ok (f, l1, s0) -> nisnan (s_cost s0) = false ->
    run_samples o fuel f s0 l1 = Done s1 ->
    s_cost s1 <=' s_cost s0 = true /\
    exists l2,
      ransac_setup o c x y deg size m coeff brute = Ok (f, l1 ++ l2, s0)%list /\
      match run_samples o fuel f s0 (l1 ++ l2) with
      | Done s2 | Fail s2 _ | Out s2 => s_cost s2 <=' s_cost s1 = true
      end.
Proof. exact more_tries_not_worse_main. Qed.
Print Assumptions more_tries_not_worse.

Example more_tries_not_worse_example :
  match ex_cost 0, ex_cost 1, ex_cost 9 with
  | Some a, Some b, Some c => b <' a = true /\ c <' b = true
  | _, _, _ => False
  end.
Proof. exact more_tries_not_worse_example_main. Qed.

(** C61: the solution kept has the least cost of all the acceptable ones tried. *)
Theorem ransac_keeps_best :
  forall (A : Type) (N : Num A) (O : NumOrder A) (o : oracle A) fuel c x y deg size n coeff brute f l s0 s,
    x <> [] -> no_nan x ->
    ransac_setup o c x y deg size n coeff brute = Ok (f, l, s0) ->
    run_samples o fuel f s0 l = Done s ->
    forall d cost, In d (s_log s) -> good_trial o f d cost -> cost <' s_cost s = false.
Proof. exact ransac_keeps_best_main. Qed.
Print Assumptions ransac_keeps_best.

Example ransac_keeps_best_example :
  match ransac_setup o_ex c_ex ex_peaks [fz 4002; fz 4897; fz 6101; fz 7302; fz 7999] 1 2 9 None false with
  | Ok (f, l, s0) => match run_samples o_ex 50 f s0 l with
                     | Done s => Nat.leb 9 (List.length (s_log s)) = true
                     | _ => False
                     end
  | Raise _ => False
  end.
Proof. exact ransac_keeps_best_example_main. Qed.

(** C62 fails: the search does not end, whatever max_tries is, whatever the random
    numbers are, with and without brute_force. *)
Theorem ransac_terminates_refuted :
  forall smp pick,
    (forall t l p, Permutation (smp t l (List.length l) p) l) -> (forall t l, l <> [] -> In (pick t l) l) ->
    forall fuel max_tries brute, solve_ransac (o_any smp pick) fuel c_dec 1 max_tries None (fz 20) brute = None.
Proof. exact ransac_terminates_refuted_main. Qed.
Print Assumptions ransac_terminates_refuted.

Example ransac_terminates_example :
  (forall t l p, Permutation ((fun (_ : nat) (l : list f64) (n : nat) (_ : list f64) => firstn n l) t l (List.length l) p) l) /\
  (forall t l, l <> [] -> In ((fun (_ : nat) (l : list f64) => hd (fz 0) l) t l) l).
Proof. exact ransac_terminates_example_main. Qed.

(** C62, the part that holds: at most one fit is made per sample, apart from those
    thrown back with [continue]; the samples number max_tries, or are all
    combinations. *)
Theorem ransac_work_partial :
  forall (A : Type) (N : Num A) (o : oracle A) fuel c x y deg size n coeff brute f l s0,
    ransac_setup o c x y deg size n coeff brute = Ok (f, l, s0) ->
    match run_samples o fuel f s0 l with
    | Done s | Fail s _ | Out s =>
        exists rej ok, Permutation (s_log s) (rej ++ ok) /\ (List.length ok <= List.length l)%nat /\
          forall d, In d rej -> exists s', trial o f s' (fst d) (snd d) = TContinue
    end /\
    (brute = false -> (size < List.length (np_unique x))%nat -> List.length l = n) /\
    (brute = true -> l = combinations (seq 0 (List.length x)) size).
Proof. exact ransac_work_partial_main. Qed.
Print Assumptions ransac_work_partial.

Example ransac_work_example :
  match ransac_setup o_ex c_ex ex_peaks [fz 4002; fz 4897; fz 6101; fz 7302; fz 7999] 1 2 9 None false with
  | Ok (f, l, s0) => List.length l = 9%nat /\ (exists s, run_samples o_ex 50 f s0 l = Done s)
  | Raise _ => False
  end.
Proof. exact ransac_work_example_main. Qed.

(** C89: brute force goes through every combination of the candidate pairs, each once. *)
Theorem brute_force_combinations :
  forall n k,
    NoDup (combinations (seq 0 n) k) /\
    forall smp, In smp (combinations (seq 0 n) k) <->
      (List.length smp = k /\ StronglySorted lt smp /\ forall i, In i smp -> (i < n)%nat).
Proof. exact brute_force_combinations_main. Qed.
Print Assumptions brute_force_combinations.

Example brute_force_combinations_example :
  combinations (seq 0 4) 2 = [[0; 1]; [0; 2]; [0; 3]; [1; 2]; [1; 3]; [2; 3]]%nat.
Proof. exact brute_force_combinations_example_main. Qed.

Theorem ransac_known_pairs_partial :
  forall (A : Type) (N : Num A) (O : NumOrder A) (o : oracle A) fuel c x y deg size n coeff brute f l s0,
    (forall t l, l <> [] -> In (o_pick o t l) l) ->
    List.length x = List.length y -> no_nan x -> no_nan y ->
    ransac_setup o c x y deg size n coeff brute = Ok (f, l, s0) ->
    match run_samples o fuel f s0 l with
    | Done s | Fail s _ | Out s =>
        forall d, In d (s_log s) -> exists xs ys,
          d = match c_known c with Some (kx, ky) => (xs ++ kx, ys ++ ky)%list | None => (xs, ys) end /\
          Forall2 (candidate_pair x y) xs ys
    end.
Proof. exact ransac_known_pairs_partial_main. Qed.
Print Assumptions ransac_known_pairs_partial.

Example ransac_known_pairs_example :
  match ransac_setup o_ex c_known_ex ex_peaks ex_waves 1 2 3 None false with
  | Ok (f, l, s0) => match run_samples o_ex 50 f s0 l with
                     | Done s => hd_error (s_log s) = Some ([fz 190; fz 310; fz 600], [fz 4897; fz 6101; fz 9004])
                     | _ => False
                     end
  | Raise _ => False
  end.
Proof. exact ransac_known_pairs_example_main. Qed.

(** C63 fails for the final refit, which is made without the known pairs. *)
Theorem ransac_refit_known_refuted :
  exists c' r co,
    solve_ransac o_ex 50 c_known_ex 1 3 None (fz 20) false = Some (c', Ok r) /\ rr_p r = Some co /\
    c_mpeaks c' = MList ex_peaks /\ c_matlas c' = MList ex_waves /\
    robust_polyfit (o_ls o_ex) ex_peaks ex_waves 1 None = Ok co /\
    robust_polyfit (o_ls o_ex) (ex_peaks ++ [fz 600]) (ex_waves ++ [fz 9004]) 1 None <> Ok co.
Proof. exact ransac_refit_known_refuted_main. Qed.
Print Assumptions ransac_refit_known_refuted.

(** C64, the part that holds: whatever is stored costs no more than the sum of the
    errors of the coefficients supplied. *)
Theorem initial_solution_partial :
  forall (A : Type) (N : Num A) (O : NumOrder A) (o : oracle A) fuel c x y deg size n co0 k err mx my brute f l s0 s,
    c_kind c = Some k ->
    match_bijective (fun p => eval_kind k p co0) (build_dict x y) (np_unique x) = Ok (err, mx, my) ->
    nisnan (np_sum err) = false ->
    ransac_setup o c x y deg size n (Some co0) brute = Ok (f, l, s0) ->
    run_samples o fuel f s0 l = Done s ->
    s_cost s <=' np_sum err = true /\ (s_p s = None -> s_err s = rms_of err).
Proof. exact initial_solution_partial_main. Qed.
Print Assumptions initial_solution_partial.

(** C64 fails: given the line itself, the search ends without any solution. *)
Theorem initial_solution_refuted :
  exists c' r err mx my,
    solve_ransac o_ex 50 c_on 1 1 (Some [fz 3000; fz 10]) (fz 20) false = Some (c', Ok r) /\
    rr_p r = None /\ rr_inl r = 0%nat /\
    match_bijective (fun p => eval_kind FitPoly p [fz 3000; fz 10]) (build_dict ex_peaks on_waves) ex_peaks = Ok (err, mx, my) /\
    err = [fz 0; fz 3; fz 0; fz 0; fz 0].
Proof. exact initial_solution_refuted_main. Qed.
Print Assumptions initial_solution_refuted.

(** C66, over exact numbers: positive probabilities of sum one exactly when every peak on
    an inner edge of the ten bins of the histogram has another peak in the bin below it;
    otherwise there is a NaN among them. *)
Theorem sampling_prob_partial :
  forall ps lo hi, ps <> [] -> data_range ps lo hi ->
    let clear := forall p i, In p ps -> (1 <= i <= 9)%nat -> p = edge lo hi 10 i ->
                   exists q, In q ps /\ (edge lo hi 10 (i - 1) <= q < edge lo hi 10 i)%R in
    (clear -> exists qs, sampling_prob (map Fin ps) = Ok (map Fin qs) /\ List.length qs = List.length ps /\
       (forall q, In q qs -> (0 < q)%R) /\ fold_right Rplus 0%R qs = 1%R) /\
    (~ clear -> exists l, sampling_prob (map Fin ps) = Ok l /\ In NaN l).
Proof. exact sampling_prob_partial_main. Qed.
Print Assumptions sampling_prob_partial.

(** Peaks that meet the condition (one of them on an edge), and peaks that do not. *)
Example sampling_prob_example :
  let clear ps lo hi := forall p i, In p ps -> (1 <= i <= 9)%nat -> p = edge lo hi 10 i ->
                   exists q, In q ps /\ (edge lo hi 10 (i - 1) <= q < edge lo hi 10 i)%R in
  data_range [0; 1 / 2; 1; 10]%R 0 10 /\ clear [0; 1 / 2; 1; 10]%R 0%R 10%R /\
  data_range [0; 5; 10]%R 0 10 /\ ~ clear [0; 5; 10]%R 0%R 10%R.
Proof. exact sampling_prob_example_main. Qed.

Theorem sampling_prob_refuted :
  (exists qs, sampling_prob edge_peaks = Ok qs /\ existsb nisnan qs = true) /\
  exists c', solve_ransac o_ex 50 (ransac_ex edge_peaks (list_prod edge_peaks [fz 3001; fz 3052; fz 3098]) [(fz 10, fz 3000)])
               1 100 None (fz 20) false = Some (c', Raise ValueError).
Proof. exact sampling_prob_refuted_main. Qed.
Print Assumptions sampling_prob_refuted.

(** C67: what the bonus is. *)
Theorem hough_bonus_partial :
  forall (A : Type) (N : Num A) (f : cfg A) sp w c0 c1 co,
    f_spline f = Sp sp -> f_hw f = Some w ->
    hough_bonus f (c0 :: c1 :: co) =
      Ok (w *' np_sum (map (fun p => let gradient := eval_kind (f_kind f) p (derivative (c0 :: c1 :: co)) in
                                     let intercept := eval_kind (f_kind f) p (c0 :: c1 :: co) -' gradient *' p in
                                     sp intercept gradient) (f_pixels f))).
Proof. exact hough_bonus_partial_main. Qed.
Print Assumptions hough_bonus_partial.

(** C67 fails: the spline is made from the histogram with gradients along the first
    axis and looked up with the intercept as first argument.  For the density "slope"
    and the trial fit 3000 + 10 p the bonus is the intercept. *)
Theorem hough_bonus_refuted :
  exists o c f l s0,
    ransac_setup o c ex_peaks ex_waves 1 2 3 None false = Ok (f, l, s0) /\
    ho_xedges (c_ht c) = Some [fz 5; fz 10; fz 15] /\ ho_yedges (c_ht c) = Some [fz 2000; fz 3000; fz 4000] /\
    (* the density at (slope, intercept) is the slope *)
    f_spline f = Sp (fun slope intercept => slope) /\ f_hw f = Some (fz 1) /\ f_pixels f = [fz 0] /\
    hough_bonus f [fz 3000; fz 10] = Ok (fz 3000).
Proof. exact hough_bonus_refuted_main. Qed.
Print Assumptions hough_bonus_refuted.

(** C88 *)
Theorem filter_close_separates :
  forall t x y, List.length x = List.length y ->
    let kept := filter (fun q => isolated t y (snd q)) (combine x y) in
    filter_close (Fin t) (map Fin x) (map Fin y) = (map Fin (map fst kept), map Fin (map snd kept)) /\
    (forall v v', In v (map snd kept) -> In v' (map snd kept) -> (v < v')%R -> (3 * t <= v' - v)%R) /\
    (forall a b, In (a, b) kept <->
       In (a, b) (combine x y) /\ forall z, In z y -> (b < z)%R -> (3 * t <= z - b)%R).
Proof. exact filter_close_separates_main. Qed.
Print Assumptions filter_close_separates.

Example filter_close_example :
  filter_close (fz 5) [fz 1; fz 2; fz 3; fz 4] [fz 100; fz 110; fz 200; fz 110] =
  ([fz 2; fz 3; fz 4], [fz 110; fz 200; fz 110]).
Proof. exact filter_close_example_main. Qed.

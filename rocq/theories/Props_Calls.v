(** * Props_Calls: property theorems only.  The proofs are in Main_Calls.v. *)

From Coq Require Import ZArith Bool List String Lia Reals Lra Sorted Permutation.
From Verif Require Import Num F64 XReal Py Np NpFacts ArgsortFacts Util Models Atlas Hough PolyEval Calib SpecCalib Main_Calib Cand SpecCand CandFacts Ransac SpecRansac RansacFacts Main_Ransac Fit SpecFit FitFacts Main_Fit SpecBrute Main_Brute Calls SpecCalls.
From Verif Require Import Main_Calls.
Import ListNotations.
Local Open Scope num_scope.

(** C61: two calls of fit in the same state that differ in max_tries only.  The one with
    more tries makes the trial fits of the other first, and the trial it returns is not
    more expensive than the one the other returns. *)
Theorem fit_more_tries :
  forall (A : Type) (N : Num A) (O : NumOrder A) (o : oracle A) fuel c n m deg coeff ftol kind ctol brute c1 v1 c2 v2 at_,
    (forall l, is_argsort l (o_argsort o l)) -> pairs_current c -> c_atlas c = Some at_ ->
    no_nan (c_peaks c) -> no_nan (get_lines at_) -> (n <= m)%nat ->
    let a := mkFA n deg coeff ftol kind ctol brute in
    let b := mkFA m deg coeff ftol kind ctol brute in
    fit o fuel c a = Some (c1, Ok v1) -> fit o fuel c b = Some (c2, Ok v2) ->
    exists x y f d1 d2 cost1 cost2 xs1 ys1 xs2 ys2 more,
      candidates_of c x y /\ rated_by o c1 (degree_used a) x y f /\ rated_by o c2 (degree_used a) x y f /\
      (fit_calls o fuel c b = fit_calls o fuel c a ++ more)%list /\
      In d1 (fit_calls o fuel c a) /\ trial_result o f d1 cost1 xs1 ys1 (fv_coeff v1) /\
      fv_mpeaks v1 = MList xs1 /\ fv_matlas v1 = MList ys1 /\
      In d2 (fit_calls o fuel c b) /\ trial_result o f d2 cost2 xs2 ys2 (fv_coeff v2) /\
      fv_mpeaks v2 = MList xs2 /\ fv_matlas v2 = MList ys2 /\
      cost1 <' cost2 = false.
Proof. exact fit_more_tries_main. Qed.
Print Assumptions fit_more_tries.

(** C141: what fit returns is the robust refit of the matches of one of the trial fits it
    made, and no acceptable trial fit was cheaper. *)
Theorem fit_best_of_trials :
  forall (A : Type) (N : Num A) (O : NumOrder A) (o : oracle A) fuel c a c' v at_,
    (forall l, is_argsort l (o_argsort o l)) -> pairs_current c -> c_atlas c = Some at_ ->
    no_nan (c_peaks c) -> no_nan (get_lines at_) ->
    fit o fuel c a = Some (c', Ok v) ->
    exists x y f d cost xs ys,
      candidates_of c x y /\ rated_by o c' (degree_used a) x y f /\
      In d (fit_calls o fuel c a) /\ trial_result o f d cost xs ys (fv_coeff v) /\
      fv_mpeaks v = MList xs /\ fv_matlas v = MList ys /\
      forall d' cost', In d' (fit_calls o fuel c a) -> good_trial o f d' cost' -> cost' <' cost = false.
Proof. exact fit_best_of_trials_main. Qed.
Print Assumptions fit_best_of_trials.

(** C122, C141: with brute force the trial fits are made for all choices of candidate
    pairs, each once; so what fit returns is the best over all choices. *)
Theorem fit_brute_best :
  forall (A : Type) (N : Num A) (O : NumOrder A) (o : oracle A) fuel c a c' v at_ size,
    (forall l, is_argsort l (o_argsort o l)) -> pairs_current c -> c_atlas c = Some at_ ->
    no_nan (c_peaks c) -> no_nan (get_lines at_) ->
    r_sample (c_rp c) = Some size -> fa_brute a = true ->
    fit o fuel c a = Some (c', Ok v) ->
    let m := Nat.max (fa_deg a + 1) (Nat.min size (List.length (get_lines at_))) in
    exists x y f d cost xs ys choices,
      candidates_of c x y /\ rated_by o c' (degree_used a) x y f /\
      NoDup choices /\ (forall smp, In smp choices <-> choice_of (List.length x) m smp) /\
      Forall2 (chosen (c_known c) x y) choices (fit_calls o fuel c a) /\
      In d (fit_calls o fuel c a) /\ trial_result o f d cost xs ys (fv_coeff v) /\
      fv_mpeaks v = MList xs /\ fv_matlas v = MList ys /\
      forall smp d' cost', choice_of (List.length x) m smp -> chosen (c_known c) x y smp d' ->
        good_trial o f d' cost' -> cost' <' cost = false.
Proof. exact fit_brute_best_main. Qed.
Print Assumptions fit_brute_best.

(** C63: whatever comes of it, every trial fit made by fit is made to peaks and lines of
    the calibrator followed by all known pairs, in order; without brute force no line is
    used twice in a sample. *)
Theorem fit_calls_known :
  forall (A : Type) (N : Num A) (O : NumOrder A) (o : oracle A) fuel c a at_,
    (forall l, is_argsort l (o_argsort o l)) -> (forall t l, l <> [] -> In (o_pick o t l) l) ->
    pairs_current c -> c_atlas c = Some at_ -> no_nan (c_peaks c) -> no_nan (get_lines at_) ->
    forall d, In d (fit_calls o fuel c a) ->
      exists xs ys,
        d = match c_known c with Some (kx, ky) => (xs ++ kx, ys ++ ky)%list | None => (xs, ys) end /\
        Forall2 (fun p w => (exists q, In q (c_peaks c) /\ q ==' p = true) /\
                            (exists z, In z (get_lines at_) /\ z ==' w = true)) xs ys /\
        (fa_brute a = false -> pairwise_different ys).
Proof. exact fit_calls_known_main. Qed.
Print Assumptions fit_calls_known.

(** The ten pairs of the five candidates are fitted and all five peaks are matched. *)
Example fit_brute_best_example :
  pairs_current c_all /\ r_sample (c_rp c_all) = Some 2%nat /\
  match fit o_ex 10 c_all a_all with
  | Some (_, Ok v) => fv_mpeaks v = MList ex_peaks /\ fv_matlas v = MList ex_waves
  | _ => False
  end /\
  map fst (fit_calls o_ex 10 c_all a_all) =
    [[fz 100; fz 190]; [fz 100; fz 310]; [fz 100; fz 430]; [fz 100; fz 500]; [fz 190; fz 310];
     [fz 190; fz 430]; [fz 190; fz 500]; [fz 310; fz 430]; [fz 310; fz 500]; [fz 430; fz 500]].
Proof. exact fit_brute_best_example_main. Qed.

(** The session of Main_Fit: five trial fits are made for three tries. *)
Example fit_best_of_trials_example :
  pairs_current c_session /\
  match fit o_ex 60 c_session a_session with
  | Some (_, Ok v) => fv_mpeaks v = MList ex_peaks
  | _ => False
  end /\ List.length (fit_calls o_ex 60 c_session a_session) = 5%nat.
Proof. exact fit_best_of_trials_example_main. Qed.

(** The session of Main_Fit with two and with three tries. *)
Example fit_more_tries_example :
  let a n := mkFA n (fa_deg a_session) (fa_coeff a_session) (fa_ftol a_session) (fa_type a_session) (fa_ctol a_session) (fa_brute a_session) in
  pairs_current c_session /\
  match fit o_ex 60 c_session (a 2%nat) with Some (_, Ok v) => fv_mpeaks v = MList ex_peaks | _ => False end /\
  match fit o_ex 60 c_session (a 3%nat) with Some (_, Ok v) => fv_mpeaks v = MList ex_peaks | _ => False end /\
  (List.length (fit_calls o_ex 60 c_session (a 2%nat)) < List.length (fit_calls o_ex 60 c_session (a 3%nat)))%nat.
Proof. exact fit_more_tries_example_main. Qed.

(** The same session with one known pair: it is the last point of every trial fit. *)
Example fit_calls_known_example :
  let c := set_c_known (Some ([fz 600], [fz 9004])) c_session in
  pairs_current c /\
  map (fun d => (last (fst d) (fz 0), last (snd d) (fz 0))) (firstn 2 (fit_calls o_ex 60 c a_session)) =
    [(fz 600, fz 9004); (fz 600, fz 9004)].
Proof. exact fit_calls_known_example_main. Qed.

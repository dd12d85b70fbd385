(** * Props_Edit: property theorems only.  The proofs are in Main_Edit.v. *)

From Coq Require Import ZArith Bool List String Lia Reals Lra Sorted Permutation.
From Verif Require Import Num F64 XReal Py Np NpFacts ArgsortFacts Util Models Atlas Hough PolyEval SpecPoly PolyFacts Main_Models Calib SpecCalib Main_Calib Cand SpecCand CandFacts Ransac RansacFacts SampleFacts Main_Ransac Fit Main_Fit MatchPeaks SpecMatch MatchFacts Main_Match.
From Verif Require Import Main_Edit.
Import ListNotations.
Local Open Scope num_scope.

(** C74: after any history of calls, successful or not, matched peaks and matched lines
    are aligned, the pairs are the initial ones with the added ones and without the
    removed ones, and nothing else has changed; a call that raises changes nothing. *)
Theorem edits_aligned :
  forall (A : Type) (N : Num A) (c : calib A) (h : list (edit_op A)),
    aligned c ->
    aligned (edit_run c h) /\
    Permutation (matched_pairs (edit_run c h) ++ removed c h) (matched_pairs c ++ added c h) /\
    set_c_matlas (c_matlas c) (set_c_mpeaks (c_mpeaks c) (edit_run c h)) = c /\
    (forall e err, snd (edit_step (edit_run c h) e) = Raise err -> fst (edit_step (edit_run c h) e) = edit_run c h).
Proof. exact edits_aligned_main. Qed.
Print Assumptions edits_aligned.

Example matched_state_example :
  c_matched = fst (match_peaks o_ex no_mini c_fitted (ma_plain (fz 20) false true)).
Proof. exact matched_state_example_main. Qed.

Example edits_example :
  c_mpeaks c_matched = MArr ex_peaks /\ c_matlas c_matched = MArr ex_waves /\
  let c' := edit_run c_matched [EAdd (fz 200) (fz 5000); ERemove 1; ERemove 99; EAdd (fz 50) (fz 3500)] in
  matched_pairs c' = [(fz 200, fz 5000); (fz 190, fz 4897); (fz 310, fz 6101); (fz 430, fz 7302); (fz 500, fz 7999)].
Proof. exact edits_example_main. Qed.

(** C75 fails for every input: a pair whose pixel exceeds the first matched peak always
    goes to the front, so that increasing peaks are not increasing afterwards; a pixel
    not above any matched peak raises IndexError; and while the matches are lists, as
    fit leaves them, every call raises TypeError. *)
Theorem add_pair_sorted_refuted :
  forall (A : Type) (N : Num A) (c : calib A) (pix wave : A),
    (forall p0 rest, c_mpeaks c = MArr (p0 :: rest) -> c_matlas c <> MNone -> p0 <' pix = true ->
       snd (add_pix_wave_pair c pix wave) = Ok tt /\
       c_mpeaks (fst (add_pix_wave_pair c pix wave)) = MArr (pix :: p0 :: rest)) /\
    (forall p, c_mpeaks c = MArr p -> (forall q, In q p -> q <' pix = false) ->
       add_pix_wave_pair c pix wave = (c, Raise IndexError)) /\
    (forall p, c_mpeaks c = MList p -> add_pix_wave_pair c pix wave = (c, Raise TypeError)).
Proof. exact add_pair_sorted_refuted_main. Qed.
Print Assumptions add_pair_sorted_refuted.

(** Reachable cases: after the fit, and after match_peaks. *)
Example add_pair_example :
  snd (add_pix_wave_pair c_fitted (fz 600) (fz 9001)) = Raise TypeError /\
  snd (add_pix_wave_pair c_matched (fz 50) (fz 3500)) = Raise IndexError /\
  c_mpeaks (fst (add_pix_wave_pair c_matched (fz 600) (fz 9001))) = MArr (fz 600 :: ex_peaks).
Proof. exact add_pair_example_main. Qed.

(** C75, the part that holds: if the matched peaks are in decreasing order and one of
    them is below the pixel, the pair is inserted at its place in that order. *)
Theorem add_pair_sorted_partial :
  forall (A : Type) (N : Num A) (O : NumOrder A) (c : calib A) (pix wave : A) p,
    c_mpeaks c = MArr p -> aligned c -> no_nan (pix :: p) ->
    StronglySorted (fun u v => v <=' u = true) p -> (exists q, In q p /\ q <' pix = true) ->
    exists c' p',
      add_pix_wave_pair c pix wave = (c', Ok tt) /\ c_mpeaks c' = MArr p' /\
      StronglySorted (fun u v => v <=' u = true) p' /\
      Permutation (matched_pairs c') ((pix, wave) :: matched_pairs c).
Proof. exact add_pair_sorted_partial_main. Qed.
Print Assumptions add_pair_sorted_partial.

(** The hypotheses are met: decreasing peaks. *)
Example add_pair_sorted_example :
  let c := set_c_matlas (MArr (rev ex_waves)) (set_c_mpeaks (MArr (rev ex_peaks)) c_matched) in
  c_mpeaks (fst (add_pix_wave_pair c (fz 200) (fz 5000))) = MArr [fz 500; fz 430; fz 310; fz 200; fz 190; fz 100] /\
  c_matlas (fst (add_pix_wave_pair c (fz 200) (fz 5000))) = MArr [fz 7999; fz 7302; fz 6101; fz 5000; fz 4897; fz 4002].
Proof. exact add_pair_sorted_example_main. Qed.

(** C76: with different lengths the call raises and nothing changes; a call that succeeds
    stores what it returns, changes nothing else, and the residuals are line minus fitted
    value for each pair. *)
Theorem manual_refit_validates :
  forall (A : Type) (N : Num A) (o : oracle A) (c : calib A) (a : refit_args A),
    let mp := given_or (rf_peaks a) (c_mpeaks c) in
    let ma := given_or (rf_atlas a) (c_matlas c) in
    let x := mseq_vals mp in
    let y := mseq_vals ma in
    (List.length x <> List.length y -> fst (manual_refit o c a) = c /\ exists e, snd (manual_refit o c a) = Raise e) /\
    (forall c' co mp' ma' rms r, manual_refit o c a = (c', Ok (co, mp', ma', rms, r)) ->
       exists k, c_kind c = Some k /\ mp' = mp /\ ma' = ma /\ List.length x = List.length y /\ x <> [] /\
         r = map (fun q => snd q -' eval_kind k (fst q) co) (combine x y) /\ rms = root_mean_square r /\
         c' = set_c_rms (Some rms) (set_c_residuals (Some r) (set_c_matlas ma (set_c_mpeaks mp (set_c_coeff (Some co) c))))).
Proof. exact manual_refit_validates_main. Qed.
Print Assumptions manual_refit_validates.

Theorem manual_refit_rms :
  forall (o : oracle xr) (c : calib xr) (a : refit_args xr) c' co mp ma rms ds,
    manual_refit o c a = (c', Ok (co, mp, ma, rms, map Fin ds)) ->
    rms = Fin (sqrt (fold_right Rplus 0 (map (fun d => d * d) ds) / INR (List.length ds)))%R.
Proof. exact manual_refit_rms_main. Qed.
Print Assumptions manual_refit_rms.

Example manual_refit_example :
  match manual_refit o_ex (edit_run c_matched [ERemove 4]) refit_line return Prop with
  | (c', Ok (co, mp, ma, rms, r)) =>
      mp = MArr [fz 100; fz 190; fz 310; fz 430] /\ List.length r = 4%nat /\ rms <' fz 50 = true
  | _ => False
  end /\
  snd (manual_refit o_ex c_matched (mkRF (MList [fz 1; fz 2]) (MList [fz 1]) (Some 1%Z) MNone)) = Raise AssertionError.
Proof. exact manual_refit_example_main. Qed.

(** C93, the part that holds: once fit has set the fit type, a manual_refit that raises
    leaves the calibrator as it was (for an optimiser that returns as many coefficients
    as it is given). *)
Theorem manual_refit_atomic_partial :
  forall (A : Type) (N : Num A) (o : oracle A) (c : calib A) (a : refit_args A) e,
    c_kind c <> None ->
    (forall x y d p q, o_ls o x y d p = Ok q -> List.length q = List.length p) ->
    snd (manual_refit o c a) = Raise e -> fst (manual_refit o c a) = c.
Proof. exact manual_refit_atomic_partial_main. Qed.
Print Assumptions manual_refit_atomic_partial.

(** C93 fails before the first fit: manual_refit raises AttributeError after replacing
    the stored coefficients and matches. *)
Theorem manual_refit_atomic_refuted :
  forall (A : Type) (N : Num A) (o : oracle A) (c : calib A) x y d co,
    c_kind c = None -> List.length x = List.length y -> (0 < d)%Z -> (d <= Z.of_nat (List.length x) - 1)%Z ->
    robust_polyfit (o_ls o) x y (Z.to_nat d) None = Ok co -> co <> [] ->
    let r := manual_refit o c (mkRF (MList x) (MList y) (Some d) MNone) in
    snd r = Raise AttributeError /\
    c_coeff (fst r) = Some co /\ c_mpeaks (fst r) = MList x /\ c_matlas (fst r) = MList y.
Proof. exact manual_refit_atomic_refuted_main. Qed.
Print Assumptions manual_refit_atomic_refuted.

Example manual_refit_atomic_example :
  c_kind c_session = None /\ c_coeff c_session = None /\
  exists co, robust_polyfit (o_ls o_ex) ex_peaks ex_waves 1 None = Ok co /\ co <> [].
Proof. exact manual_refit_atomic_example_main. Qed.

(** C92, the part that holds, over exact numbers: for fit type "poly", or degree at most
    1, a refit whose optimiser interpolates the normalised data exactly leaves residuals
    that are all zero. *)
Theorem refit_exact_partial :
  forall (o : oracle xr) (c : calib xr) (x y : list R) (d : nat) sx sy c' co mp ma rms r,
    c_kind c = Some FitPoly \/ (c_kind c <> None /\ (d <= 1)%nat) ->
    np_std (map Fin x) = Fin sx -> np_std (map Fin y) = Fin sy -> sx <> 0%R -> sy <> 0%R ->
    (forall start found,
       o_ls o (map Fin (map (fun v => v / sx)%R x)) (map Fin (map (fun v => v / sy)%R y)) d start = Ok found ->
       exists q, found = map Fin q /\ List.length q = (d + 1)%nat /\
         forall xi yi, In (xi, yi) (combine x y) -> basis_sum powB (rev q) (xi / sx) = (yi / sy)%R) ->
    manual_refit o c (mkRF (MArr (map Fin x)) (MArr (map Fin y)) (Some (Z.of_nat d)) MNone) = (c', Ok (co, mp, ma, rms, r)) ->
    forall z, In z r -> z = Fin 0.
Proof. exact refit_exact_partial_main. Qed.
Print Assumptions refit_exact_partial.

Theorem refit_exact_refuted :
  match manual_refit o_parabola (set_c_kind (Some FitLegendre) c_fitted)
          (mkRF (MArr parabola) (MArr (map (fun u => u *' u) parabola)) (Some 2%Z) MNone) with
  | (_, Ok (co, _, _, _, r)) =>
      match co with
      | [c0; c1; c2] => c0 ==' fz 0 = true /\ c1 ==' fz 0 = true /\ nabs (c2 -' fz 1) <' fd 1 (-9) = true
      | _ => False
      end /\
      exists z, nth_error r 5 = Some z /\ fz 30 <' nabs z = true
  | _ => False
  end.
Proof. exact refit_exact_refuted_main. Qed.
Print Assumptions refit_exact_refuted.

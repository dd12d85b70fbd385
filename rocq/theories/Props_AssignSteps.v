(** * Props_AssignSteps: property theorems only.  The proofs are in Main_AssignSteps.v. *)

From Coq Require Import ZArith Bool List Lia Reals Lra.
From Verif Require Import Num F64 XReal Py Np NpFacts Util Models Atlas AtlasFacts SpecAtlas Hough PolyEval Calib SpecCalib CalibFacts Main_Calib Cand Ransac Main_Ransac Fit SpecFit FitFacts Main_Fit MatchPeaks SpecMatch Main_Match RansacFacts AssignSteps SpecAssign.
From Verif Require Import Main_AssignSteps.
Import ListNotations.
Local Open Scope num_scope.

(** The assignments of each call, carried out one after the other, leave the calibrator as the
    call does; so an interruption after n of them is an interruption of the call. *)
Theorem assign_steps_are_the_calls :
  forall (A : Type) (N : Num A) (o : oracle A) (mini : minimiser A) (c : calib A) (k : result_call A),
    stopped o mini c k 0 = c /\
    stopped o mini c k (List.length (call_steps o mini c k)) = call_state o mini c k.
Proof. exact assign_steps_are_the_calls_main. Qed.
Print Assumptions assign_steps_are_the_calls.

(** Wherever match_peaks, manual_refit, add_pix_wave_pair or remove_pix_wave_pair is
    interrupted, only the solution can have changed; match_peaks called again with the same
    coefficients, and manual_refit called again with a degree or x0, leave the calibrator and
    answer exactly as if there had been no interruption.  Called without coefficients, they
    do so as long as the interruption came before the new coefficients were stored. *)
Theorem interrupted_calls_retry_partial :
  forall (A : Type) (N : Num A) (o : oracle A) (mini : minimiser A) (c : calib A) (n : nat),
    (forall k, all_but_solution_kept c (stopped o mini c k n)) /\
    (forall a, let d := stopped o mini c (CMatch a) n in
       ma_coeff a <> MNone \/ c_coeff d = c_coeff c ->
       match_peaks o mini d a = match_peaks o mini c a) /\
    (forall a, let d := stopped o mini c (CRefit a) n in
       rf_x0 a <> MNone \/ rf_deg a <> None \/ c_coeff d = c_coeff c ->
       manual_refit o d a = manual_refit o c a).
Proof. exact interrupted_calls_retry_partial_main. Qed.
Print Assumptions interrupted_calls_retry_partial.

(** After any interruption of any of these calls, match_peaks with coefficients given answers
    as it would have done before; if it answers with pairs, these are what the calibrator
    holds. *)
Theorem interrupted_calls_repair :
  forall (A : Type) (N : Num A) (o : oracle A) (mini : minimiser A) (c : calib A) (k : result_call A) (n : nat) (a : match_args A),
    ma_coeff a <> MNone ->
    snd (match_peaks o mini (stopped o mini c k n) a) = snd (match_peaks o mini c a) /\
    (forall v, snd (match_peaks o mini c a) = Ok v -> mv_peaks v <> MNone ->
       let d := fst (match_peaks o mini (stopped o mini c k n) a) in
       aligned d /\ c_mpeaks d = mv_peaks v /\ c_matlas d = mv_atlas v).
Proof. exact interrupted_calls_repair_main. Qed.
Print Assumptions interrupted_calls_repair.

(** Interrupting them does not keep the pairs together.  add_pix_wave_pair and
    remove_pix_wave_pair interrupted after their first assignment leave lists of different
    lengths; no history of adding and removing pairs, the interrupted call included, makes
    them fit again, and manual_refit then raises unless it is given both lists.  match_peaks
    interrupted after its second assignment leaves the new peaks with no lines: the pairs can
    be neither listed nor edited.  manual_refit interrupted after its first assignment leaves
    the new coefficients with the pairs, residuals and rms of before. *)
Theorem interrupted_calls_refuted :
  forall (A : Type) (N : Num A) (o : oracle A) (mini : minimiser A) (c : calib A),
    (forall e, aligned c -> snd (edit_step c e) = Ok tt ->
       forall h, let d := edit_run (stopped o mini c (CEdit e) 1) h in
         ~ aligned d /\
         (forall a, rf_peaks a = MNone -> rf_atlas a = MNone -> exists ex, snd (manual_refit o d a) = Raise ex)) /\
    (forall a v, snd (match_peaks o mini c a) = Ok v -> mv_peaks v <> MNone ->
       let d := stopped o mini c (CMatch a) 2 in
       c_mpeaks d = mv_peaks v /\ c_matlas d = MNone /\ get_pix_wave_pairs d = Raise TypeError /\
       forall e, exists ex, snd (edit_step d e) = Raise ex) /\
    (forall a co mp ma rms r, snd (manual_refit o c a) = Ok (co, mp, ma, rms, r) ->
       let d := stopped o mini c (CRefit a) 1 in
       c_coeff d = Some co /\ c_mpeaks d = c_mpeaks c /\ c_matlas d = c_matlas c /\
       c_residuals d = c_residuals c /\ c_rms d = c_rms c).
Proof. exact interrupted_calls_refuted_main. Qed.
Print Assumptions interrupted_calls_refuted.

(** In binary64: a fitted calibrator matches its peaks; the pairs it holds are aligned, and
    one can be added. *)
Example interrupted_calls_example :
  exists v, let a := ma_plain (fz 20) false true in
    let c := fst (match_peaks o_ex no_mini c_fitted a) in
    snd (match_peaks o_ex no_mini c_fitted a) = Ok v /\ mv_peaks v <> MNone /\ aligned c /\
    snd (edit_step c (EAdd (fz 600) (fz 9000))) = Ok tt /\
    List.length (call_steps o_ex no_mini c_fitted (CMatch a)) = 11%nat.
Proof. exact interrupted_calls_example_main. Qed.

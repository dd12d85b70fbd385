(** * Props_Limits: property theorems only.  The proofs are in Main_Limits.v. *)

From Coq Require Import ZArith Bool List String Lia Reals Lra Sorted Permutation.
From Verif Require Import Num F64 XReal Py Np NpFacts ArgsortFacts Util UtilFacts Models Atlas AtlasFacts SpecAtlas Hough SpecHough HoughFacts PolyEval Calib SpecCalib CalibFacts Main_Calib Cand SpecCand CandFacts Ransac SpecRansac RansacFacts Main_Ransac Fit SpecFit FitFacts Main_Fit.
From Verif Require Import Main_Limits.
Import ListNotations.
Local Open Scope num_scope.

(** After a successful fit minimum_matches is the least of its old value, the number of
    lines and the number of peaks, and there are at least that many matches. *)
Theorem fit_minimum_matches :
  forall (A : Type) (N : Num A) (O : NumOrder A) (o : oracle A) fuel c a c' v at_ m,
    (forall l, is_argsort l (o_argsort o l)) -> pairs_current c -> c_atlas c = Some at_ ->
    no_nan (c_peaks c) -> no_nan (get_lines at_) -> r_matches (c_rp c) = Some m ->
    fit o fuel c a = Some (c', Ok v) ->
    exists m' xs ys,
      r_matches (c_rp c') = Some m' /\
      (m' = m \/ m' = nnat (List.length (at_lines at_)) \/ m' = nnat (List.length (c_peaks c))) /\
      m <' m' = false /\ nnat (List.length (at_lines at_)) <' m' = false /\ nnat (List.length (c_peaks c)) <' m' = false /\
      fv_mpeaks v = MList xs /\ fv_matlas v = MList ys /\ List.length xs = List.length ys /\
      nnat (List.length xs) <' m' = false.
Proof. exact fit_minimum_matches_main. Qed.
Print Assumptions fit_minimum_matches.

(** minimum_matches = 7 with five lines, and with five lines but four peaks. *)
Example fit_minimum_matches_example :
  (let c := after ex_peaks (session 9 (fz 7) ex_waves) in
   match fit o_ex 60 c a_session with
   | Some (c', Ok v) => r_matches (c_rp c') = Some (fz 5) /\ List.length (mseq_vals (fv_mpeaks v)) = 5%nat
   | _ => False
   end) /\
  (let c := after (tl ex_peaks) (session 2 (fz 7) ex_waves) in
   match fit o_ex 60 c a_session with
   | Some (c', Ok v) => r_matches (c_rp c') = Some (fz 4) /\ List.length (mseq_vals (fv_mpeaks v)) = 4%nat
   | _ => False
   end).
Proof. exact fit_minimum_matches_example_main. Qed.

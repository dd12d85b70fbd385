(** * Props_Forever: property theorems only.  The proofs are in Main_Forever.v. *)

From Coq Require Import ZArith Bool List String Lia Reals Lra Sorted Permutation.
From Verif Require Import Num F64 XReal Py Np NpFacts ArgsortFacts Util Models Atlas Hough PolyEval Calib SpecCalib Main_Calib Cand SpecCand Ransac RansacFacts SampleFacts Main_Ransac Fit Main_Fit.
From Verif Require Import Main_Forever.
Import ListNotations.
Local Open Scope num_scope.

(** C62 fails for a calibrator configured through the API: fit does not end, whatever
    max_tries is, whatever the random numbers are, with and without brute_force. *)
Theorem fit_terminates_refuted :
  forall smp pick,
    (forall t l p, Permutation (smp t l (List.length l) p) l) -> (forall t l, l <> [] -> In (pick t l) l) ->
    forall fuel max_tries brute, fit (o_any smp pick) fuel c_stuck (a_stuck max_tries brute) = None.
Proof. exact fit_terminates_refuted_main. Qed.
Print Assumptions fit_terminates_refuted.

Example fit_terminates_example :
  cal_ok env0 (match calib_init all_inside [fz 100; fz 101] None with Ok c => c | Raise _ => calib_blank [] None end) ops_stuck /\
  match c_atlas c_stuck with Some at_ => get_lines at_ = [fz 4008; fz 4012] | None => False end.
Proof. exact fit_terminates_example_main. Qed.

(** * Props_MatchOrder: property theorems only.  The proofs are in Main_MatchOrder.v. *)

From Coq Require Import ZArith Bool List String Lia Reals Lra Permutation FunctionalExtensionality.
From Verif Require Import Num F64 XReal Py Np NpFacts ArgsortFacts Util Models Atlas Hough PolyEval Calib SpecCalib Cand SpecCand CandFacts Ransac RansacFacts SampleFacts Main_Ransac Fit Main_Fit MatchPeaks SpecMatch MatchFacts Main_Match SpecMatchOrder.
From Verif Require Import Main_MatchOrder.
Import ListNotations.
Local Open Scope num_scope.

(** match_peaks gives the same answer, or the same exception, for the same peaks and lines
    in another order: the same solution, rms and utilisations, and the same pairs with the
    same residuals, and after the call the two calibrators again differ in the order only. *)
Theorem match_order :
  forall (o : oracle xr) (mini : minimiser xr) (c d : calib xr) (a : match_args xr),
    order_blind o -> shuffled c d ->
    let r := match_peaks o mini c a in
    let s := match_peaks o mini d a in
    shuffled (fst r) (fst s) /\
    match snd r, snd s with
    | Ok v, Ok w => same_match v w
    | Raise e, Raise f => e = f
    | _, _ => False
    end.
Proof. exact match_order_main. Qed.
Print Assumptions match_order.

(** The hypotheses are met: fitting straight lines does not look at the order, and a
    calibrator with three lines and three peaks and the same with both reversed differ in
    the order only. *)
Example match_order_example :
  let line w := mkAL (Fin w) "Xe"%string (nZ 1) None in
  let at_ := mkAtlas [line 4000%R; line 5000%R; line 7000%R] (nZ 0) (nZ 9000) (nZ 500) in
  let c := set_c_coeff (Some [nZ 3000; nZ 10]) (set_c_kind (Some FitPoly)
             (set_c_atlas (Some at_) (calib_blank [nZ 100; nZ 200; nZ 400] None))) in
  order_blind o_line /\ shuffled c (turned c) /\ c_peaks (turned c) = [nZ 400; nZ 200; nZ 100].
Proof. exact match_order_example_main. Qed.

(** The same in binary64, for a fitted calibrator: the five pairs, reversed. *)
Example match_order_run_example :
  match snd (match_peaks o_ex no_mini c_fitted (ma_plain (fz 20) false true)),
        snd (match_peaks o_ex no_mini (turned c_fitted) (ma_plain (fz 20) false true)) return Prop with
  | Ok v, Ok w =>
      mv_peaks v = MArr ex_peaks /\ mv_peaks w = MArr (rev ex_peaks) /\
      mv_atlas w = MArr (rev (mseq_vals (mv_atlas v))) /\ mv_putil v = mv_putil w /\ mv_autil v = mv_autil w
  | _, _ => False
  end.
Proof. exact match_order_run_example_main. Qed.

(** * Props_Count: property theorems only.  The proofs are in Main_Count.v. *)

From Coq Require Import ZArith Bool List String Lia Reals Lra Sorted Permutation.
From Verif Require Import Num F64 XReal Py Np NpFacts ArgsortFacts Util Models Atlas Hough SpecHough HoughFacts PolyEval Calib SpecCalib CalibFacts Main_Calib Cand SpecCand CandFacts Ransac SpecRansac RansacFacts Main_Ransac Fit SpecFit FitFacts Main_Fit MatchPeaks SpecMatch MatchFacts Main_Match Main_Edit SpecCount.
From Verif Require Import Main_Count.
Import ListNotations.
Local Open Scope num_scope.

(** C124: a solution has one coefficient more than the degree asked for. *)
Theorem fit_coefficient_count :
  forall (A : Type) (N : Num A) (O : NumOrder A) (o : oracle A) fuel c a c' v,
    (forall l, is_argsort l (o_argsort o l)) -> counting o -> fit o fuel c a = Some (c', Ok v) ->
    List.length (fv_coeff v) = (degree_wanted (fa_coeff a) (fa_deg a) + 1)%nat /\ c_coeff c' = Some (fv_coeff v).
Proof. exact fit_coefficient_count_main. Qed.
Print Assumptions fit_coefficient_count.

(** C124: so does that of match_peaks, with robust_refit. *)
Theorem match_coefficient_count :
  forall (A : Type) (N : Num A) (o : oracle A) mini c a c' v co,
    counting o -> input_coeff c a co -> ma_robust a = true -> ma_refine a = false ->
    match_peaks o mini c a = (c', Ok v) ->
    let n := (match ma_deg a with Some d => d | None => List.length co - 1 end + 1)%nat in
    List.length (mv_coeff v) = n /\ exists co', c_coeff c' = Some co' /\ List.length co' = n.
Proof. exact match_coefficient_count_main. Qed.
Print Assumptions match_coefficient_count.

(** C124: and that of manual_refit; without arguments the number stays. *)
Theorem refit_coefficient_count :
  forall (A : Type) (N : Num A) (o : oracle A) c a c' co mp ma rms res,
    counting o -> manual_refit o c a = (c', Ok (co, mp, ma, rms, res)) ->
    c_coeff c' = Some co /\
    (forall d, rf_deg a = Some d -> Z.of_nat (List.length co) = (d + 1)%Z) /\
    (forall x0, rf_deg a = None -> rf_x0 a = MList x0 -> List.length co = List.length x0) /\
    (rf_deg a = None -> rf_x0 a = MNone -> exists old, c_coeff c = Some old /\ List.length co = List.length old).
Proof. exact refit_coefficient_count_main. Qed.
Print Assumptions refit_coefficient_count.

Example coefficient_count_example :
  counting o_count /\
  match fit o_count 60 c_session a_session with
  | Some (c', Ok v) => List.length (fv_coeff v) = 2%nat /\
      match match_peaks o_count no_mini c' (ma_plain (fz 20) false true) with
      | (c'', Ok w) => List.length (mv_coeff w) = 2%nat /\ c_coeff c'' = Some (mv_coeff w) /\
          match manual_refit o_count c'' refit_line with
          | (_, Ok (co, _, _, _, _)) => List.length co = 2%nat
          | _ => False
          end
      | _ => False
      end
  | _ => False
  end.
Proof. exact coefficient_count_example_main. Qed.

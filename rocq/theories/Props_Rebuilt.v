(** * Props_Rebuilt: property theorems only.  The proofs are in Main_Rebuilt.v. *)

From Coq Require Import ZArith Bool List String Lia.
From Verif Require Import Num F64 Py Np Util Atlas Hough Calib SpecCalib CalibFacts Main_Calib.
From Verif Require Import Main_Rebuilt.
Import ListNotations.
Local Open Scope num_scope.

(** C53 (what holds): whatever happened before, let a call of set_atlas, add_atlas,
    add_user_atlas or set_hough_properties succeed on a calibrator that then has an atlas,
    and let no further call of these four follow.  The pairs are, and stay, those of the
    atlas as it was after that call.  They are those of the current atlas if no line was
    removed since. *)
Theorem pairs_last_rebuilt_partial :
  forall (A : Type) (N : Num A) (e : env A) peaks spectrum c0 h1 o h2,
    calib_init (e_hull e) peaks spectrum = Ok c0 ->
    rebuilds o = true -> snd (cal_step e (cal_run e c0 h1) o) = Ok tt ->
    Forall (fun o' => rebuilds o' = false) h2 ->
    let c1 := cal_run e c0 (h1 ++ [o]) in
    let c := cal_run e c0 (h1 ++ o :: h2) in
    forall a, c_atlas c1 = Some a ->
      c_pairs c = c_pairs c1 /\
      (c_constrain c1 = false -> pairs_of_atlas peaks a (c_pairs c)) /\
      (Forall (fun o' => shrinks_atlas o' = false) h2 -> c_atlas c = Some a).
Proof. exact pairs_last_rebuilt_partial_main. Qed.
Print Assumptions pairs_last_rebuilt_partial.

(** A line removed, the Hough settings changed (which brings the pairs up to date), then the
    atlas cleared (which does not). *)
Example pairs_last_rebuilt_example :
  exists c0 : calib f64, calib_init all_inside [fz 10; fz 20] None = Ok c0 /\
    let h1 := [OSetAtlas atlas2 (fz 10) false; ORemove (fz 4000) (fz 1)] in
    snd (cal_step env0 (cal_run env0 c0 h1) (OHough no_hough_args)) = Ok tt /\
    (exists a, c_atlas (cal_run env0 c0 (h1 ++ [OHough no_hough_args])) = Some a) /\
    c_constrain (cal_run env0 c0 (h1 ++ [OHough no_hough_args])) = false /\
    c_pairs (cal_run env0 c0 (h1 ++ [OHough no_hough_args; OClear])) = PArr [(fz 10, fz 5000); (fz 20, fz 5000)].
Proof. exact pairs_last_rebuilt_example_main. Qed.

(** * Props_Match: property theorems only.  The proofs are in Main_Match.v. *)

From Coq Require Import ZArith Bool List String Lia Reals Lra Sorted Permutation.
From Verif Require Import Num F64 XReal Py Np NpFacts ArgsortFacts Util Models Atlas Hough PolyEval Calib SpecCalib Main_Calib Cand SpecCand Ransac RansacFacts SampleFacts Main_Ransac Fit Main_Fit MatchPeaks SpecMatch MatchFacts.
From Verif Require Import Main_Match.
Import ListNotations.
Local Open Scope num_scope.

(** The calibrator used in the examples below is the one a successful fit leaves. *)
Example fitted_state_example :
  match fit o_ex 60 c_session a_session with Some (c, Ok _) => c = c_fitted | _ => False end.
Proof. exact fitted_state_example_main. Qed.

(** C69: the matched peaks are those peaks of the calibrator, in order, that have a line
    within the tolerance of the input fit, each with its only such line, and there are
    as many residuals. *)
Theorem match_peaks_within :
  forall (A : Type) (N : Num A) (o : oracle A) mini c a c' v xs,
    match_peaks o mini c a = (c', Ok v) -> mv_peaks v = MArr xs ->
    exists co k at_ ys r,
      input_coeff c a co /\ c_kind c = Some k /\ c_atlas c = Some at_ /\
      mv_atlas v = MArr ys /\ mv_resid v = Some r /\ xs <> [] /\
      List.length ys = List.length xs /\ List.length r = List.length xs /\
      xs = filter (fun p => existsb (within (fun p => eval_kind k p co) (ma_tol a) p) (get_lines at_)) (c_peaks c) /\
      Forall2 (only_line (fun p => eval_kind k p co) (ma_tol a) (get_lines at_)) xs ys.
Proof. exact match_peaks_within_main. Qed.
Print Assumptions match_peaks_within.

(** A call to which C69 and C70 apply: after the fit of the session, all five peaks are
    matched again. *)
Example match_peaks_example :
  match match_peaks o_ex no_mini c_fitted (ma_plain (fz 20) false true) with
  | (c', Ok v) => mv_peaks v = MArr ex_peaks /\ mv_atlas v = MArr ex_waves
  | _ => False
  end.
Proof. exact match_peaks_example_main. Qed.

(** C70, the part that holds, over exact numbers: if the fitted wavelengths of different
    peaks are at least twice the tolerance apart, different peaks get different lines
    and no more lines are matched than the atlas has. *)
Theorem match_peaks_one_to_one_partial :
  forall (o : oracle xr) mini c a c' v at_ co k ps lines (t : R) (g : R -> R) ys,
    match_peaks o mini c a = (c', Ok v) -> mv_atlas v = MArr ys ->
    input_coeff c a co -> c_kind c = Some k -> c_atlas c = Some at_ ->
    c_peaks c = map Fin ps -> get_lines at_ = map Fin lines -> ma_tol a = Fin t ->
    (forall p, In p ps -> eval_kind k (Fin p) co = Fin (g p)) ->
    StronglySorted (fun p q => (2 * t <= Rabs (g p - g q))%R) ps ->
    NoDup ys /\ (List.length ys <= List.length lines)%nat.
Proof. exact match_peaks_one_to_one_partial_main. Qed.
Print Assumptions match_peaks_one_to_one_partial.

(** C71, the part that holds: match_peaks succeeds when each peak has at most one line
    within the tolerance of the input fit and some peak has one, refine or robust_refit
    is set, the minimiser of the refinement returns numbers that can be added,
    and the library's fits succeed (with a plausible result for polyfit). *)
Theorem match_peaks_succeeds_partial :
  forall (A : Type) (N : Num A) (o : oracle A) mini c a co k at_ fitted,
    let near := fun p => filter (within (fun p => eval_kind k p co) (ma_tol a) p) (get_lines at_) in
    let xs := filter (fun p => existsb (within (fun p => eval_kind k p co) (ma_tol a) p) (get_lines at_)) (c_peaks c) in
    let ys := flat_map near xs in
    let deg := oget (List.length co - 1)%nat (ma_deg a) in
    input_coeff c a co -> co <> [] -> c_kind c = Some k -> c_atlas c = Some at_ ->
    (forall p, In p (c_peaks c) -> List.length (near p) <= 1)%nat -> xs <> [] ->
    (ma_refine a = true ->
      (forall l, ma_coeff a <> MList l) /\ existsb nisnan co = false /\
      forall f n, exists d, mini f (map (fun v => v *' nlit 1 (-3)) (firstn n co)) = Ok d /\ (List.length d <= n)%nat /\
        (List.length d <= List.length co)%nat /\ forall u v, In u co -> In v d -> nisnan (u +' v) = false) ->
    ma_refine a = true \/ ma_robust a = true ->
    o_polyfit o k xs ys deg = Ok fitted -> fitted <> [] ->
    np_sum (map (fun q => nabs (fst q -' eval_kind k (snd q) fitted)) (combine ys xs)) <' nlit 1 9 = true ->
    (ma_robust a = true -> exists co', robust_polyfit (o_ls o) xs ys deg None = Ok co' /\ co' <> []) ->
    exists c' v, match_peaks o mini c a = (c', Ok v) /\ mv_peaks v = MArr xs /\ mv_atlas v = MArr ys.
Proof. exact match_peaks_succeeds_partial_main. Qed.
Print Assumptions match_peaks_succeeds_partial.

Example match_peaks_one_to_one_example :
  let a := mkMA (MArr (map Fin [3000; 10]%R)) (Some 1%Z) true (Fin 5) (Fin 1) false None in
  let g := fun p => (3000 + 10 * p)%R in
  (exists c' v, match_peaks o_real (fun _ x0 => Ok x0) c_real a = (c', Ok v) /\ mv_atlas v = MArr (map Fin [3001; 3040]%R)) /\
  input_coeff c_real a (map Fin [3000; 10]%R) /\
  (forall p, In p [0; 4]%R -> eval_kind FitPoly (Fin p) (map Fin [3000; 10]%R) = Fin (g p)) /\
  StronglySorted (fun p q => (2 * 5 <= Rabs (g p - g q))%R) [0; 4]%R.
Proof. exact match_peaks_one_to_one_example_main. Qed.

Theorem match_peaks_one_to_one_refuted :
  match match_peaks o_ex no_mini c_wide (mkMA (MArr [fz 3000; fz 10]) None false (fz 30) (fd 5 (-1)) true None) with
  | (_, Ok v) =>
      match mv_atlas v, mv_autil v with
      | MArr (w1 :: w2 :: _), Some u => w1 = w2 /\ fz 1 <' u = true
      | _, _ => False
      end
  | _ => False
  end.
Proof. exact match_peaks_one_to_one_refuted_main. Qed.
Print Assumptions match_peaks_one_to_one_refuted.

(** C71 fails for every input: match_peaks never succeeds with refine and robust_refit
    both off, never succeeds (apart from returning its input when the refinement gives
    NaN) if some peak has two lines within the tolerance, or if no peak has any; nor
    with refine and coefficients given as a list. *)
Theorem match_peaks_succeeds_refuted :
  forall (A : Type) (N : Num A) (o : oracle A) mini c a c' v,
    (ma_refine a = false -> ma_robust a = false -> match_peaks o mini c a <> (c', Ok v)) /\
    (forall co k at_, input_coeff c a co -> c_kind c = Some k -> c_atlas c = Some at_ -> mv_peaks v <> MNone ->
       let near := fun p => filter (within (fun p => eval_kind k p co) (ma_tol a) p) (get_lines at_) in
       (exists p, In p (c_peaks c) /\ (2 <= List.length (near p))%nat) \/ (forall p, In p (c_peaks c) -> near p = []) ->
       match_peaks o mini c a <> (c', Ok v)) /\
    (forall l, ma_coeff a = MList l -> ma_refine a = true -> match_peaks o mini c a <> (c', Ok v)).
Proof. exact match_peaks_succeeds_refuted_main. Qed.
Print Assumptions match_peaks_succeeds_refuted.

(** Reachable cases of the failures, after the fit of the session: both flags off; two
    lines within the tolerance (4002 and a tolerance of 900); none; a list. *)
Example match_peaks_failures_example :
  snd (match_peaks o_ex no_mini c_fitted (ma_plain (fz 20) false false)) = Raise UnboundLocalError /\
  snd (match_peaks o_ex no_mini c_fitted (ma_plain (fz 900) false true)) = Raise TypeError /\
  snd (match_peaks o_ex no_mini c_fitted (ma_plain (fd 1 (-9)) false true)) = Raise TypeError /\
  snd (match_peaks o_ex no_mini c_fitted (mkMA (MList [fz 3000; fz 10]) None true (fz 20) (fd 5 (-1)) true None)) = Raise TypeError.
Proof. exact match_peaks_failures_example_main. Qed.

(** * Props_Optimal: property theorems only.  The proofs are in Main_Optimal.v. *)

From Coq Require Import String ZArith Bool List Lia Reals Lra Sorted Permutation.
From Verif Require Import Num F64 XReal Py Np NpFacts ArgsortFacts Util Models SpecPoly SpecUnits PolyFacts PolyIdent Main_Models Main_Units Atlas Hough SpecHough HoughFacts PolyEval Calib SpecCalib CalibFacts Main_Calib Cand SpecCand CandFacts Ransac SpecRansac RansacFacts Main_Ransac Fit SpecFit FitFacts Main_Fit MatchPeaks SpecMatch MatchFacts Main_Match SpecPairs Main_Edit SpecRecover Main_Recover SpecOptimal.
From Verif Require Import Main_Optimal.
Import ListNotations.
Local Open Scope list_scope.
Local Open Scope R_scope.

(** C134: robust_polyfit returns a polynomial of the degree asked for that no other
    polynomial of that degree beats on the data, if the library finds the minimum it is
    asked for. *)
Theorem robust_polyfit_best :
  forall (ls : optimiser xr) (loss : list R -> R) (x y : list R) (degree : nat) x0 co,
    x <> [] -> y <> [] -> std x <> 0 -> std y <> 0 -> library_minimises ls loss degree x y ->
    robust_polyfit ls (map Fin x) (map Fin y) degree x0 = Ok co ->
    exists c, co = map Fin c /\ best_polynomial loss degree x y c.
Proof. exact robust_polyfit_best_main. Qed.
Print Assumptions robust_polyfit_best.

(** C19: without initial coefficients robust_polyfit succeeds whenever the library,
    started from all ones on the data divided by their standard deviations, returns
    degree + 1 numbers; the result is that solution in the units of the data. *)
Theorem robust_polyfit_default :
  forall (ls : optimiser xr) (x y : list R) (degree : nat) (q : list R),
    x <> [] -> y <> [] -> std x <> 0 -> std y <> 0 ->
    ls (map Fin (map (fun v => v / std x) x)) (map Fin (map (fun v => v / std y) y)) degree
       (repeat (Fin 1) (degree + 1)) = Ok (map Fin q) ->
    length q = (degree + 1)%nat ->
    exists c, robust_polyfit ls (map Fin x) (map Fin y) degree None = Ok (map Fin c) /\
      length c = (degree + 1)%nat /\ forall u, poly c u = std y * poly (rev q) (u / std x).
Proof. exact robust_polyfit_default_main. Qed.
Print Assumptions robust_polyfit_default.

Example robust_polyfit_best_example :
  std [0; 4] = 2 /\ std [0; 8] = 4 /\
  library_minimises (fun _ _ _ _ => Ok [Fin 1]) huber 0 [0; 4] [0; 8] /\
  robust_polyfit (fun _ _ _ _ => Ok [Fin 1]) (map Fin [0; 4]) (map Fin [0; 8]) 0 None = Ok [Fin 4] /\
  residuals [4] [0; 4] [0; 8] = [-1; 1].
Proof. exact robust_polyfit_best_example_main. Qed.

(** C135: so does manual_refit, for the pairs it is given (or the matched ones). *)
Theorem refit_best :
  forall (o : oracle xr) (loss : list R -> R) c a c' co mp ma rms res (d : nat) (x y : list R),
    manual_refit o c a = (c', Ok (co, mp, ma, rms, res)) ->
    refit_degree c a = Some (Z.of_nat d) ->
    mseq_vals mp = map Fin x -> mseq_vals ma = map Fin y -> std x <> 0 -> std y <> 0 ->
    library_minimises (o_ls o) loss d x y ->
    exists cs, co = map Fin cs /\ c_coeff c' = Some co /\ best_polynomial loss d x y cs.
Proof. exact refit_best_main. Qed.
Print Assumptions refit_best.

(** C135: match_peaks with robust_refit, for the pairs it returns. *)
Theorem match_best :
  forall (o : oracle xr) mini (loss : list R -> R) c a c' v l (x y : list R),
    match_peaks o mini c a = (c', Ok v) -> ma_robust a = true -> input_coeff c a l ->
    mv_peaks v = MArr (map Fin x) -> mv_atlas v = MArr (map Fin y) -> std x <> 0 -> std y <> 0 ->
    let d := match ma_deg a with Some d => d | None => (length l - 1)%nat end in
    library_minimises (o_ls o) loss d x y ->
    exists cs, mv_coeff v = map Fin cs /\ c_coeff c' = Some (map Fin cs) /\ best_polynomial loss d x y cs.
Proof. exact match_best_main. Qed.
Print Assumptions match_best.

(** C135: fit, for the pairs it matched, whatever was drawn. *)
Theorem fit_best :
  forall (o : oracle xr) fuel (loss : list R -> R) c a c' v at_ (ps ws : list R),
    (forall l, is_argsort l (o_argsort o l)) -> pairs_current c -> c_atlas c = Some at_ ->
    c_peaks c = map Fin ps -> get_lines at_ = map Fin ws -> (1 <= degree_used a)%nat ->
    fit o fuel c a = Some (c', Ok v) ->
    exists x y, fv_mpeaks v = MList (map Fin x) /\ fv_matlas v = MList (map Fin y) /\
      (library_minimises (o_ls o) loss (degree_used a) x y ->
       exists cs, fv_coeff v = map Fin cs /\ best_polynomial loss (degree_used a) x y cs).
Proof. exact fit_best_main. Qed.
Print Assumptions fit_best.

Example fit_best_example :
  (forall l, is_argsort l (o_argsort ex_o l)) /\ pairs_current (ex_c 0) /\ (1 <= degree_used ex_a)%nat /\
  exists c' v, fit ex_o 2 (ex_c 0) ex_a = Some (c', Ok v) /\
    fv_mpeaks v = MList (map Fin [0; 1; 4]) /\ fv_matlas v = MList (map Fin [100; 110; 140]) /\
    library_minimises (o_ls ex_o) huber 1 [0; 1; 4] [100; 110; 140].
Proof. exact fit_best_example_main. Qed.

Example refit_best_example :
  let a := mkRF (MArr (map Fin [0; 1; 4])) (MArr (map Fin (map (poly ex_co) ex_us))) (Some 1%Z) MNone in
  let c := set_c_kind (Some FitPoly) (ex_c 0) in
  refit_degree c a = Some (Z.of_nat 1) /\ std ex_us <> 0 /\ std (map (poly ex_co) ex_us) <> 0 /\
  exists c' co mp ma rms res, manual_refit ex_o c a = (c', Ok (co, mp, ma, rms, res)) /\
    mseq_vals mp = map Fin ex_us /\ mseq_vals ma = map Fin (map (poly ex_co) ex_us).
Proof. exact refit_best_example_main. Qed.

Example match_best_example :
  let a := mkMA (MArr (map Fin [3000; 10]%R)) None false (Fin 5) (Fin 1) true None in
  exists c' v, match_peaks o_line (fun _ x0 => Ok x0) c_real a = (c', Ok v) /\
    mv_peaks v = MArr (map Fin [0; 4]) /\ mv_atlas v = MArr (map Fin [3001; 3040]) /\
    std [0; 4] <> 0 /\ std [3001; 3040] <> 0 /\ library_minimises (o_ls o_line) huber 1 [0; 4] [3001; 3040].
Proof. exact match_best_example_main. Qed.

(** * Props_Models: property theorems only.  The proofs are in Main_Models.v. *)

From Coq Require Import ZArith Bool List Lia Reals Lra.
From Verif Require Import Num F64 XReal Py Np NpFacts Util Models PolyEval SpecPoly.
From Verif Require Import PolyFacts PolyIdent BasisLead EdlenFacts.
From Verif Require Import Main_Models.
Import ListNotations.
Local Open Scope list_scope.
Local Open Scope R_scope.

(** C18: polynomial(a, degree) raises AssertionError exactly when the number of
    coefficients is not degree+1; otherwise it evaluates sum a[i] x^(degree-i). *)
Theorem polynomial_evaluates :
  forall (a : list R) (degree : nat),
    (length a <> (degree + 1)%nat -> polynomial (map Fin a) degree = Raise AssertionError) /\
    (length a = (degree + 1)%nat -> exists f, polynomial (map Fin a) degree = Ok f /\
       forall x, f (Fin x) = Fin (fold_right Rplus 0
                                    (map (fun i => nth i a 0 * x ^ (degree - i)) (seq 0 (degree + 1))))).
Proof. exact polynomial_evaluates_main. Qed.
Print Assumptions polynomial_evaluates.

Example polynomial_example :
  (exists f, polynomial (map fz [2; 3; 5]%Z) 2 = Ok f /\ f (fz 10) = fz 235) /\
  polynomial (map fz [2; 3; 5]%Z) 3 = Raise AssertionError.
Proof. exact polynomial_example_main. Qed.

(** C19: whenever robust_polyfit returns, it has called the optimiser once, with the data
    divided by their standard deviations and a start of degree+1 coefficients (all one if
    no initial coefficients were given), and the coefficients it returns (lowest first)
    describe sy * q(u / sx), q being the polynomial found (highest first); hence exact
    interpolation of the normalised data is exact interpolation of the data. *)
Theorem robust_polyfit_denormalises :
  forall (ls : optimiser xr) (x y : list R) (degree : nat) x0 (sx sy : R) c,
    np_std (map Fin x) = Fin sx -> np_std (map Fin y) = Fin sy -> sx <> 0 -> sy <> 0 ->
    let xn := map Fin (map (fun v => v / sx) x) in
    let yn := map Fin (map (fun v => v / sy) y) in
    (forall s r, ls xn yn degree s = Ok r -> exists q, r = map Fin q /\ length q = (degree + 1)%nat) ->
    robust_polyfit ls (map Fin x) (map Fin y) degree x0 = Ok c ->
    exists start q r, length start = (degree + 1)%nat /\ (x0 = None -> start = repeat (Fin 1) (degree + 1)) /\
      ls xn yn degree start = Ok (map Fin q) /\ c = map Fin r /\ length r = (degree + 1)%nat /\
      (forall u, basis_sum powB r u = sy * basis_sum powB (rev q) (u / sx)) /\
      ((forall xi yi, In (xi, yi) (combine x y) -> basis_sum powB (rev q) (xi / sx) = yi / sy) ->
        forall xi yi, In (xi, yi) (combine x y) -> basis_sum powB r xi = yi).
Proof. exact robust_polyfit_denormalises_main. Qed.
Print Assumptions robust_polyfit_denormalises.

(** The hypotheses are met: x = [0;4], y = [0;8], degree 1, no initial guess, and an
    optimiser that returns the line 2u (normalised: u). *)
Example robust_polyfit_example :
  np_std (map Fin [0; 4]) = Fin 2 /\ np_std (map Fin [0; 8]) = Fin 4 /\
  (exists c, robust_polyfit (fun _ _ _ _ => Ok (map Fin [1; 0])) (map Fin [0; 4]) (map Fin [0; 8]) 1 None = Ok c) /\
  (forall xi yi, In (xi, yi) (combine [0; 4] [0; 8]) -> basis_sum powB (rev [1; 0]) (xi / 2) = yi / 4).
Proof. exact robust_polyfit_example_main. Qed.

(** C20 (part that holds): without initial coefficients the fit starts at the polynomial
    whose degree+1 coefficients, in the normalised coordinates, are all one: an optimiser
    that stays where it starts gives sy * sum (u / sx)^k. *)
Theorem robust_start_default_partial :
  forall (x y : list R) (degree : nat) (sx sy : R),
    np_std (map Fin x) = Fin sx -> np_std (map Fin y) = Fin sy -> sx <> 0 -> sy <> 0 ->
    exists c, robust_polyfit (fun _ _ _ start => Ok start) (map Fin x) (map Fin y) degree None = Ok (map Fin c) /\
      length c = (degree + 1)%nat /\
      forall u, basis_sum powB c u = sy * sum_f_R0 (fun k => (u / sx) ^ k) degree.
Proof. exact robust_start_default_partial_main. Qed.
Print Assumptions robust_start_default_partial.

(** C20 (part that holds): the polynomial at which the fit starts (the one returned when the
    optimiser stays where it starts) is the one given by the initial coefficients p
    (highest power first) exactly when every coefficient but the last is zero, or is the
    one of index degree/2, or the standard deviation of x is one. *)
Theorem robust_start_exact_partial :
  forall (x y p : list R) (degree : nat) (sx sy : R),
    np_std (map Fin x) = Fin sx -> np_std (map Fin y) = Fin sy -> 0 < sx -> 0 < sy ->
    length p = (degree + 1)%nat ->
    exists c, robust_polyfit (fun _ _ _ start => Ok start) (map Fin x) (map Fin y) degree (Some (map Fin p)) = Ok (map Fin c) /\
      length c = (degree + 1)%nat /\
      ((forall u, basis_sum powB c u = basis_sum powB (rev p) u) <->
       (forall i v, (i < degree)%nat -> nth_error p i = Some v ->
          v = 0 \/ sx = 1 \/ (2 * i = degree)%nat)).
Proof. exact robust_start_exact_partial_main. Qed.
Print Assumptions robust_start_exact_partial.

(** The hypotheses are met, and both sides of the equivalence occur: the deviations
    of [0;4] and [0;8] are 2 and 4, and of degree one only constants are kept. *)
Example robust_start_exact_example :
  np_std (map Fin [0; 4]) = Fin 2 /\ np_std (map Fin [0; 8]) = Fin 4 /\
  (forall i v, (i < 1)%nat -> nth_error [0; 5] i = Some v -> v = 0 \/ 2 = 1 \/ (2 * i = 1)%nat) /\
  ~ (forall i v, (i < 1)%nat -> nth_error [3; 5] i = Some v -> v = 0 \/ 2 = 1 \/ (2 * i = 1)%nat).
Proof. exact robust_start_exact_example_main. Qed.

(** C20 REFUTED: for x = [0;4], y = [0;8] (standard deviations 2 and 4), initial
    coefficients [3;5] and an optimiser that stays where it starts, the returned polynomial
    is neither 3 + 5u nor 3u + 5 at u = 2, although there the values do not depend on rounding. *)
Theorem robust_start_refuted :
  exists (x y p c : list f64),
    np_std x = fz 2 /\ np_std y = fz 4 /\
    robust_polyfit (fun _ _ _ start => Ok start) x y 1 (Some p) = Ok c /\
    let value := poly_at (rev c) 1 (fz 2) in
    neqb value (poly_at p 1 (fz 2)) = false /\ neqb value (poly_at (rev p) 1 (fz 2)) = false.
Proof. exact robust_start_refuted_main. Qed.
Print Assumptions robust_start_refuted.

(** C21: the three evaluation functions. *)
Theorem basis_evaluation :
  forall (c : list R) (x : R),
    eval_kind FitPoly (Fin x) (map Fin c) = Fin (basis_sum powB c x) /\
    eval_kind FitLegendre (Fin x) (map Fin c) = Fin (basis_sum legB c x) /\
    eval_kind FitChebyshev (Fin x) (map Fin c) = Fin (basis_sum chebB c x).
Proof. exact basis_evaluation_main. Qed.
Print Assumptions basis_evaluation.

Example basis_evaluation_example :
  legB 3 2 = 17 /\ chebB 3 2 = 26 /\
  eval_kind FitLegendre (fz 2) (map fz [1; 1; 2]%Z) = fz 14 /\
  eval_kind FitChebyshev (fz 2) (map fz [1; 1; 1; 1]%Z) = fz 36.
Proof. exact basis_evaluation_example_main. Qed.

(** C22 (part that holds): for fit_type "poly", and for any fit_type up to degree 1,
    evaluating the coefficients that robust_polyfit returned in the basis of the fit_type
    gives the polynomial that the optimiser found (q in normalised coordinates). *)
Theorem fit_type_consistent_partial :
  forall (ls : optimiser xr) (x y : list R) (degree : nat) x0 (sx sy : R) (k : fit_kind) c,
    np_std (map Fin x) = Fin sx -> np_std (map Fin y) = Fin sy -> sx <> 0 -> sy <> 0 ->
    let xn := map Fin (map (fun v => v / sx) x) in
    let yn := map Fin (map (fun v => v / sy) y) in
    (forall s r, ls xn yn degree s = Ok r -> exists q, r = map Fin q /\ length q = (degree + 1)%nat) ->
    robust_polyfit ls (map Fin x) (map Fin y) degree x0 = Ok c ->
    k = FitPoly \/ (degree <= 1)%nat ->
    exists start q, ls xn yn degree start = Ok (map Fin q) /\
      forall u, eval_kind k (Fin u) c = Fin (sy * basis_sum powB (rev q) (u / sx)).
Proof. exact fit_type_consistent_partial_main. Qed.
Print Assumptions fit_type_consistent_partial.

(** C22 REFUTED: from degree 2 on, with fit_type "legendre" or "chebyshev", the
    coefficients that robust_polyfit returned are those of another polynomial whenever
    the one found really has that degree: among any degree + 1 points there is one where
    the evaluation misses the fitted value. *)
Theorem fit_type_consistent_refuted :
  forall (ls : optimiser xr) (x y : list R) (degree : nat) x0 (sx sy : R) (k : fit_kind) c,
    np_std (map Fin x) = Fin sx -> np_std (map Fin y) = Fin sy -> sx <> 0 -> sy <> 0 ->
    let xn := map Fin (map (fun v => v / sx) x) in
    let yn := map Fin (map (fun v => v / sy) y) in
    (forall s r, ls xn yn degree s = Ok r -> exists q, r = map Fin q /\ length q = (degree + 1)%nat /\ hd 0 q <> 0) ->
    robust_polyfit ls (map Fin x) (map Fin y) degree x0 = Ok c ->
    k <> FitPoly -> (2 <= degree)%nat ->
    exists start q, ls xn yn degree start = Ok (map Fin q) /\
      forall points, NoDup points -> (degree < length points)%nat ->
        exists u, In u points /\
          eval_kind k (Fin u) c <> Fin (sy * basis_sum powB (rev q) (u / sx)).
Proof. exact fit_type_consistent_refuted_main. Qed.
Print Assumptions fit_type_consistent_refuted.

(** Both are met: the refit of (0, 0), (2, 4) with an optimiser that returns u^2 + u - 1;
    read as a Chebyshev series the coefficients give another value at 3. *)
Example fit_type_consistent_example :
  np_std (map Fin [0; 2]) = Fin 1 /\ np_std (map Fin [0; 4]) = Fin 2 /\
  (exists c, robust_polyfit (fun _ _ _ _ => Ok (map Fin [1; 1; -1])) (map Fin [0; 2]) (map Fin [0; 4]) 2 None = Ok c) /\
  eval_kind FitPoly (Fin 3) (map Fin [-2; 2; 2]) = Fin (2 * basis_sum powB (rev [1; 1; -1]) (3 / 1)) /\
  eval_kind FitChebyshev (Fin 3) (map Fin [-2; 2; 2]) = Fin 38.
Proof. exact fit_type_consistent_example_main. Qed.

(** * SpecOptimal: what it means that a polynomial fits best, and that a numerical
    library finds the minimum it is asked for. *)

From Coq Require Import List Reals.
From Verif Require Import Num XReal Py Np Models SpecPoly SpecUnits SpecRecover.
Import ListNotations.
Local Open Scope R_scope.

(** The differences between the values y and the polynomial c at x, in units of the
    standard deviation of y. *)
Definition residuals (c x y : list R) : list R :=
  map (fun q => (snd q - poly c (fst q)) / std y) (combine x y).

(** No polynomial with degree + 1 coefficients has a smaller loss.  The loss may be any
    function of the residuals (in the code: Huber). *)
Definition best_polynomial (loss : list R -> R) (degree : nat) (x y c : list R) : Prop :=
  length c = (degree + 1)%nat /\
  forall p, length p = (degree + 1)%nat -> loss (residuals c x y) <= loss (residuals p x y).

(** scipy.optimize.least_squares, called with poly_cost_function on the normalised data
    (models.py:108-114), returns a minimum of the loss of what that function returns. *)
Definition library_minimises (ls : optimiser xr) (loss : list R -> R) (degree : nat) (x y : list R) : Prop :=
  let xn := map Fin (map (fun v => v / std x) x) in
  let yn := map Fin (map (fun v => v / std y) y) in
  forall start q, ls xn yn degree start = Ok q ->
    exists a ra, q = map Fin a /\ length a = (degree + 1)%nat /\
      poly_cost_function q xn yn degree = Ok (map Fin ra) /\
      forall b rb, length b = (degree + 1)%nat ->
        poly_cost_function (map Fin b) xn yn degree = Ok (map Fin rb) -> loss ra <= loss rb.

(** The Huber loss of scipy: squares, but twice the modulus less one beyond one. *)
Definition huber (r : list R) : R :=
  fold_right Rplus 0 (map (fun v => if Rle_dec (v * v) 1 then v * v else 2 * Rabs v - 1) r) / 2.

(** * PolyEval: evaluation of polynomials as done by numpy for the three
    fit types (calibrator.py:1616-1632): numpy.polynomial.polynomial.polyval,
    numpy.polynomial.legendre.legval, numpy.polynomial.chebyshev.chebval. *)

From Coq Require Import ZArith Bool List Lia.
From Verif Require Import Num Py Np.
Import ListNotations.
Local Open Scope num_scope.

Section PolyEval.
  Context {A : Type} {N : Num A}.

  (** polyval(x, c): c0 = c[-1] + x*0; then c0 = c[-i] + c0*x.  Coefficients
      lowest degree first; an empty c raises IndexError in numpy (here: NaN-free
      default 0, never used on empty lists). *)
  Definition polyval (x : A) (c : list A) : A :=
    match rev c with
    | [] => nZ 0
    | cn :: rest => fold_left (fun c0 ci => ci +' c0 *' x) rest (cn +' x *' nZ 0)
    end.

  (** legval(x, c): Clenshaw recursion. *)
  Fixpoint leg_loop (x : A) (nd : nat) (c0 c1 : A) (rest : list A) : A * A :=
    match rest with
    | [] => (c0, c1)
    | ci :: r =>
        let nd := (nd - 1)%nat in
        leg_loop x nd (ci -' (c1 *' nnat (nd - 1)) /' nnat nd)
                 (c0 +' (c1 *' x *' nnat (2 * nd - 1)) /' nnat nd) r
    end.
  Definition legval (x : A) (c : list A) : A :=
    match rev c with
    | [] => nZ 0
    | [a0] => a0 +' nZ 0 *' x
    | cn :: cn1 :: rest =>
        let (c0, c1) := leg_loop x (length c) cn1 cn rest in c0 +' c1 *' x
    end.

  (** chebval(x, c): Clenshaw recursion. *)
  Fixpoint cheb_loop (x2 : A) (c0 c1 : A) (rest : list A) : A * A :=
    match rest with
    | [] => (c0, c1)
    | ci :: r => cheb_loop x2 (ci -' c1) (c0 +' c1 *' x2) r
    end.
  Definition chebval (x : A) (c : list A) : A :=
    match rev c with
    | [] => nZ 0
    | [a0] => a0 +' nZ 0 *' x
    | cn :: cn1 :: rest =>
        let (c0, c1) := cheb_loop (nZ 2 *' x) cn1 cn rest in c0 +' c1 *' x
    end.

  (** calibrator.py:1616-1636: the evaluation function selected by fit_type. *)
  Inductive fit_kind : Type := FitPoly | FitLegendre | FitChebyshev.
  Definition eval_kind (k : fit_kind) : A -> list A -> A :=
    match k with FitPoly => polyval | FitLegendre => legval | FitChebyshev => chebval end.
End PolyEval.

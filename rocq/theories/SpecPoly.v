(** * SpecPoly: polynomials over the reals, for the specifications. *)

From Coq Require Import List Reals Lia.
Import ListNotations.
Local Open Scope R_scope.

(** sum_i c_i * B i x, for a family B of basis functions. *)
Definition basis_sum (B : nat -> R -> R) (c : list R) (x : R) : R :=
  fold_right Rplus 0 (map (fun p => snd p * B (fst p) x) (combine (seq 0 (length c)) c)).

(** Powers. *)
Definition powB (i : nat) (x : R) : R := x ^ i.

(** Legendre polynomials: P0 = 1, P1 = x, (n+1) P(n+1) = (2n+1) x Pn - n P(n-1). *)
Fixpoint legPair (n : nat) (x : R) : R * R :=   (* (P n, P (n+1)) *)
  match n with
  | O => (1, x)
  | S k => let (p, q) := legPair k x in
           (q, ((2 * INR (S k) + 1) * x * q - INR (S k) * p) / INR (S (S k)))
  end.
Definition legB (n : nat) (x : R) : R := fst (legPair n x).

(** Chebyshev polynomials: T0 = 1, T1 = x, T(n+1) = 2 x Tn - T(n-1). *)
Fixpoint chebPair (n : nat) (x : R) : R * R :=
  match n with
  | O => (1, x)
  | S k => let (p, q) := chebPair k x in (q, 2 * x * q - p)
  end.
Definition chebB (n : nat) (x : R) : R := fst (chebPair n x).

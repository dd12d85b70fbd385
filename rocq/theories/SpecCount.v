(** * SpecCount: what the fitting libraries promise about the number of coefficients. *)

From Coq Require Import List.
From Verif Require Import Num Py Models Ransac Fit.
Import ListNotations.

Section Spec.
  Context {A : Type} {N : Num A}.

  (** least_squares returns as many numbers as it starts from; polyfit, legfit and
      chebfit return one more than the degree. *)
  Definition counting (o : oracle A) : Prop :=
    (forall xs ys d p q, o_ls o xs ys d p = Ok q -> length q = length p) /\
    (forall k xs ys d q, o_polyfit o k xs ys d = Ok q -> length q = d + 1).

  (** The degree asked for: that of the coefficients, if given. *)
  Definition degree_wanted (coeff : option (list A)) (deg : nat) : nat :=
    match coeff with Some co => length co - 1 | None => deg end.
End Spec.

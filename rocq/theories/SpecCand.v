(** * SpecCand: what the candidate selection should do. *)

From Coq Require Import ZArith Bool List Sorted.
From Verif Require Import Num.
Import ListNotations.
Local Open Scope num_scope.

Section Spec.
  Context {A : Type} {N : Num A}.

  (** The distinct values of a list in increasing order. *)
  Definition distinct_values (l d : list A) : Prop :=
    StronglySorted (fun x y => x <' y = true) d /\ incl d l /\
    forall x, In x l -> exists y, In y d /\ y ==' x = true.

  (** No two entries are equal. *)
  Definition pairwise_different (l : list A) : Prop :=
    StronglySorted (fun x y => x ==' y = false) l.

  (** The wavelengths, and the counts, of the candidate rows (x, y, w) of a peak. *)
  Definition rows_of (rows : list (A * A * A)) (p : A) : list (A * A * A) :=
    filter (fun r => fst (fst r) ==' p) rows.

  (** What a dictionary, kept as a list of entries, holds for the key p. *)
  Definition entry_of (d : list (A * list A)) (p : A) (ys : list A) : Prop :=
    exists before after k, d = before ++ (k, ys) :: after /\ k ==' p = true /\
      forall q, In q before -> fst q ==' p = false.

  (** e is the error of y as wavelength for a prediction f, and no y' is nearer. *)
  Definition nearest (f : A) (ys : list A) (e y : A) : Prop :=
    In y ys /\ e = nabs (f -' y) /\ forall y', In y' ys -> nabs (f -' y') <' e = false.
End Spec.

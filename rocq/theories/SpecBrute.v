(** * SpecBrute: what a brute-force search has to go through. *)

From Coq Require Import Bool List Sorted.
From Verif Require Import Num.
Import ListNotations.

Section Spec.
  Context {A : Type}.

  (** size different positions below n, in increasing order. *)
  Definition choice_of (n size : nat) (smp : list nat) : Prop :=
    length smp = size /\ StronglySorted lt smp /\ forall i, In i smp -> i < n.

  (** The candidate pairs at the given positions, followed by the known pairs. *)
  Definition chosen (known : option (list A * list A)) (x y : list A) (smp : list nat) (d : list A * list A) : Prop :=
    exists xs ys,
      Forall2 (fun i a => nth_error x i = Some a) smp xs /\
      Forall2 (fun i b => nth_error y i = Some b) smp ys /\
      d = match known with Some (kx, ky) => (xs ++ kx, ys ++ ky) | None => (xs, ys) end.
End Spec.

(** * SpecUnits: mean and (population) standard deviation of real numbers. *)

From Coq Require Import List Reals.
Import ListNotations.
Local Open Scope R_scope.

Definition mean (l : list R) : R := fold_right Rplus 0 l / INR (length l).
Definition std (l : list R) : R := sqrt (mean (map (fun v => (v - mean l) * (v - mean l)) l)).

(** * SpecPairs: the degree of a refit. *)

From Coq Require Import ZArith List.
From Verif Require Import Num Py Calib MatchPeaks.

(** The degree of the refit: given, or one less than the number of coefficients
    given or stored. *)
Definition refit_degree {A} (c : calib A) (a : refit_args A) : option Z :=
  match rf_deg a, rf_x0 a, c_coeff c with
  | Some d, _, _ => Some d
  | None, MList l, _ => Some (Z.of_nat (List.length l) - 1)%Z
  | None, MNone, Some l => Some (Z.of_nat (List.length l) - 1)%Z
  | _, _, _ => None
  end.

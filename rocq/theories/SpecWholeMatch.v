(** * SpecWholeMatch: what it means to cut the decimals off. *)

From Coq Require Import ZArith List Reals.
From Verif Require Import Num XReal.
Import ListNotations.

(** z is r without its decimals: the whole number next to r on the side of 0. *)
Definition whole_part (r : R) (z : Z) : Prop :=
  (Rabs (IZR z) <= Rabs r)%R /\ (Rabs (r - IZR z) < 1)%R /\ (0 <= r * IZR z)%R.

(** The whole numbers [new] are the coefficients [fit] with [delta] added to the first of
    them and the decimals then cut off. *)
Definition shifted_whole (fit : list Z) (delta : list xr) (new : list Z) : Prop :=
  length new = length fit /\ (length delta <= length fit)%nat /\
  forall i z, nth_error fit i = Some z ->
    match nth_error delta i with
    | None => nth_error new i = Some z
    | Some d => exists r k, d = Fin r /\ nth_error new i = Some k /\ whole_part (IZR z + r) k
    end.

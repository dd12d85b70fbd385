(** * SpecRawPix: where the mark of a peak belongs. *)

From Coq Require Import List Reals Sorted.
From Verif Require Import Num XReal Py PolyEval MatchPeaks.
Import ListNotations.

(** Pixel number r belongs to the i-th sample: r is the i-th entry of the list of pixels
    (in any order, without repetitions), or lies between it and the next larger one, in an
    increasing list. *)
Definition belongs (pixels : list R) (r : R) (i : nat) : Prop :=
  (NoDup pixels /\ (2 <= length pixels)%nat /\ nth_error pixels i = Some r) \/
  (StronglySorted Rlt pixels /\
   exists x1 x2, nth_error pixels i = Some x1 /\ nth_error pixels (S i) = Some x2 /\ (x1 <= r < x2)%R).

(** The mark of a peak: at its wavelength in the solution, and as high as its sample. *)
Definition marked (k : option fit_kind) (pixels : list R) (co sp : list xr) (p : xr) (mark : xr * xr) : Prop :=
  polyval_of k p co = Ok (fst mark) /\
  forall r i v, p = Fin r -> belongs pixels r i -> nth_error sp i = Some v -> snd mark = v.

(** * SpecPeakOrder: the calls whose effect does not depend on the order of the peaks. *)

From Coq Require Import List.
From Verif Require Import Num XReal Np Hough SpecHough Ransac Fit SpecSession.

(** Calls whose effect is claimed not to depend on the order of the peaks; those of fit
    with a valid argsort. *)
Definition order_free (k : call xr) : Prop :=
  match k with
  | Fit o _ _ => forall l, is_argsort l (o_argsort o l)
  | MatchPeaks _ _ _ | PlotFit _ => False
  | _ => True
  end.


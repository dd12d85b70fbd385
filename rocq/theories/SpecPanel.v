(** * SpecPanel: what a figure shows. *)

From Coq Require Import List String Reals.
From Verif Require Import Num XReal Panel.
Import ListNotations.

(** The logarithm to base 10, as np.log10 gives it. *)
Definition log10 (x : xr) : xr :=
  match x with
  | Fin r => match Rlt_dec 0 r with
             | left _ => Fin (ln r / ln 10)
             | right _ => if Req_EM_T r 0 then Inf true else NaN
             end
  | Inf true => NaN
  | Inf false => Inf false
  | NaN => NaN
  end.

(** The height at which a value appears: on a logarithmic axis, that of its logarithm. *)
Definition height (log_axis : bool) (y : xr) : xr := if log_axis then log10 y else y.

(** Inside a range. *)
Definition shown (range : xr * xr) (v : R) : Prop :=
  exists lo hi, range = (Fin lo, Fin hi) /\ (lo <= v <= hi)%R.

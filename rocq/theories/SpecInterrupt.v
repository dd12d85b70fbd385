(** * SpecInterrupt: answers of fit that agree. *)

From Coq Require Import ZArith Bool List.
From Verif Require Import Num Py Np Util Models Atlas Hough PolyEval Calib Cand Ransac Fit.
Import ListNotations.

(** Two calls of fit with the same answer: both do not end, both raise, or both return the
    same tuple and leave the same solution behind. *)
Definition same_answer {A : Type} (x y : option (calib A * res (fit_value A))) : Prop :=
  match x, y with
  | Some (c', Ok v), Some (d', Ok w) =>
      v = w /\ c_coeff d' = c_coeff c' /\ c_kind d' = c_kind c' /\ c_deg d' = c_deg c' /\
      c_mpeaks d' = c_mpeaks c' /\ c_matlas d' = c_matlas c' /\ c_rms d' = c_rms c' /\ c_resid d' = c_resid c' /\
      c_putil d' = c_putil c' /\ c_autil d' = c_autil c' /\ c_rp d' = c_rp c'
  | Some (_, Raise _), Some (_, Raise _) => True
  | None, None => True
  | _, _ => False
  end.

(** sample_size is what it was, or what fit makes of it before the search: at most the
    number of lines of the atlas, and more than the degree asked for. *)
Definition sample_size_kept {A : Type} (a : fit_args A) (c d : calib A) : Prop :=
  r_sample (c_rp d) = r_sample (c_rp c) \/
  exists at_ size, c_atlas c = Some at_ /\ r_sample (c_rp c) = Some size /\
    r_sample (c_rp d) = Some (Nat.max (fa_deg a + 1) (Nat.min size (atlas_len at_))).

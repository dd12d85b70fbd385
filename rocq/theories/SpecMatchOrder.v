(** * SpecMatchOrder: what it means that match_peaks does not look at the order of the
    peaks and of the lines. *)

From Coq Require Import List Permutation.
From Verif Require Import Num XReal Py Np Models Atlas Hough PolyEval Calib Ransac MatchPeaks.
Import ListNotations.

(** The fitting routines do not look at the order of the points: they get the same points
    in two orders. *)
Definition order_blind (o : oracle xr) : Prop :=
  forall xs ys xs' ys', length xs = length ys -> length xs' = length ys' ->
    Permutation (combine xs ys) (combine xs' ys') ->
    (forall k deg, o_polyfit o k xs ys deg = o_polyfit o k xs' ys' deg) /\
    (forall deg p, o_ls o xs ys deg p = o_ls o xs' ys' deg p).

(** Two calibrators with the same solution and pixels, and the same peaks and (finite)
    lines in possibly different orders. *)
Definition shuffled (c d : calib xr) : Prop :=
  Permutation (c_peaks c) (c_peaks d) /\
  match c_atlas c, c_atlas d with
  | Some a, Some b => exists l k, get_lines a = map Fin l /\ get_lines b = map Fin k /\ Permutation l k
  | None, None => True
  | _, _ => False
  end /\
  c_kind c = c_kind d /\ c_coeff c = c_coeff d /\ g_pixels (c_gp c) = g_pixels (c_gp d).

(** Two answers of match_peaks with the same solution and figures, and the same peaks,
    each with the same line and residual, in possibly different orders. *)
Definition same_match (v w : match_value xr) : Prop :=
  mv_coeff v = mv_coeff w /\ mv_rms v = mv_rms w /\ mv_putil v = mv_putil w /\ mv_autil v = mv_autil w /\
  match mv_peaks v, mv_atlas v, mv_resid v, mv_peaks w, mv_atlas w, mv_resid w with
  | MArr xs, MArr ys, Some rs, MArr xs', MArr ys', Some rs' =>
      length xs = length ys /\ length xs = length rs /\ length xs' = length ys' /\ length xs' = length rs' /\
      Permutation (combine (combine xs ys) rs) (combine (combine xs' ys') rs')
  | MNone, MNone, None, MNone, MNone, None => True
  | _, _, _, _, _, _ => False
  end.

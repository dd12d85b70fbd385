(** * SpecPermute: calibrators that differ only in the order of their data. *)

From Coq Require Import ZArith Bool List Reals Permutation String.
From Verif Require Import Num XReal Py Np Util Atlas Hough SpecHough Calib SpecCalib.
Import ListNotations.

(** Equal, or finite (x, y) rows in another order. *)
Definition points_reordered (a b : option (points xr)) : Prop :=
  a = b \/ exists p q, a = Some (HArr (map FinP p)) /\ b = Some (HArr (map FinP q)) /\ Permutation p q.

(** Transforms that are equal up to the order of their points: same lines in the same
    order, same histogram, edges and limits. *)
Definition hough_reordered (s t : hough xr) : Prop :=
  exists p, points_reordered (ho_points s) p /\
    t = mkHough p (ho_lines s) (ho_hist s) (ho_xedges s) (ho_yedges s)
          (ho_min_slope s) (ho_max_slope s) (ho_min_intercept s) (ho_max_intercept s).

(** No pairs yet in both, or finite pairs in another order. *)
Definition pairs_reordered (a b : pairs_val xr) : Prop :=
  match a, b with
  | PMissing, PMissing | PFlat, PFlat => True
  | PArr l, PArr k => exists p q, l = map FinP p /\ k = map FinP q /\ Permutation p q
  | _, _ => False
  end.

(** Calibrators that are equal up to the order of the peaks, of the pairs and of the
    Hough points; everything else, the Hough lines and their order included, is the same. *)
Definition reordered (c d : calib xr) : Prop :=
  exists peaks pairs t pts,
    (exists a b, c_peaks c = map Fin a /\ peaks = map Fin b /\ Permutation a b) /\
    pairs_reordered (c_pairs c) pairs /\ hough_reordered (c_ht c) t /\ points_reordered (c_points c) pts /\
    d = set_c_points pts (set_c_ht t (set_c_pairs pairs (set_c_peaks peaks c))).

(** The atlas, if any, holds finite wavelengths only. *)
Definition finite_atlas (c : calib xr) : Prop :=
  forall a, c_atlas c = Some a -> exists l, get_lines a = map Fin l.

(** The hull test decides each pair by itself (scipy's find_simplex does). *)
Definition pointwise (hull : hull_test xr) : Prop :=
  exists inside, forall k pts, hull k pts = Ok (map (inside k) pts).

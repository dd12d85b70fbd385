(** * SpecVote: support of a line among the pairs, and a calibrator that is ready
    for its Hough transform. *)

From Coq Require Import ZArith Bool List Reals String.
From Verif Require Import Num XReal Py Hough SpecHough Calib.
Import ListNotations.
Local Open Scope R_scope.

(** The (peak, wavelength) pairs that lie on the line of slope s and intercept i. *)
Definition support (s i : R) (pairs : list (R * R)) : list (R * R) :=
  filter (fun p => Reqb (snd p) (s * fst p + i)) pairs.

(** There are pairs, all of them finite; num_slopes, xbins and ybins are positive
    and the limits of slope and intercept finite and ordered. *)
Definition hough_ready (c : calib xr) (pairs : list (R * R)) (n xb yb : nat) (lo_s hi_s lo_i hi_i : R) : Prop :=
  c_pairs c = PArr (map FinP pairs) /\ pairs <> [] /\
  h_num_slopes (c_hp c) = Some (Z.of_nat n) /\ (n >= 1)%nat /\
  h_xbins (c_hp c) = Some xb /\ (xb >= 1)%nat /\ h_ybins (c_hp c) = Some yb /\ (yb >= 1)%nat /\
  h_min_slope (c_hp c) = Some (Fin lo_s) /\ h_max_slope (c_hp c) = Some (Fin hi_s) /\
  h_min_intercept (c_hp c) = Some (Fin lo_i) /\ h_max_intercept (c_hp c) = Some (Fin hi_i) /\
  lo_s <= hi_s /\ lo_i <= hi_i.

(** No bin is larger than this: the range, or 1 if all values coincide, divided by
    the number of bins. *)
Definition half_bin (lo hi : R) (n : nat) : R := Rmax (hi - lo) 1 / INR n / 2.

(** Bin (p, q) between edges xe and ye holds the line (s, i); the centre of a bin. *)
Definition bin_holds (xe ye : list R) (bin : nat * nat) (s i : R) : Prop :=
  nth (fst bin) xe 0 <= s <= nth (S (fst bin)) xe 0 /\ nth (snd bin) ye 0 <= i <= nth (S (snd bin)) ye 0.
Definition bin_centre (xe ye : list R) (bin : nat * nat) : R * R :=
  ((nth (fst bin) xe 0 + nth (S (fst bin)) xe 0) / 2, (nth (snd bin) ye 0 + nth (S (snd bin)) ye 0) / 2).

(** The histogram and the edges stored by a transform. *)
Definition stored (h : hough xr) (hist : list (list nat)) (xe ye : list R) : Prop :=
  ho_hist h = Some hist /\ ho_xedges h = Some (map Fin xe) /\ ho_yedges h = Some (map Fin ye).

(** bin has more votes than any other bin. *)
Definition strictly_most (hist : list (list nat)) (bin : nat * nat) : Prop :=
  forall bin', bin' <> bin -> (count_at hist bin' < count_at hist bin)%nat.

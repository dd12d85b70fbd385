(** * SpecHough: what the Hough transform should produce, in real numbers, and
    histories of calls. *)

From Coq Require Import ZArith Bool List Reals String.
From Verif Require Import Num XReal Py Hough.
Import ListNotations.
Local Open Scope R_scope.

(** A pair of reals as a pair of model numbers. *)
Definition FinP (p : R * R) : xr * xr := (Fin (fst p), Fin (snd p)).

(** The i-th of n evenly spaced slopes from lo to hi. *)
Definition slope_at (lo hi : R) (n i : nat) : R :=
  if Nat.eqb n 1 then lo else lo + INR i * (hi - lo) / INR (n - 1).

(** (x, y) lies on the line with gradient fst and intercept snd. *)
Definition on_line (line pt : R * R) : Prop := snd pt = fst line * fst pt + snd line.

(** The line of slope s through a point. *)
Definition line_with (s : R) (pt : R * R) : R * R := (s, snd pt - s * fst pt).

(** Slope by slope, the lines through every point. *)
Definition all_lines (lo hi : R) (n : nat) (data : list (R * R)) : list (R * R) :=
  flat_map (fun i => map (line_with (slope_at lo hi n i)) data) (seq 0 n).

(** All unordered pairs of entries of a list. *)
Fixpoint pairs_of {T} (l : list T) : list (T * T) :=
  match l with
  | [] => []
  | x :: r => map (pair x) r ++ pairs_of r
  end.

(** The line through two points with different abscissae. *)
Definition join (pq : (R * R) * (R * R)) : R * R :=
  let s := (snd (snd pq) - snd (fst pq)) / (fst (snd pq) - fst (fst pq)) in
  line_with s (fst pq).

(** Different abscissae, slope and intercept strictly inside the limits. *)
Definition admissible (lo_s hi_s lo_i hi_i : R) (pq : (R * R) * (R * R)) : bool :=
  negb (Reqb (fst (fst pq)) (fst (snd pq))) &&
  (Rltb lo_s (fst (join pq)) && Rltb (fst (join pq)) hi_s) &&
  (Rltb lo_i (snd (join pq)) && Rltb (snd (join pq)) hi_i).

(** The range of the data that the bins of an axis cover: least and greatest
    value, widened when they coincide; [0, 1] without data. *)
Definition data_range (v : list R) (lo hi : R) : Prop :=
  (v = [] /\ lo = 0 /\ hi = 1) \/
  (exists a b, In a v /\ In b v /\ (forall x, In x v -> a <= x <= b) /\
     ((a < b /\ lo = a /\ hi = b) \/ (a = b /\ lo = a - 1 / 2 /\ hi = a + 1 / 2))).

(** Edge i of n equal bins, their centres, and membership: bins are closed below
    and open above, the last one is closed. *)
Definition edge (lo hi : R) (n i : nat) : R := lo + INR i * ((hi - lo) / INR n).
Definition centre (lo hi : R) (n i : nat) : R := (edge lo hi n i + edge lo hi n (S i)) / 2.
Definition in_bin (lo hi : R) (n i : nat) (v : R) : bool :=
  Rleb (edge lo hi n i) v && (Rltb v (edge lo hi n (S i)) || (Nat.eqb (S i) n && Reqb v hi)).

(** The count in bin (i, j) of a histogram. *)
Definition count_at (hist : list (list nat)) (b : nat * nat) : nat :=
  nth (snd b) (nth (fst b) hist []) 0%nat.

Section Histories.
  Context {A : Type} {N : Num A}.

  (** The points an argument of add_hough_points carries, if it is usable. *)
  Definition carried (a : add_points_arg A) : list (A * A) :=
    match a with
    | AddArray l => l
    | AddHough g => match ho_points g with Some (HArr l) => l | Some (HList l) => l | _ => [] end
    | AddOther => []
    end.

  (** The state after adding a sequence of arguments, exceptions being caught. *)
  Definition add_all (h : hough A) (args : list (add_points_arg A)) : hough A :=
    fold_left (fun h a => fst (add_hough_points h a)) args h.

  (** Everything but the points. *)
  Definition same_but_points (h h' : hough A) : Prop :=
    ho_lines h' = ho_lines h /\ ho_hist h' = ho_hist h /\ ho_xedges h' = ho_xedges h /\
    ho_yedges h' = ho_yedges h /\ ho_lims h' = ho_lims h.

  (** Everything that a file stores. *)
  Definition same_stored (h h' : hough A) : Prop :=
    ho_points h' = ho_points h /\ ho_hist h' = ho_hist h /\ ho_xedges h' = ho_xedges h /\
    ho_yedges h' = ho_yedges h /\ ho_lims h' = ho_lims h.

  (** Limits are set and the points have been binned. *)
  Definition complete (h : hough A) : Prop :=
    ho_hist h <> None /\ ho_xedges h <> None /\ ho_yedges h <> None /\
    ho_min_slope h <> None /\ ho_max_slope h <> None /\
    ho_min_intercept h <> None /\ ho_max_intercept h <> None.
End Histories.

(** * Props_Hough: property theorems only.  The proofs are in Main_Hough.v. *)

From Coq Require Import ZArith Bool List Lia Reals Lra Permutation Sorted String.
From Verif Require Import Num F64 XReal Py Np NpFacts ArgsortFacts Hough SpecHough HoughFacts.
From Verif Require Import Main_Hough.
Import ListNotations.
Local Open Scope num_scope.

(** C26: set_constraints is all-or-nothing. *)
Theorem set_constraints_atomic :
  forall (A : Type) (N : Num A) (h h' : hough A) a b c d r,
    set_constraints h a b c d = (h', r) ->
    (r = Ok tt /\
     (exists a' b' c' d', a = Some a' /\ b = Some b' /\ c = Some c' /\ d = Some d' /\
        nisfinite a' = true /\ nisfinite b' = true /\ nisfinite c' = true /\ nisfinite d' = true) /\
     ho_min_slope h' = a /\ ho_max_slope h' = b /\
     ho_min_intercept h' = c /\ ho_max_intercept h' = d /\
     ho_points h' = ho_points h /\ ho_lines h' = ho_lines h /\ ho_hist h' = ho_hist h /\
     ho_xedges h' = ho_xedges h /\ ho_yedges h' = ho_yedges h) \/
    (h' = h /\ (r = Raise AssertionError \/ r = Raise TypeError) /\
     exists v, In v [a; b; c; d] /\ (v = None \/ exists w, v = Some w /\ nisfinite w = false)).
Proof. exact set_constraints_atomic_main. Qed.
Print Assumptions set_constraints_atomic.

(** C26: the converse: finite numbers are always accepted. *)
Theorem set_constraints_accepts :
  forall (A : Type) (N : Num A) (h : hough A) a b c d,
    nisfinite a = true -> nisfinite b = true -> nisfinite c = true -> nisfinite d = true ->
    snd (set_constraints h (Some a) (Some b) (Some c) (Some d)) = Ok tt.
Proof. exact set_constraints_accepts_main. Qed.
Print Assumptions set_constraints_accepts.

Example set_constraints_example :
  set_constraints hough_init (Some (fz 1)) (Some (fz 3)) (Some (fz 100)) (Some ninf) =
    (hough_init, Raise AssertionError) /\
  ho_max_slope (fst (set_constraints hough_init (Some (fz 1)) (Some (fz 3)) (Some (fz 100)) (Some (fz 900))))
    = Some (fz 3).
Proof. exact set_constraints_example_main. Qed.

(** C27: the points are, slope by slope, the lines of the n evenly spaced slopes
    through the pairs, restricted to the (closed) range of intercepts. *)
Theorem hough_points_exact :
  forall (h h' : hough xr) (data : list (R * R)) n lo_s hi_s lo_i hi_i r,
    ho_min_slope h = Some (Fin lo_s) -> ho_max_slope h = Some (Fin hi_s) ->
    ho_min_intercept h = Some (Fin lo_i) -> ho_max_intercept h = Some (Fin hi_i) ->
    data <> [] -> (n >= 1)%nat ->
    generate_hough_points h (map (fun p => Fin (fst p)) data) (map (fun p => Fin (snd p)) data) n = (h', r) ->
    r = Ok tt /\
    ho_points h' = Some (HArr (map FinP
      (filter (fun q => Rleb lo_i (snd q) && Rleb (snd q) hi_i) (all_lines lo_s hi_s n data)))) /\
    same_but_points h h'.
Proof. exact hough_points_exact_main. Qed.
Print Assumptions hough_points_exact.

(** C27: every point passes through one of the pairs, with a slope between the
    limits and an intercept between the limits. *)
Theorem hough_points_sound :
  forall (data : list (R * R)) n lo_s hi_s lo_i hi_i line,
    (lo_s <= hi_s)%R -> (n >= 1)%nat ->
    In line (filter (fun q => Rleb lo_i (snd q) && Rleb (snd q) hi_i) (all_lines lo_s hi_s n data)) ->
    (exists p, In p data /\ on_line line p) /\
    (lo_s <= fst line <= hi_s)%R /\ (lo_i <= snd line <= hi_i)%R.
Proof. exact hough_points_sound_main. Qed.
Print Assumptions hough_points_sound.

(** A check in double precision: slopes 1 and 2 through (1, 10) and (4, 10);
    intercepts 9, 6, 8, 2 of which those in [3, 8] are kept. *)
Example hough_points_example :
  let h := mkHough None None None None None (Some (fz 1)) (Some (fz 2)) (Some (fz 3)) (Some (fz 8)) in
  generate_hough_points h [fz 1; fz 4] [fz 10; fz 10] 2 =
  (ho_set_points h (HArr [(fz 1, fz 6); (fz 2, fz 8)]), Ok tt).
Proof. exact hough_points_example_main. Qed.

(** C28: one point for each unordered pair of data points with different abscissae
    whose line is strictly inside the limits; nothing else. *)
Theorem brute_force_exact :
  forall (argsort : list xr -> list nat) (h h' : hough xr) (data : list (R * R)) lo_s hi_s lo_i hi_i r,
    (forall l, is_argsort l (argsort l)) ->
    ho_min_slope h = Some (Fin lo_s) -> ho_max_slope h = Some (Fin hi_s) ->
    ho_min_intercept h = Some (Fin lo_i) -> ho_max_intercept h = Some (Fin hi_i) ->
    (List.length data >= 2)%nat ->
    generate_hough_points_brute_force argsort h
      (map (fun p => Fin (fst p)) data) (map (fun p => Fin (snd p)) data) = (h', r) ->
    r = Ok tt /\ same_but_points h h' /\
    exists lines, ho_points h' = Some (HArr (map FinP lines)) /\
      Permutation lines (map join (filter (admissible lo_s hi_s lo_i hi_i) (pairs_of data))).
Proof. exact brute_force_exact_main. Qed.
Print Assumptions brute_force_exact.

(** C28: the lines of the previous theorem are exactly the lines through two data
    points with different abscissae that lie strictly inside the limits. *)
Theorem brute_force_lines :
  forall (data : list (R * R)) lo_s hi_s lo_i hi_i line,
    In line (map join (filter (admissible lo_s hi_s lo_i hi_i) (pairs_of data))) <->
    (exists i j p q, (i < j)%nat /\ nth_error data i = Some p /\ nth_error data j = Some q /\
       fst p <> fst q /\ on_line line p /\ on_line line q) /\
    (lo_s < fst line < hi_s)%R /\ (lo_i < snd line < hi_i)%R.
Proof. exact brute_force_lines_main. Qed.
Print Assumptions brute_force_lines.

(** A check in double precision: (1,10), (1,12), (3,14): two lines, of slopes 1 and
    2; the vertical pair is skipped. *)
Example brute_force_example :
  let h := mkHough None None None None None (Some (fz 0)) (Some (fz 5)) (Some (fz 0)) (Some (fz 99)) in
  generate_hough_points_brute_force argsort_stable h [fz 3; fz 1; fz 1] [fz 14; fz 10; fz 12] =
  (ho_set_points h (HArr [(fz 2, fz 8); (fz 1, fz 11)]), Ok tt).
Proof. exact brute_force_example_main. Qed.

(** C29: after any sequence of add_hough_points calls, rejected or not, the points
    are the old ones followed by those of the usable arguments in order. *)
Theorem add_hough_points_history :
  forall (A : Type) (N : Num A) (h : hough A) (pts : list (A * A)) (args : list (add_points_arg A)),
    ho_points h = Some (HArr pts) ->
    ho_points (add_all h args) = Some (HArr (pts ++ List.concat (map carried args))) /\
    same_but_points h (add_all h args).
Proof. exact add_hough_points_history_main. Qed.
Print Assumptions add_hough_points_history.

(** C29: which calls are rejected, on a transform that has points.  A transform
    without points accepts nothing but another transform without points, after
    which neither can be binned. *)
Theorem add_hough_points_outcome :
  forall (A : Type) (N : Num A) (h : hough A) (a : add_points_arg A),
    let '(h', r) := add_hough_points h a in
    (a = AddOther -> r = Raise TypeError) /\
    ((exists e, r = Raise e) -> h' = h) /\
    (forall pts l, ho_points h = Some (HArr pts) -> a = AddArray l -> r = Ok tt) /\
    (forall pts g l, ho_points h = Some (HArr pts) -> a = AddHough g -> ho_points g = Some (HArr l) -> r = Ok tt) /\
    (forall l, ho_points h = None -> a = AddArray l -> r = Raise ValueError) /\
    (forall g, ho_points h = None -> a = AddHough g -> ho_points g = None ->
       r = Ok tt /\ forall argsort xb yb, snd (bin_hough_points argsort h' xb yb) = Raise IndexError).
Proof. exact add_hough_points_outcome_main. Qed.
Print Assumptions add_hough_points_outcome.

Example add_hough_points_example :
  ho_points (add_all (ho_set_points hough_init (HArr [(fz 1, fz 2)]))
    [AddArray [(fz 3, fz 4)]; AddOther; AddHough hough_init;
     AddHough (ho_set_points hough_init (HArr [(fz 5, fz 6); (fz 7, fz 8)]))]) =
  Some (HArr [(fz 1, fz 2); (fz 3, fz 4); (fz 5, fz 6); (fz 7, fz 8)]).
Proof. exact add_hough_points_example_main. Qed.

(** C30: the bins cover the range of the data with equal widths; bin (i, j) holds
    the number of points in its cell; every point is in exactly one cell and the
    counts sum to the number of points.  C31: the lines are the centres of all
    bins, by non-increasing count. *)
Theorem bin_hough_points_exact :
  forall (argsort : list xr -> list nat) (h h' : hough xr) (pts : list (R * R)) xb yb r,
    (forall l, is_argsort l (argsort l)) ->
    ho_points h = Some (HArr (map FinP pts)) -> (xb >= 1)%nat -> (yb >= 1)%nat ->
    bin_hough_points argsort h xb yb = (h', r) ->
    r = Ok tt /\ ho_points h' = ho_points h /\ ho_lims h' = ho_lims h /\
    exists lo_s hi_s lo_i hi_i hist bins,
      data_range (map fst pts) lo_s hi_s /\ data_range (map snd pts) lo_i hi_i /\
      (forall p, In p pts ->
         (exists! i, (i < xb)%nat /\ in_bin lo_s hi_s xb i (fst p) = true) /\
         (exists! j, (j < yb)%nat /\ in_bin lo_i hi_i yb j (snd p) = true)) /\
      ho_xedges h' = Some (map (fun i => Fin (edge lo_s hi_s xb i)) (seq 0 (S xb))) /\
      ho_yedges h' = Some (map (fun j => Fin (edge lo_i hi_i yb j)) (seq 0 (S yb))) /\
      ho_hist h' = Some hist /\ List.length hist = xb /\ (forall row, In row hist -> List.length row = yb) /\
      (forall i j, (i < xb)%nat -> (j < yb)%nat ->
         count_at hist (i, j) =
         List.length (filter (fun p => in_bin lo_s hi_s xb i (fst p) && in_bin lo_i hi_i yb j (snd p)) pts)) /\
      list_sum (List.concat hist) = List.length pts /\
      ho_lines h' = Some (map (fun b => (Fin (centre lo_s hi_s xb (fst b)), Fin (centre lo_i hi_i yb (snd b)))) bins) /\
      Permutation bins (list_prod (seq 0 xb) (seq 0 yb)) /\
      StronglySorted (fun b c => (count_at hist c <= count_at hist b)%nat) bins.
Proof. exact bin_hough_points_exact_main. Qed.
Print Assumptions bin_hough_points_exact.

(** A check in double precision. *)
Example bin_hough_points_example :
  let h := fst (bin_hough_points argsort_stable
      (ho_set_points hough_init (HArr [(fz 0, fz 0); (fz 1, fz 1); (fz 2, fz 4); (fz 2, fz 3)])) 2 2) in
  ho_hist h = Some [[1; 0]; [1; 2]]%nat /\
  ho_xedges h = Some [fz 0; fz 1; fz 2] /\ ho_yedges h = Some [fz 0; fz 2; fz 4] /\
  ho_lines h = Some [(fd 15 (-1), fz 3); (fd 15 (-1), fz 1); (fd 5 (-1), fz 1); (fd 5 (-1), fz 3)].
Proof. exact bin_hough_points_example_main. Qed.
Local Open Scope string_scope.

(** C32: after saving in a format that includes npy, loading the same name (not
    ending in .npy) into any transform restores everything stored; its hough_lines
    stay; only the files of that name change. *)
Theorem npy_round_trip :
  forall (A : Type) (N : Num A) (h g g' : hough A) fs fs' name fmt r rl,
    complete h -> str_in "npy" (split_plus fmt) = true -> str_last 4 name <> ".npy" ->
    hough_save h fs name fmt true = (fs', r) ->
    hough_load g fs' name "npy" = (g', rl) ->
    rl = Ok tt /\ same_stored h g' /\ ho_lines g' = ho_lines g /\
    forall n, n <> name ++ ".npy" -> n <> name ++ ".json" \/ str_in "json" (split_plus fmt) = false ->
      fs' n = fs n.
Proof. exact npy_round_trip_main. Qed.
Print Assumptions npy_round_trip.

(** C32: the same for json, except that the points come back as a python list. *)
Theorem json_round_trip :
  forall (A : Type) (N : Num A) (h g g' : hough A) pts fs fs' name fmt r rl,
    complete h -> ho_points h = Some (HArr pts) ->
    str_in "json" (split_plus fmt) = true -> str_last 5 name <> ".json" ->
    hough_save h fs name fmt true = (fs', r) ->
    hough_load g fs' name "json" = (g', rl) ->
    r = Ok SvNone /\ rl = Ok tt /\ ho_points g' = Some (HList pts) /\
    ho_hist g' = ho_hist h /\ ho_xedges g' = ho_xedges h /\ ho_yedges g' = ho_yedges h /\
    ho_lims g' = ho_lims h /\ ho_lines g' = ho_lines g.
Proof. exact json_round_trip_main. Qed.
Print Assumptions json_round_trip.

Example round_trip_example :
  complete binned_example /\ ho_points binned_example <> None /\
  str_in "npy" (split_plus "json+npy") = true /\ str_last 4 "my_hough" <> ".npy".
Proof. exact round_trip_example_main. Qed.

(** C33: refuted: save appends .npy even when the name already ends in .npy, load
    does not, so for such a name the saved data is never read back. *)
Theorem npy_name_refuted :
  exists (h g : hough f64) fs fs' name,
    complete h /\
    hough_save h fs name "npy" true = (fs', Ok SvNone) /\
    hough_load g fs' name "npy" = (g, Raise FileNotFoundError).
Proof. exact npy_name_refuted_main. Qed.
Print Assumptions npy_name_refuted.

(** C33: exactly which names are affected: those ending in the suffix.  Loading
    then gives what it would have given without saving. *)
Theorem npy_name_affected_partial :
  forall (A : Type) (N : Num A) (h g : hough A) fs name,
    str_last 4 name = ".npy" ->
    hough_load g (fst (hough_save h fs name "npy" true)) name "npy" = hough_load g fs name "npy".
Proof. exact npy_name_affected_partial_main. Qed.
Print Assumptions npy_name_affected_partial.

(** C34: refuted: a transform restored from json cannot be binned or saved as json
    again. *)
Theorem json_loaded_usable_refuted :
  exists (h : hough f64) fs,
    complete h /\ snd (bin_hough_points argsort_stable h 2 2) = Ok tt /\
    let g := fst (hough_load hough_init (fst (hough_save h fs "t" "json" true)) "t" "json") in
    snd (bin_hough_points argsort_stable g 2 2) = Raise TypeError /\
    snd (hough_save g fs "u" "json" true) = Raise AttributeError.
Proof. exact json_loaded_usable_refuted_main. Qed.
Print Assumptions json_loaded_usable_refuted.

(** C34: refuted: the lines of the saved transform are not restored. *)
Theorem loaded_lines_refuted :
  exists (h : hough f64) fs,
    complete h /\ ho_lines h <> None /\
    let '(g, r) := hough_load hough_init (fst (hough_save h fs "t" "npy" true)) "t" "npy" in
    r = Ok tt /\ ho_lines g = None.
Proof. exact loaded_lines_refuted_main. Qed.
Print Assumptions loaded_lines_refuted.

(** C34: what does hold: a transform restored from npy can be binned again, with
    the outcome the original would give. *)
Theorem loaded_npy_usable_partial :
  forall (A : Type) (N : Num A) (argsort : list A -> list nat) (h g : hough A) fs name,
    complete h -> str_last 4 name <> ".npy" ->
    let g' := fst (hough_load g (fst (hough_save h fs name "npy" true)) name "npy") in
    forall xb yb,
      snd (bin_hough_points argsort g' xb yb) = snd (bin_hough_points argsort h xb yb) /\
      (snd (bin_hough_points argsort h xb yb) = Ok tt ->
       fst (bin_hough_points argsort g' xb yb) = fst (bin_hough_points argsort h xb yb)).
Proof. exact loaded_npy_usable_partial_main. Qed.
Print Assumptions loaded_npy_usable_partial.

(** The contract of argsort used in C28 and C31 can be met. *)
Example argsort_contract_example : forall l : list xr, is_argsort l (argsort_stable l).
Proof. exact argsort_contract_example_main. Qed.

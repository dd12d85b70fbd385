(** * Props_Vote: property theorems only.  The proofs are in Main_Vote.v. *)

From Coq Require Import ZArith Bool List Lia Reals Lra Permutation Sorted String.
From Verif Require Import Num F64 XReal Py Np NpFacts ArgsortFacts Hough SpecHough HoughFacts Main_Hough Calib Cand SpecVote Main_Cand.
From Verif Require Import Main_Vote.
Import ListNotations.
Local Open Scope num_scope.

(** C105: a line of a tried slope with an admissible intercept gets at least as many
    votes, in one bin, as pairs lie on it; the first Hough line has at least as many;
    if no other bin has as many as that bin, the first Hough line is the line, up to
    half a bin. *)
Theorem hough_votes :
  forall argsort (c c' : calib xr) pairs n xb yb lo_s hi_s lo_i hi_i r,
    (forall l, is_argsort l (argsort l)) -> hough_ready c pairs n xb yb lo_s hi_s lo_i hi_i ->
    do_hough_transform argsort c false = (c', r) ->
    r = Ok tt /\
    forall k i, (k < n)%nat -> (lo_i <= i <= hi_i)%R ->
      let s := slope_at lo_s hi_s n k in
      support s i pairs <> [] ->
      exists hist xe ye bin first m0 i0 rest,
        stored (c_ht c') hist xe ye /\
        (fst bin < xb)%nat /\ (snd bin < yb)%nat /\ bin_holds xe ye bin s i /\
        (List.length (support s i pairs) <= count_at hist bin)%nat /\
        c_lines c' = Some ((Fin m0, Fin i0) :: rest) /\ (m0, i0) = bin_centre xe ye first /\
        (count_at hist bin <= count_at hist first)%nat /\
        (strictly_most hist bin ->
         (Rabs (m0 - s) <= half_bin lo_s hi_s xb)%R /\ (Rabs (i0 - i) <= half_bin lo_i hi_i yb)%R).
Proof. exact hough_votes_main. Qed.
Print Assumptions hough_votes.

(** C106: in that case, if the tolerance covers half a bin, all pairs on the line are
    candidates of the first Hough line. *)
Theorem hough_line_candidates :
  forall argsort (c c' : calib xr) pairs n xb yb lo_s hi_s lo_i hi_i r rt lt,
    (forall l, is_argsort l (argsort l)) -> hough_ready c pairs n xb yb lo_s hi_s lo_i hi_i ->
    h_rt (c_hp c) = Some rt -> h_lt (c_hp c) = Some lt ->
    do_hough_transform argsort c false = (c', r) ->
    forall k i tol, (k < n)%nat -> (lo_i <= i <= hi_i)%R ->
      let s := slope_at lo_s hi_s n k in
      support s i pairs <> [] ->
      (forall p, In p (support s i pairs) ->
         (half_bin lo_s hi_s xb * Rabs (fst p) + half_bin lo_i hi_i yb <= tol)%R) ->
      exists hist xe ye bin first others,
        stored (c_ht c') hist xe ye /\ bin_holds xe ye bin s i /\
        candidates_linear c' (Fin tol) = Ok (first :: others) /\
        (strictly_most hist bin ->
         forall p, In p (support s i pairs) -> In (FinP p) (map fst first)).
Proof. exact hough_line_candidates_main. Qed.
Print Assumptions hough_line_candidates.

(** C107: for any line whose slope is between the limits there is a tried slope
    within half a step of it, and every pair on the line votes for a line of that
    slope whose intercept is off by at most half a step times its pixel. *)
Theorem hough_near_line :
  forall argsort (c c' : calib xr) pairs n xb yb lo_s hi_s lo_i hi_i r s i,
    (forall l, is_argsort l (argsort l)) -> hough_ready c pairs n xb yb lo_s hi_s lo_i hi_i ->
    do_hough_transform argsort c false = (c', r) ->
    (n >= 2)%nat -> (lo_s <= s <= hi_s)%R ->
    let half_step := ((hi_s - lo_s) / INR (n - 1) / 2)%R in
    exists s' points,
      (Rabs (s' - s) <= half_step)%R /\ c_points c' = Some (HArr points) /\
      forall p, In p (support s i pairs) ->
        (lo_i + half_step * Rabs (fst p) <= i <= hi_i - half_step * Rabs (fst p))%R ->
        exists i', In (Fin s', Fin i') points /\ (Rabs (i' - i) <= half_step * Rabs (fst p))%R.
Proof. exact hough_near_line_main. Qed.
Print Assumptions hough_near_line.

Example hough_ready_example :
  let pairs := [(10, 120); (20, 140); (20, 150); (30, 160)]%R in
  hough_ready (vote_state (fun z => Fin (IZR z))) pairs 3 3 12 1 3 50 150 /\
  slope_at 1 3 3 1 = 2%R /\ support 2 100 pairs = [(10, 120); (20, 140); (30, 160)]%R.
Proof. exact hough_ready_example_main. Qed.

(** The same state in double precision: the bin of that line has strictly most votes,
    the first line is (2, 102.5), and its candidates are the three pairs. *)
Example hough_votes_example :
  let c' := fst (do_hough_transform argsort_stable (vote_state fz) false) in
  option_map (fun h => (count_at h (1, 6), list_max (List.concat h), List.length (filter (Nat.eqb 3) (List.concat h))))%nat
    (ho_hist (c_ht c')) = Some (3, 3, 1)%nat /\
  option_map (fun l => match l with (m, i) :: _ => nabs (m -' fz 2) <=' fd 1 (-9) && (i ==' fd 1025 (-1)) | _ => false end)
    (c_lines c') = Some true /\
  match candidates_linear c' (fz 5) return Prop with
  | Ok (first :: _) => map fst first = [(fz 10, fz 120); (fz 20, fz 140); (fz 30, fz 160)]
  | _ => False
  end.
Proof. exact hough_votes_example_main. Qed.

(** * Props_Cand: property theorems only.  The proofs are in Main_Cand.v. *)

From Coq Require Import ZArith Bool List String Lia Reals Lra Sorted Permutation.
From Verif Require Import Num F64 XReal Py Np NpFacts ArgsortFacts EdlenFacts Util Atlas Hough PolyEval Calib Cand SpecCand CandFacts.
From Verif Require Import Main_Cand.
Import ListNotations.
Local Open Scope num_scope.

(** C55: the selected pairs. *)
Theorem linear_candidates_exact :
  forall (A : Type) (N : Num A) (c : calib A) lines pairs rt lt tol,
    c_lines c = Some lines -> c_pairs c = PArr pairs ->
    h_rt (c_hp c) = Some rt -> h_lt (c_hp c) = Some lt ->
    exists cs, candidates_linear c tol = Ok cs /\ List.length cs = List.length lines /\
      forall k m i cand, nth_error lines k = Some (m, i) -> nth_error cs k = Some cand ->
        map fst cand = filter (fun q => nabs (m *' fst q +' i -' snd q) <=' tol) pairs.
Proof. exact linear_candidates_exact_main. Qed.
Print Assumptions linear_candidates_exact.

(** C55: the weights; finite pairs, lines and tolerances, exact reals. *)
Theorem linear_candidates_weight :
  forall (c : calib xr) lines pairs rt lt tol,
    c_lines c = Some (map (fun q => (Fin (fst q), Fin (snd q))) lines) ->
    c_pairs c = PArr (map (fun q => (Fin (fst q), Fin (snd q))) pairs) ->
    h_rt (c_hp c) = Some (Fin rt) -> h_lt (c_hp c) = Some (Fin lt) ->
    exists cs, candidates_linear c tol = Ok cs /\
      forall cand x y w, In cand cs -> In (x, y, w) cand ->
        exists r, w = Fin r /\ (0 < r <= 1)%R.
Proof. exact linear_candidates_weight_main. Qed.
Print Assumptions linear_candidates_weight.

Example linear_candidates_exact_example :
  exists cs, candidates_linear cand_state (fz 5) = Ok cs /\
    map (map fst) cs = [[(fz 10, fz 125); (fz 20, fz 145)]; [(fz 10, fz 125); (fz 10, fz 135); (fz 20, fz 145)]].
Proof. exact linear_candidates_exact_example_main. Qed.

(** C56: np.argsort is any function that meets its contract. *)
Theorem common_candidates :
  forall (A : Type) (N : Num A) (O : NumOrder A) argsort cs top weighted,
    (forall l, is_argsort l (argsort l)) ->
    let rows := List.concat cs in
    (forall x y w, In (x, y, w) rows -> nisnan x = false /\ nisnan y = false) ->
    exists ps blocks,
      distinct_values (map row_x rows) ps /\
      Forall2 (fun p block =>
        exists us, distinct_values (map row_y (rows_of rows p)) us /\
          List.length block = Nat.min top (List.length us) /\
          forall y, In y block -> exists x w, In (x, y, w) rows /\ x ==' p = true) ps blocks /\
      fst (most_common_candidates argsort cs top weighted) =
        List.concat (map (fun q => repeat (fst q) (List.length (snd q))) (combine ps blocks)) /\
      snd (most_common_candidates argsort cs top weighted) = List.concat blocks.
Proof. exact common_candidates_main. Qed.
Print Assumptions common_candidates.

Example common_candidates_example :
  most_common_candidates argsort_stable ex_cands 2 true = ([fz 10; fz 10; fz 20], [fz 5000; fz 4000; fz 6000]).
Proof. exact common_candidates_example_main. Qed.

(** C57 fails: the ranks of the distinct wavelengths index the list that still has
    the repeats.  (a) peak 10 has the wavelengths 5, 5, 7 and two are wanted: 5 is
    returned twice.  (b) 7 once and 5 twice, one wanted: 7 is returned. *)
Theorem most_common_kept_refuted :
  (let cs := [[(fz 10, fz 5, fz 1)]; [(fz 10, fz 5, fz 1)]; [(fz 10, fz 7, fz 1)]] in
   most_common_candidates argsort_stable cs 2 false = ([fz 10; fz 10], [fz 5; fz 5]) /\
   most_common_candidates argsort_stable cs 2 true = ([fz 10; fz 10], [fz 5; fz 5])) /\
  (let cs := [[(fz 10, fz 7, fz 1)]; [(fz 10, fz 5, fz 1)]; [(fz 10, fz 5, fz 1)]] in
   most_common_candidates argsort_stable cs 1 false = ([fz 10], [fz 7]) /\
   most_common_candidates argsort_stable cs 1 true = ([fz 10], [fz 7])).
Proof. exact most_common_kept_refuted_main. Qed.
Print Assumptions most_common_kept_refuted.

(** C57, the part that holds: when the candidates of a peak have pairwise different
    wavelengths in increasing order (for instance when there is one Hough line and
    the atlas is sorted), no kept wavelength is repeated and no discarded wavelength
    has a larger weight (count) than a kept one.  Exact reals. *)
Theorem most_common_kept_partial :
  forall argsort (cs : list (cand xr)) rs top weighted p,
    (forall l, is_argsort l (argsort l)) ->
    List.concat cs = map lift_row rs ->
    StronglySorted Rlt (map (fun r => snd (fst r)) (filter (fun r => Reqb (fst (fst r)) p) rs)) ->
    let out := most_common_candidates argsort cs top weighted in
    let kept := map snd (filter (fun q => fst q ==' Fin p) (combine (fst out) (snd out))) in
    NoDup kept /\
    forall y y' a w, In (Fin y) kept -> In (p, y', w) rs -> a = Fin y' -> ~ In a kept ->
      (total weighted rs p y' <= total weighted rs p y)%R.
Proof. exact most_common_kept_partial_main. Qed.
Print Assumptions most_common_kept_partial.

Example most_common_kept_example :
  most_common_candidates argsort_stable [[(fz 10, fz 5, fd 2 (-1)); (fz 10, fz 6, fd 9 (-1)); (fz 10, fz 7, fd 5 (-1))]] 2 true
  = ([fz 10; fz 10], [fz 6; fz 7]).
Proof. exact most_common_kept_example_main. Qed.

(** C58.  d is the dictionary of candidates per peak, ev the polynomial. *)
Theorem bijective_matching :
  forall (A : Type) (N : Num A) (O : NumOrder A) (ev : A -> A) d peaks,
    pairwise_different peaks ->
    (forall p, In p peaks -> exists ys, entry_of d p ys /\ ys <> [] /\ no_nan ys) ->
    exists claims err mx my,
      (* every peak claims one of its candidates, none of them is nearer *)
      map (fun q => snd (fst q)) claims = peaks /\
      (forall e p y, In (e, p, y) claims ->
         exists ys, entry_of d p ys /\ nearest (ev p) ys e y) /\
      match_bijective ev d peaks = Ok (err, mx, my) /\
      List.length err = List.length my /\ List.length mx = List.length my /\
      (* no wavelength and no peak is used twice *)
      StronglySorted (fun a b => a <' b = true) my /\ pairwise_different mx /\ incl mx peaks /\
      (* each result is a claim, and no other claim on that wavelength is nearer *)
      (forall k e x w, nth_error err k = Some e -> nth_error mx k = Some x -> nth_error my k = Some w ->
         exists y, In (e, x, y) claims /\ y ==' w = true /\
           forall e' x' y', In (e', x', y') claims -> y' ==' w = true -> e' <' e = false) /\
      (* every claimed wavelength is assigned *)
      (forall e p y, In (e, p, y) claims -> exists w, In w my /\ w ==' y = true).
Proof. exact bijective_matching_main. Qed.
Print Assumptions bijective_matching.

(** Peaks 1, 2, 3 with predictions 10, 20, 30: peaks 1 and 2 both claim 16. *)
Example bijective_matching_example :
  let ev := fun x : f64 => x *' fz 10 in
  let d := [(fz 1, [fz 2; fz 16]); (fz 2, [fz 16; fz 27]); (fz 3, [fz 31])] in
  pairwise_different [fz 1; fz 2; fz 3] /\
  entry_of d (fz 2) [fz 16; fz 27] /\
  match_bijective ev d [fz 1; fz 2; fz 3] = Ok ([fz 4; fz 1], [fz 2; fz 3], [fz 16; fz 31]).
Proof. exact bijective_matching_example_main. Qed.

(** C80 fails: every row is sorted by itself, so that weight, peak and wavelength
    change places. *)
Theorem merge_keeps_pairs_refuted :
  merge_candidates [[(fz 10, fz 4000, fd 5 (-1))]] = [[fd 5 (-1); fz 10; fz 4000]] /\
  merge_candidates [[(fz 20, fz 4000, fz 1)]; [(fz 10, fz 3000, fz 1)]] =
    [[fz 1; fz 20; fz 4000]; [fz 1; fz 10; fz 3000]].
Proof. exact merge_keeps_pairs_refuted_main. Qed.
Print Assumptions merge_keeps_pairs_refuted.

(** C80, the part that holds: one row per candidate, in the given order, with the
    same three numbers in increasing order. *)
Theorem merge_rows_partial :
  forall (A : Type) (N : Num A) (O : NumOrder A) (cs : list (cand A)),
    Forall2 (fun r m => Permutation m [fst (fst r); snd (fst r); snd r] /\
                        (nisnan (fst (fst r)) = false -> nisnan (snd (fst r)) = false -> nisnan (snd r) = false ->
                         StronglySorted (fun a b => a <=' b = true) m))
            (List.concat cs) (merge_candidates cs).
Proof. exact merge_rows_partial_main. Qed.
Print Assumptions merge_rows_partial.

(** C85 fails: numpy cannot subtract arrays of different lengths.  For every
    polynomial, every tolerance and all random offsets. *)
Theorem poly_candidates_sizes_refuted :
  forall (A : Type) (N : Num A) rnd (c : calib A) tol co at_ l0 lines rt k,
    (forall n, List.length (rnd n) = n) ->
    c_coeff c = Some co -> c_atlas c = Some at_ -> c_lines c = Some (l0 :: lines) ->
    h_rt (c_hp c) = Some rt -> c_kind c = Some k ->
    List.length (c_peaks c) <> List.length (get_lines at_) ->
    (2 <= List.length (c_peaks c))%nat -> (2 <= List.length (get_lines at_))%nat ->
    candidates_poly rnd c tol = Raise ValueError.
Proof. exact poly_candidates_sizes_refuted_main. Qed.
Print Assumptions poly_candidates_sizes_refuted.

(** C85: with exactly one peak, or exactly one line, and several of the other, numpy
    stretches the single one; the exception is then another one, or nothing is found. *)
Theorem poly_candidates_single_refuted :
  forall (A : Type) (N : Num A) rnd (c : calib A) tol co at_ lines rt k,
    (forall n, List.length (rnd n) = n) ->
    c_coeff c = Some co -> c_atlas c = Some at_ -> c_lines c = Some lines ->
    h_rt (c_hp c) = Some rt -> c_kind c = Some k ->
    List.length (c_peaks c) <> List.length (get_lines at_) ->
    List.length (c_peaks c) = 1%nat \/ List.length (get_lines at_) = 1%nat ->
    let near d p w := nabs (w -' (eval_kind k p co +' d)) <' tol in
    let offsets := map (fun u => u *' rt *' nZ 2 -' rt) (rnd (List.length lines)) in
    candidates_poly rnd c tol =
      if existsb (fun d => existsb (fun p => existsb (near d p) (get_lines at_)) (c_peaks c)) offsets
      then Raise IndexError else Ok [].
Proof. exact poly_candidates_single_refuted_main. Qed.
Print Assumptions poly_candidates_single_refuted.

(** C85, the part that holds: with as many peaks as lines the search succeeds and
    compares, for every random number u and the offset (2u - 1) range_tolerance, the i-th
    peak with the i-th line only; the weight of a pair falls with its distance from the
    shifted polynomial. *)
Theorem poly_candidates_partial :
  forall (A : Type) (N : Num A) rnd (c : calib A) tol co at_ lines rt k,
    (forall n, List.length (rnd n) = n) ->
    c_coeff c = Some co -> c_atlas c = Some at_ -> c_lines c = Some lines ->
    h_rt (c_hp c) = Some rt -> c_kind c = Some k ->
    List.length (c_peaks c) = List.length (get_lines at_) ->
    let offsets := map (fun u => u *' rt *' nZ 2 -' rt) (rnd (List.length lines)) in
    let shifted d p := eval_kind k p co +' d in
    candidates_poly rnd c tol =
      Ok (filter (fun l => negb (Nat.eqb (List.length l) 0))
            (map (fun d =>
                    map (fun q => (q, nZ 1 *' nexp (nopp ((snd q -' shifted d (fst q)) *' (snd q -' shifted d (fst q)))
                                                    /' (nZ 2 *' (rt *' rt) +' nlit 1 (-9)))))
                      (filter (fun q => nabs (snd q -' shifted d (fst q)) <' tol)
                         (combine (c_peaks c) (get_lines at_)))) offsets)).
Proof. exact poly_candidates_partial_main. Qed.
Print Assumptions poly_candidates_partial.

(** C85: a random number in [0, 1) gives an offset of at most the range tolerance, and
    every such offset can occur. *)
Theorem poly_offsets :
  forall rt d : R, (0 < rt)%R ->
    ((-rt <= d < rt)%R <-> exists u, (0 <= u < 1)%R /\ Fin d = Fin u *' Fin rt *' nZ 2 -' Fin rt).
Proof. exact poly_offsets_main. Qed.
Print Assumptions poly_offsets.

Theorem poly_candidates_all_pairs_refuted :
  let p := fun x => eval_kind FitPoly x [fz 6000; fz (-100)] in
  p (fz 10) = fz 5000 /\ p (fz 20) = fz 4000 /\
  candidates_poly (fun n => repeat (fd 5 (-1)) n) poly_state (fz 10) = Ok [] /\
  candidates_poly (fun n => repeat (fd 5 (-1)) n) (set_c_peaks [fz 20; fz 10] poly_state) (fz 10) =
    Ok [[(fz 20, fz 4000, fz 1); (fz 10, fz 5000, fz 1)]].
Proof. exact poly_candidates_all_pairs_refuted_main. Qed.
Print Assumptions poly_candidates_all_pairs_refuted.

Example poly_candidates_sizes_example :
  candidates_poly (fun n => repeat (fd 5 (-1)) n) (set_c_peaks [fz 20; fz 10; fz 15] poly_state) (fz 10) =
    Raise ValueError.
Proof. exact poly_candidates_sizes_example_main. Qed.

(** One peak, two lines, one of them where the coefficients put the peak. *)
Example poly_candidates_single_example :
  candidates_poly (fun n => repeat (fd 5 (-1)) n) (set_c_peaks [fz 10] poly_state) (fz 10) = Raise IndexError /\
  candidates_poly (fun n => repeat (fd 5 (-1)) n) (set_c_peaks [fz 50] poly_state) (fz 10) = Ok [].
Proof. exact poly_candidates_single_example_main. Qed.

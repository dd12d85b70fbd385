(** * Props_WholeCand: property theorems only.  The proofs are in Main_WholeCand.v. *)

From Coq Require Import ZArith Bool List String Lia Reals Lra Sorted Permutation.
From Verif Require Import Num F64 XReal Py Np NpFacts ArgsortFacts Util EdlenFacts Atlas Hough PolyEval Calib Cand SpecCand CandFacts SampleFacts SpecUtil Main_Util RefineFacts Main_Cand Whole WholeCand.
From Verif Require Import Main_WholeCand.
Import ListNotations.
Local Open Scope num_scope.

(** C151, what holds: if the total weight of every wavelength is a whole number, in
    particular without weights, whole-number peaks and wavelengths are pruned as the same
    numbers given as floats. *)
Theorem whole_candidates_partial :
  forall argsort (cs : list (cand xr)) rs top weighted,
    List.concat cs = map lift_row rs ->
    (weighted = true -> forall p y, exists z, total true rs p y = IZR z) ->
    most_common_ints argsort cs top weighted = Ok (most_common_candidates argsort cs top weighted).
Proof. exact whole_candidates_partial_main. Qed.
Print Assumptions whole_candidates_partial.

(** C151 fails for all weights: when every wavelength of every peak has a total weight
    below one, the weights are not looked at.  Any two such candidate lists with the same
    pairs give the same result. *)
Theorem whole_candidates_refuted :
  forall argsort (cs cs' : list (cand xr)) rs rs' top,
    List.concat cs = map lift_row rs -> List.concat cs' = map lift_row rs' ->
    map fst rs = map fst rs' ->
    (forall p y, 0 <= total true rs p y < 1)%R -> (forall p y, 0 <= total true rs' p y < 1)%R ->
    exists out, most_common_ints argsort cs top true = Ok out /\ most_common_ints argsort cs' top true = Ok out.
Proof. exact whole_candidates_refuted_main. Qed.
Print Assumptions whole_candidates_refuted.

(** C151 fails: peak 10 with wavelength 4000 (weight 0.2) and 5000 (weight 0.9).  Given
    as floats the better one is kept, given as whole numbers the other. *)
Theorem whole_votes_refuted :
  let cs := [[(fz 10, fz 4000, fd 2 (-1)); (fz 10, fz 5000, fd 9 (-1))]] in
  most_common_candidates argsort_stable cs 1 true = ([fz 10], [fz 5000]) /\
  most_common_ints argsort_stable cs 1 true = Ok ([fz 10], [fz 4000]).
Proof. exact whole_votes_refuted_main. Qed.
Print Assumptions whole_votes_refuted.

Example whole_candidates_partial_example :
  let cs := [[(fz 10, fz 4000, fd 2 (-1)); (fz 10, fz 5000, fd 9 (-1))]; [(fz 10, fz 5000, fd 4 (-1))]] in
  most_common_ints argsort_stable cs 1 false = Ok (most_common_candidates argsort_stable cs 1 false).
Proof. exact whole_candidates_partial_example_main. Qed.

(** Two lists with the same pairs and opposite weights. *)
Example whole_candidates_refuted_example :
  let rs := [(10, 4000, 1/5); (10, 5000, 9/10)]%R in
  let rs' := [(10, 4000, 9/10); (10, 5000, 1/5)]%R in
  map fst rs = map fst rs' /\
  (forall p y, 0 <= total true rs p y < 1)%R /\ (forall p y, 0 <= total true rs' p y < 1)%R.
Proof. exact whole_candidates_refuted_example_main. Qed.

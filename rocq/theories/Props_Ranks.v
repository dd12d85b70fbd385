(** * Props_Ranks: property theorems only.  The proofs are in Main_Ranks.v. *)

From Coq Require Import ZArith Bool List String Lia Reals Lra Sorted Permutation.
From Verif Require Import Num F64 XReal Py Np NpFacts ArgsortFacts EdlenFacts Util Atlas Hough PolyEval Calib Cand SpecCand CandFacts SampleFacts Main_Cand.
From Verif Require Import Main_Ranks.
Import ListNotations.
Local Open Scope num_scope.

(** C57 (what holds): let the wavelengths of a peak, as they come, be [raw], and the distinct
    ones in increasing order [us].  The min(top_n, number of distinct wavelengths) places idx
    in [us] with the largest totals are found, largest first, but the wavelengths returned
    are those at these places of [raw]. *)
Theorem most_common_ranks_partial :
  forall argsort (cs : list (cand xr)) rs top weighted p,
    (forall l, is_argsort l (argsort l)) ->
    List.concat cs = map lift_row rs -> (exists y w, In (p, y, w) rs) ->
    let out := most_common_candidates argsort cs top weighted in
    let kept := map snd (filter (fun q => fst q ==' Fin p) (combine (fst out) (snd out))) in
    let raw := map (fun r => snd (fst r)) (filter (fun r => Reqb (fst (fst r)) p) rs) in
    exists us idx,
      StronglySorted Rlt us /\ (forall y, In y us <-> In y raw) /\
      NoDup idx /\ List.length idx = Nat.min top (List.length us) /\
      (forall i, In i idx -> (i < List.length us)%nat) /\
      (forall i j u w, In i idx -> ~ In j idx -> nth_error us i = Some u -> nth_error us j = Some w ->
         (total weighted rs p w <= total weighted rs p u)%R) /\
      StronglySorted (fun i j => forall u w, nth_error us i = Some u -> nth_error us j = Some w ->
         (total weighted rs p w <= total weighted rs p u)%R) idx /\
      map Some kept = map (fun i => option_map Fin (nth_error raw i)) idx.
Proof. exact most_common_ranks_partial_main. Qed.
Print Assumptions most_common_ranks_partial.

(** Three candidates, wavelength 7 once and 5 twice: the most common one, 5, is at place 0 of
    the distinct wavelengths; at place 0 of the candidates is 7, which is returned. *)
Example most_common_ranks_example :
  let cs := [[(fz 10, fz 7, fz 1)]; [(fz 10, fz 5, fz 1)]; [(fz 10, fz 5, fz 1)]] in
  np_unique [fz 7; fz 5; fz 5] = [fz 5; fz 7] /\
  most_common_candidates argsort_stable cs 1 false = ([fz 10], [fz 7]).
Proof. exact most_common_ranks_example_main. Qed.

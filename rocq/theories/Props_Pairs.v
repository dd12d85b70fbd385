(** * Props_Pairs: property theorems only.  The proofs are in Main_Pairs.v. *)

From Coq Require Import ZArith Bool List String Lia Reals Lra Sorted Permutation.
From Verif Require Import Num F64 XReal Py Np NpFacts ArgsortFacts Util Models Atlas Hough PolyEval SpecPoly PolyFacts Main_Models Calib SpecCalib Main_Calib Cand SpecCand CandFacts Ransac RansacFacts SampleFacts Main_Ransac Fit Main_Fit MatchPeaks SpecMatch MatchFacts Main_Match Main_Edit SpecPairs.
From Verif Require Import Main_Pairs.
Import ListNotations.
Local Open Scope num_scope.

(** C108: the listing numbers the pairs 0, 1, ... in order. *)
Theorem listing_exact :
  forall (A : Type) (N : Num A) (c : calib A),
    aligned c ->
    exists l, get_pix_wave_pairs c = Ok l /\ List.length l = List.length (mseq_vals (c_mpeaks c)) /\
      forall pos k p w, nth_error l pos = Some (k, (p, w)) <->
        k = pos /\ nth_error (mseq_vals (c_mpeaks c)) pos = Some p /\ nth_error (mseq_vals (c_matlas c)) pos = Some w.
Proof. exact listing_exact_main. Qed.
Print Assumptions listing_exact.

(** C108: removing a listed position removes that pair and no other; positions -1, -2,
    ... count from the end; any other position raises and changes nothing. *)
Theorem remove_listed :
  forall (A : Type) (N : Num A) (c : calib A) l,
    aligned c -> get_pix_wave_pairs c = Ok l ->
    (forall before k pw after, l = (before ++ (k, pw) :: after)%list ->
       forall arg, arg = Z.of_nat k \/ arg = (Z.of_nat k - Z.of_nat (List.length l))%Z ->
       exists c' l', remove_pix_wave_pair c arg = (c', Ok tt) /\ aligned c' /\ get_pix_wave_pairs c' = Ok l' /\
         map snd l' = (map snd before ++ map snd after)%list) /\
    (forall arg, (arg < - Z.of_nat (List.length l) \/ Z.of_nat (List.length l) <= arg)%Z ->
       remove_pix_wave_pair c arg = (c, Raise IndexError)).
Proof. exact remove_listed_main. Qed.
Print Assumptions remove_listed.

(** C109: a pair just added is listed, and removing it at its position restores the
    pairs; nothing else changes. *)
Theorem remove_undoes_add :
  forall (A : Type) (N : Num A) (c c1 : calib A) pix wave,
    aligned c -> add_pix_wave_pair c pix wave = (c1, Ok tt) ->
    exists k l c2,
      get_pix_wave_pairs c1 = Ok l /\ nth_error l k = Some (k, (pix, wave)) /\
      remove_pix_wave_pair c1 (Z.of_nat k) = (c2, Ok tt) /\
      get_pix_wave_pairs c2 = get_pix_wave_pairs c /\
      set_c_matlas (c_matlas c) (set_c_mpeaks (c_mpeaks c) c2) = c.
Proof. exact remove_undoes_add_main. Qed.
Print Assumptions remove_undoes_add.

(** Non-vacuity of C108 and C109. *)
Example listing_example :
  let c := set_c_matlas (MArr [fz 600; fz 500; fz 400]) (set_c_mpeaks (MArr [fz 30; fz 20; fz 10]) (calib_blank [] None)) in
  aligned c /\
  get_pix_wave_pairs c = Ok [(0, (fz 30, fz 600)); (1, (fz 20, fz 500)); (2, (fz 10, fz 400))]%nat /\
  get_pix_wave_pairs (fst (remove_pix_wave_pair c (-2))) = Ok [(0, (fz 30, fz 600)); (1, (fz 10, fz 400))]%nat /\
  get_pix_wave_pairs (fst (add_pix_wave_pair c (fz 15) (fz 450))) =
    Ok [(0, (fz 30, fz 600)); (1, (fz 20, fz 500)); (2, (fz 15, fz 450)); (3, (fz 10, fz 400))]%nat.
Proof. exact listing_example_main. Qed.

(** C76: a refit needs a starting point that is a list, a degree of at least 1 below
    the number of pairs, as many wavelengths as pixels, and as many starting values as
    coefficients; otherwise it raises and changes nothing. *)
Theorem manual_refit_rejects :
  forall (A : Type) (N : Num A) (o : oracle A) (c : calib A) (a : refit_args A),
    let x := mseq_vals (given_or (rf_peaks a) (c_mpeaks c)) in
    let y := mseq_vals (given_or (rf_atlas a) (c_matlas c)) in
    ((exists l, rf_x0 a = MArr l) \/ refit_degree c a = None \/
     (exists d, refit_degree c a = Some d /\
        ((d < 1)%Z \/ (Z.of_nat (List.length x) <= d)%Z \/
         (exists l, rf_x0 a = MList l /\ Z.of_nat (List.length l) <> (d + 1)%Z))) \/
     List.length x <> List.length y) ->
    exists e, manual_refit o c a = (c, Raise e).
Proof. exact manual_refit_rejects_main. Qed.
Print Assumptions manual_refit_rejects.

Example manual_refit_rejects_example :
  let c := set_c_coeff (Some [fz 1; fz 2]) (calib_blank [] None) in
  let a := mkRF (MList [fz 1; fz 2]) (MList [fz 3; fz 4]) (Some 2%Z) MNone in
  refit_degree c a = Some 2%Z /\ refit_degree c (mkRF MNone MNone None MNone) = Some 1%Z.
Proof. exact manual_refit_rejects_example_main. Qed.

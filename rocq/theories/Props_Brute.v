(** * Props_Brute: property theorems only.  The proofs are in Main_Brute.v. *)

From Coq Require Import ZArith Bool List String Lia Reals Lra Sorted Permutation.
From Verif Require Import Num F64 XReal Py Np NpFacts ArgsortFacts Util Models Atlas Hough SpecHough HoughFacts PolyEval Calib Cand SpecCand CandFacts Ransac SpecRansac RansacFacts Main_Ransac SpecBrute.
From Verif Require Import Main_Brute.
Import ListNotations.
Local Open Scope num_scope.

(** C89: with brute force the search is set up to go through exactly the sets of
    sample_size candidate pairs, each once, whatever max_tries is. *)
Theorem brute_force_samples :
  forall (A : Type) (N : Num A) (o : oracle A) c x y deg size n coeff f l s0,
    ransac_setup o c x y deg size n coeff true = Ok (f, l, s0) ->
    NoDup l /\ (forall smp, In smp l <-> choice_of (List.length x) size smp).
Proof. exact brute_force_samples_main. Qed.
Print Assumptions brute_force_samples.

Example brute_force_samples_example :
  exists f s0, ransac_setup o_ex c_ex ex_peaks ex_waves 1 2 3 None true = Ok (f, combinations (seq 0 5) 2, s0) /\
    In [1; 3]%nat (combinations (seq 0 5) 2) /\ List.length (combinations (seq 0 5) 2) = 10%nat.
Proof. exact brute_force_samples_example_main. Qed.

(** C122: the brute-force search that ends has fitted every choice of candidate pairs,
    each exactly once and nothing else. *)
Theorem brute_force_fits :
  forall (A : Type) (N : Num A) (o : oracle A) fuel c x y deg size n coeff f l s0 s,
    List.length x = List.length y ->
    ransac_setup o c x y deg size n coeff true = Ok (f, l, s0) ->
    run_samples o fuel f s0 l = Done s ->
    exists choices,
      NoDup choices /\ (forall smp, In smp choices <-> choice_of (List.length x) size smp) /\
      Forall2 (chosen (c_known c) x y) choices (s_log s).
Proof. exact brute_force_fits_main. Qed.
Print Assumptions brute_force_fits.

(** C122: so its solution is at least as good as the one of any acceptable choice. *)
Theorem brute_force_best :
  forall (A : Type) (N : Num A) (O : NumOrder A) (o : oracle A) fuel c x y deg size n coeff f l s0 s,
    x <> [] -> no_nan x -> List.length x = List.length y ->
    ransac_setup o c x y deg size n coeff true = Ok (f, l, s0) ->
    run_samples o fuel f s0 l = Done s ->
    forall smp d cost, choice_of (List.length x) size smp -> chosen (c_known c) x y smp d -> good_trial o f d cost ->
      cost <' s_cost s = false.
Proof. exact brute_force_best_main. Qed.
Print Assumptions brute_force_best.

Example brute_force_fits_example :
  match brute_ex with
  | Some (n, lg, _) => n = 3%nat /\ map fst lg = [[fz 200; fz 300]; [fz 100; fz 300]; [fz 100; fz 200]]
  | None => False
  end.
Proof. exact brute_force_fits_example_main. Qed.

Example brute_force_best_example :
  match brute_ex with
  | Some (_, _, cost) => cost <' fz 11 = true
  | None => False
  end.
Proof. exact brute_force_best_example_main. Qed.

(** C122: a choice whose trial fit leaves the allowed intercepts is tried for ever. *)
Theorem brute_force_stuck :
  forall (A : Type) (N : Num A) (o : oracle A) fuel c x y deg size n coeff f l s0 smp d k c0 co lo hi,
    List.length x = List.length y ->
    ransac_setup o c x y deg size n coeff true = Ok (f, l, s0) ->
    choice_of (List.length x) size smp -> chosen (c_known c) x y smp d ->
    c_kind c = Some k -> o_polyfit o k (fst d) (snd d) deg = Ok (c0 :: co) ->
    h_min_intercept (c_hp c) = Some lo -> h_max_intercept (c_hp c) = Some hi -> c0 <' lo = true \/ hi <' c0 = true ->
    forall s, run_samples o fuel f s0 l <> Done s.
Proof. exact brute_force_stuck_main. Qed.
Print Assumptions brute_force_stuck.

(** The first two candidates of the peaks of c_brute in the wrong order: the line
    through them meets the axis at 6000. *)
Example brute_force_stuck_example :
  match ransac_setup o_ex c_brute [fz 100; fz 200; fz 300] [fz 5000; fz 4000; fz 6000] 1 2 0 None true with
  | Ok _ => lsq1 [fz 100; fz 200] [fz 5000; fz 4000] = [fz 6000; fz (-10)] /\
            h_max_intercept (c_hp c_brute) = Some (fz 3500)
  | Raise _ => False
  end.
Proof. exact brute_force_stuck_example_main. Qed.

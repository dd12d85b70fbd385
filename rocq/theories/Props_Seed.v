(** * Props_Seed: property theorems only.  The proofs are in Main_Seed.v. *)

From Coq Require Import ZArith Bool List String Lia.
From Verif Require Import Num F64 Py Np Util Atlas Hough PolyEval Calib SpecCalib Main_Calib Cand Ransac Main_Ransac Fit Main_Fit Seed SpecSeed.
From Verif Require Import Main_Seed.
Import ListNotations.
Local Open Scope num_scope.

(** C167: a program that seeds through some calibrator before anything is drawn gives the
    same results whatever the generator was used for before: every fit of every calibrator
    returns the same and all calibrators end up the same. *)
Theorem seed_reproducible :
  forall (A : Type) (N : Num A) (g : generator A) (o : oracle A) (fuel : nat) (e : env A) (w1 w2 : program g)
    (h0 h : list (prog_op A)) (p : prog_op A) (k : Z),
    p_cals w1 = p_cals w2 -> Forall quiet h0 -> seeds (fst (prog_run o fuel e w1 h0)) p k ->
    prog_run o fuel e w1 (h0 ++ p :: h) = prog_run o fuel e w2 (h0 ++ p :: h).
Proof. exact seed_reproducible_main. Qed.
Print Assumptions seed_reproducible.

(** C167, the part that holds: as long as nothing is fitted, seeded or drawn in between, what a fit
    returns after seeding with k depends on k and the calibrator only - whichever calibrator
    the seed was given to. *)
Theorem seed_next_fit_partial :
  forall (A : Type) (N : Num A) (g : generator A) (o : oracle A) (fuel : nat) (e : env A) (w : program g)
    (p : prog_op A) (k : Z) (h : list (prog_op A)) (i : nat) (a : fit_args A) (c : calib A),
    seeds w p k -> Forall quiet h ->
    nth_error (p_cals (fst (prog_run o fuel e w (p :: h)))) i = Some c ->
    snd (prog_run o fuel e w (p :: h ++ [PFit i a])) =
      [match fit (with_draws o (g_draws g (g_seed g k))) fuel c a with Some (_, r) => Some r | None => None end].
Proof. exact seed_next_fit_partial_main. Qed.
Print Assumptions seed_next_fit_partial.

(** C167 fails: the seed is not the calibrator's own.  Seeding any other calibrator
    afterwards takes its place; and fitting another calibrator in between, or drawing numbers,
    changes what the fit finds: three peaks are matched right after seeding, five if the other
    calibrator was fitted first or the program has drawn two numbers. *)
Theorem seed_own_refuted :
  (forall (A : Type) (N : Num A) (g : generator A) (o : oracle A) (fuel : nat) (e : env A) (w : program g)
     (i j : nat) (c d : calib A) (k k' : Z) (a : fit_args A) n px lib n' px' lib',
     i <> j -> nth_error (p_cals w) i = Some c -> nth_error (p_cals w) j = Some d ->
     snd (set_calibrator_properties c n px lib) = Ok tt -> snd (set_calibrator_properties d n' px' lib') = Ok tt ->
     prog_run o fuel e w [PSet i n px lib (Some k); PSet j n' px' lib' (Some k'); PFit i a] =
     prog_run o fuel e w [PSet i n px lib (Some k'); PSet j n' px' lib' None; PFit i a]) /\
  (seeds prog_ex (seed_of 0 0) 0 /\
   last_matched [seed_of 0 0; PFit 0 a_once] = Some 3%nat /\
   last_matched [seed_of 0 0; PFit 1 a_once; PFit 0 a_once] = Some 5%nat /\
   last_matched [seed_of 0 0; PUse 2; PFit 0 a_once] = Some 5%nat).
Proof. exact seed_own_refuted_main. Qed.
Print Assumptions seed_own_refuted.

(** The hypotheses: the two calibrators configured and one of them seeded, in a program that
    has used its generator before. *)
Example seed_reproducible_example :
  let h0 := [PCall 0 OUsePlotly; PSet 1 None None (Some "plotly"%string) None] in
  Forall quiet h0 /\ seeds (fst (prog_run o_ex 60 env0 prog_ex h0)) (seed_of 1 7) 7 /\
  p_cals prog_ex = p_cals (@mkProg f64 gen_ex 5%nat [c_session; c_session]).
Proof. exact seed_reproducible_example_main. Qed.

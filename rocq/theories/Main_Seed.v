(** * Main_Seed: the random numbers of calibrators; proofs.  The statements are repeated in
    Props_Seed.v. *)

From Coq Require Import ZArith Bool List String Lia.
From Verif Require Import Num F64 Py Np Util Atlas Hough PolyEval Calib SpecCalib Main_Calib Cand Ransac Main_Ransac Fit Main_Fit Seed SpecSeed.
Import ListNotations.
Local Open Scope num_scope.

Section Facts.
  Context {A : Type} {N : Num A}.
  Variable g : generator A.
  Variable o : oracle A.
  Variable fuel : nat.
  Variable e : env A.

  Lemma quiet_step (w : program g) (p : prog_op A) :
    quiet p -> p_rng (fst (prog_step o fuel e w p)) = p_rng w /\ snd (prog_step o fuel e w p) = [] /\
    forall u : program g, p_cals u = p_cals w ->
      p_cals (fst (prog_step o fuel e u p)) = p_cals (fst (prog_step o fuel e w p)) /\ snd (prog_step o fuel e u p) = [].
  Proof.
    destruct p as [pk sp|i n px lib seed|i q|i a|n]; cbn [quiet]; intros Q; try contradiction; cbn [prog_step].
    - destruct (calib_init (e_hull e) pk sp); cbn; repeat split; auto; congruence.
    - subst seed. split; [|split].
      + destruct (nth_error (p_cals w) i); [|reflexivity]. destruct (set_calibrator_properties c n px lib) as [c' [r|x]]; reflexivity.
      + destruct (nth_error (p_cals w) i); [|reflexivity]. destruct (set_calibrator_properties c n px lib) as [c' [r|x]]; reflexivity.
      + intros u E. rewrite E. destruct (nth_error (p_cals w) i); [|auto].
        destruct (set_calibrator_properties c n px lib) as [c' [r|x]]; cbn; auto.
    - split; [|split]; [destruct (nth_error (p_cals w) i); reflexivity|destruct (nth_error (p_cals w) i); reflexivity|].
      intros u E. rewrite E. destruct (nth_error (p_cals w) i); cbn; auto.
  Qed.

  Lemma quiet_run (h : list (prog_op A)) :
    Forall quiet h -> forall w : program g,
    p_rng (fst (prog_run o fuel e w h)) = p_rng w /\ snd (prog_run o fuel e w h) = [] /\
    forall u : program g, p_cals u = p_cals w -> p_cals (fst (prog_run o fuel e u h)) = p_cals (fst (prog_run o fuel e w h)).
  Proof.
    induction 1 as [|p h Q _ IH]; intros w; [auto|]. cbn [prog_run].
    destruct (quiet_step w p Q) as (R & S & C).
    destruct (prog_step o fuel e w p) as [w' x] eqn:E. cbn [fst snd] in *.
    destruct (IH w') as (R' & S' & C'). destruct (prog_run o fuel e w' h) as [w'' y] eqn:E'. cbn [fst snd] in *.
    split; [congruence|]. split; [subst; reflexivity|]. intros u Eu. destruct (C u Eu) as (C1 & _).
    destruct (prog_step o fuel e u p) as [u' x']. cbn [fst] in C1. specialize (C' u' C1).
    destruct (prog_run o fuel e u' h). exact C'.
  Qed.

  Lemma run_app (h1 h2 : list (prog_op A)) : forall w : program g,
    prog_run o fuel e w (h1 ++ h2) =
    let (w', x) := prog_run o fuel e w h1 in let (w'', y) := prog_run o fuel e w' h2 in (w'', (x ++ y)%list).
  Proof.
    induction h1 as [|p h1 IH]; intros w; cbn [app prog_run].
    - destruct (prog_run o fuel e w h2); reflexivity.
    - destruct (prog_step o fuel e w p) as [w' x]. rewrite IH. destruct (prog_run o fuel e w' h1) as [w'' y].
      destruct (prog_run o fuel e w'' h2) as [w3 z]. rewrite app_assoc. reflexivity.
  Qed.

  Lemma seeds_step (w : program g) (p : prog_op A) (k : Z) :
    seeds w p k -> p_rng (fst (prog_step o fuel e w p)) = g_seed g k /\
    forall u : program g, p_cals u = p_cals w -> prog_step o fuel e u p = prog_step o fuel e w p.
  Proof.
    destruct p as [pk sp|i n px lib seed|i q|i a|n]; cbn [seeds]; try contradiction. intros (-> & c & E & H). cbn [prog_step].
    split.
    - rewrite E. destruct (set_calibrator_properties c n px lib) as [c' r]. cbn in H. subst r. reflexivity.
    - intros u Eu. rewrite Eu, E. destruct (set_calibrator_properties c n px lib) as [c' r]. cbn in H. subst r. reflexivity.
  Qed.
End Facts.

(** C167: a program that seeds through some calibrator before anything is drawn gives the
    same results whatever the generator was used for before: every fit of every calibrator
    returns the same and all calibrators end up the same. *)
Lemma seed_reproducible_main :
  forall (A : Type) (N : Num A) (g : generator A) (o : oracle A) (fuel : nat) (e : env A) (w1 w2 : program g)
    (h0 h : list (prog_op A)) (p : prog_op A) (k : Z),
    p_cals w1 = p_cals w2 -> Forall quiet h0 -> seeds (fst (prog_run o fuel e w1 h0)) p k ->
    prog_run o fuel e w1 (h0 ++ p :: h) = prog_run o fuel e w2 (h0 ++ p :: h).
Proof.
  intros A N g o fuel e w1 w2 h0 h p k E Q S. rewrite !run_app.
  destruct (quiet_run g o fuel e h0 Q w1) as (_ & S1 & C). destruct (quiet_run g o fuel e h0 Q w2) as (_ & S2 & _).
  specialize (C w2 (eq_sym E)).
  destruct (prog_run o fuel e w1 h0) as [u1 x1]. destruct (prog_run o fuel e w2 h0) as [u2 x2]. cbn [fst snd] in *. subst x1 x2.
  cbn [prog_run]. rewrite (proj2 (seeds_step g o fuel e u1 p k S) u2 C). reflexivity.
Qed.

(** C167, the part that holds: as long as nothing is fitted, seeded or drawn in between, what a fit
    returns after seeding with k depends on k and the calibrator only - whichever calibrator
    the seed was given to. *)
Lemma seed_next_fit_partial_main :
  forall (A : Type) (N : Num A) (g : generator A) (o : oracle A) (fuel : nat) (e : env A) (w : program g)
    (p : prog_op A) (k : Z) (h : list (prog_op A)) (i : nat) (a : fit_args A) (c : calib A),
    seeds w p k -> Forall quiet h ->
    nth_error (p_cals (fst (prog_run o fuel e w (p :: h)))) i = Some c ->
    snd (prog_run o fuel e w (p :: h ++ [PFit i a])) =
      [match fit (with_draws o (g_draws g (g_seed g k))) fuel c a with Some (_, r) => Some r | None => None end].
Proof.
  intros A N g o fuel e w p k h i a c S Q HC.
  change (p :: h ++ [PFit i a])%list with ((p :: h) ++ [PFit i a])%list. rewrite run_app.
  assert (R : p_rng (fst (prog_run o fuel e w (p :: h))) = g_seed g k /\ snd (prog_run o fuel e w (p :: h)) = []).
  { cbn [prog_run]. destruct (seeds_step g o fuel e w p k S) as (R & _).
    assert (X : snd (prog_step o fuel e w p) = []).
    { destruct p; cbn in S; try contradiction. cbn [prog_step]. destruct S as (_ & c0 & E0 & _). rewrite E0.
      destruct (set_calibrator_properties c0 num_pix pixel_list library). reflexivity. }
    destruct (prog_step o fuel e w p) as [w' x]. cbn [fst snd] in *. subst x.
    destruct (quiet_run g o fuel e h Q w') as (R' & S' & _). destruct (prog_run o fuel e w' h) as [w'' y]. cbn [fst snd] in *.
    subst y. split; [congruence|reflexivity]. }
  destruct (prog_run o fuel e w (p :: h)) as [w' x]. cbn [fst snd] in *. destruct R as (R & ->).
  cbn [prog_run prog_step]. rewrite HC, R.
  destruct (fit (with_draws o (g_draws g (g_seed g k))) fuel c a) as [[c' r]|]; reflexivity.
Qed.

Lemma put_same (A : Type) (l : list (calib A)) i c d : nth_error l i = Some c -> nth_error (put_cal l i d) i = Some d.
Proof.
  revert i. induction l as [|x l IH]; intros [|i] H; cbn in *; try discriminate; [reflexivity|]. exact (IH i H).
Qed.
Lemma put_other (A : Type) (l : list (calib A)) i j c d :
  nth_error l i = Some c -> i <> j -> nth_error (put_cal l i d) j = nth_error l j.
Proof.
  revert i j. induction l as [|x l IH]; intros [|i] [|j] H NE; cbn in *; try discriminate; try congruence; auto.
  apply (IH i j H). lia.
Qed.

(** A generator whose states are numbers: from a state the draws of [o_ex] are made, begun that
    much later. *)
Definition gen_ex : generator f64 :=
  mkGen nat Z.to_nat
    (fun s => mkDraws (o_random o_ex) (fun t l n p => o_sample o_ex (t + s) l n p) (fun t l => o_pick o_ex (t + s) l))
    (fun s _ _ => (s + 2)%nat) (fun s n => (s + n)%nat).
Definition prog_ex : program gen_ex := @mkProg f64 gen_ex 0%nat [c_session; c_session].
Definition seed_of (i : nat) (k : Z) : prog_op f64 := PSet i None None None (Some k).
Definition a_once : fit_args f64 := mkFA 1 1 None (fz 5) (Some FitPoly) (fz 50) false.
Definition last_matched (h : list (prog_op f64)) : option nat :=
  match rev (snd (prog_run o_ex 60 env0 prog_ex h)) with
  | Some (Ok v) :: _ => Some (List.length (mseq_vals (fv_mpeaks v)))
  | _ => None
  end.

(** C167 fails: the seed is not the calibrator's own.  Seeding any other calibrator
    afterwards takes its place; and fitting another calibrator in between, or drawing numbers,
    changes what the fit finds: three peaks are matched right after seeding, five if the other
    calibrator was fitted first or the program has drawn two numbers. *)
Lemma seed_own_refuted_main :
  (forall (A : Type) (N : Num A) (g : generator A) (o : oracle A) (fuel : nat) (e : env A) (w : program g)
     (i j : nat) (c d : calib A) (k k' : Z) (a : fit_args A) n px lib n' px' lib',
     i <> j -> nth_error (p_cals w) i = Some c -> nth_error (p_cals w) j = Some d ->
     snd (set_calibrator_properties c n px lib) = Ok tt -> snd (set_calibrator_properties d n' px' lib') = Ok tt ->
     prog_run o fuel e w [PSet i n px lib (Some k); PSet j n' px' lib' (Some k'); PFit i a] =
     prog_run o fuel e w [PSet i n px lib (Some k'); PSet j n' px' lib' None; PFit i a]) /\
  (seeds prog_ex (seed_of 0 0) 0 /\
   last_matched [seed_of 0 0; PFit 0 a_once] = Some 3%nat /\
   last_matched [seed_of 0 0; PFit 1 a_once; PFit 0 a_once] = Some 5%nat /\
   last_matched [seed_of 0 0; PUse 2; PFit 0 a_once] = Some 5%nat).
Proof.
  split.
  - intros A N g o fuel e w i j c d k k' a n px lib n' px' lib' NE Hi Hj Oi Oj. cbn [prog_run prog_step]. rewrite Hi.
    destruct (set_calibrator_properties c n px lib) as [c' r]. cbn in Oi. subst r. cbn [p_cals p_rng].
    rewrite (put_other _ _ _ _ _ c' Hi NE), Hj.
    destruct (set_calibrator_properties d n' px' lib') as [d' r]. cbn in Oj. subst r. reflexivity.
  - split; [unfold seeds, seed_of; split; [reflexivity|]; exists c_session; split; [reflexivity|vm_compute; reflexivity]|].
    split; [vm_compute; reflexivity|]. split; vm_compute; reflexivity.
Qed.

(** The hypotheses: the two calibrators configured and one of them seeded, in a program that
    has used its generator before. *)
Example seed_reproducible_example_main :
  let h0 := [PCall 0 OUsePlotly; PSet 1 None None (Some "plotly"%string) None] in
  Forall quiet h0 /\ seeds (fst (prog_run o_ex 60 env0 prog_ex h0)) (seed_of 1 7) 7 /\
  p_cals prog_ex = p_cals (@mkProg f64 gen_ex 5%nat [c_session; c_session]).
Proof.
  cbv zeta. split; [repeat constructor|]. split; [|reflexivity].
  unfold seeds, seed_of. split; [reflexivity|]. eexists. split; [vm_compute; reflexivity|]. vm_compute. reflexivity.
Qed.

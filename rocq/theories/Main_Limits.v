(** * Main_Limits: how fit adjusts minimum_matches. *)

From Coq Require Import ZArith Bool List String Lia Reals Lra Sorted Permutation.
From Verif Require Import Num F64 XReal Py Np NpFacts ArgsortFacts Util UtilFacts Models Atlas AtlasFacts SpecAtlas Hough SpecHough HoughFacts PolyEval Calib SpecCalib CalibFacts Main_Calib Cand SpecCand CandFacts Ransac SpecRansac RansacFacts Main_Ransac Fit SpecFit FitFacts Main_Fit.
Import ListNotations.
Local Open Scope num_scope.

Lemma adjusted_least {A} {N : Num A} {O : NumOrder A} k p (m : A) :
  let m' := adjusted_matches k p m in
  (m' = m \/ m' = nnat k \/ m' = nnat p) /\
  m <' m' = false /\ nnat k <' m' = false /\ nnat p <' m' = false.
Proof.
  cbv zeta. unfold adjusted_matches.
  destruct (nnat k <' m) eqn:E1; [destruct (nnat p <' nnat k) eqn:E2|destruct (nnat p <' m) eqn:E2].
  - split; auto. split; [|split].
    + destruct (m <' nnat p) eqn:E; auto. rewrite <- (ltb_irrefl (nnat k)). symmetry.
      apply (ltb_trans _ m); auto. apply (ltb_trans _ (nnat p)); auto.
    + destruct (nnat k <' nnat p) eqn:E; auto. rewrite <- (ltb_irrefl (nnat k)). symmetry. apply (ltb_trans _ (nnat p)); auto.
    + apply ltb_irrefl.
  - split; auto. split; [|split; [apply ltb_irrefl|auto]].
    destruct (m <' nnat k) eqn:E; auto. rewrite <- (ltb_irrefl (nnat k)). symmetry. apply (ltb_trans _ m); auto.
  - split; auto. split; [|split; [|apply ltb_irrefl]].
    + destruct (m <' nnat p) eqn:E; auto. rewrite <- (ltb_irrefl (nnat p)). symmetry. apply (ltb_trans _ m); auto.
    + destruct (nnat k <' nnat p) eqn:E; auto. rewrite <- E1. symmetry. apply (ltb_trans _ (nnat p)); auto.
  - split; auto. split; [apply ltb_irrefl|auto].
Qed.

(** After a successful fit minimum_matches is the least of its old value, the number of
    lines and the number of peaks, and there are at least that many matches. *)
Lemma fit_minimum_matches_main :
  forall (A : Type) (N : Num A) (O : NumOrder A) (o : oracle A) fuel c a c' v at_ m,
    (forall l, is_argsort l (o_argsort o l)) -> pairs_current c -> c_atlas c = Some at_ ->
    no_nan (c_peaks c) -> no_nan (get_lines at_) -> r_matches (c_rp c) = Some m ->
    fit o fuel c a = Some (c', Ok v) ->
    exists m' xs ys,
      r_matches (c_rp c') = Some m' /\
      (m' = m \/ m' = nnat (List.length (at_lines at_)) \/ m' = nnat (List.length (c_peaks c))) /\
      m <' m' = false /\ nnat (List.length (at_lines at_)) <' m' = false /\ nnat (List.length (c_peaks c)) <' m' = false /\
      fv_mpeaks v = MList xs /\ fv_matlas v = MList ys /\ List.length xs = List.length ys /\
      nnat (List.length xs) <' m' = false.
Proof.
  intros A N O o fuel c a c' v at_ m Harg Hc Ha Np Na Hm H.
  destruct (fit_inv _ _ _ _ _ _ H) as (c2 & c3 & r & co & at' & size & m' & F2 & Ha' & Hs & Hm' & Hco & Hk & Hs2 & Hm2 &
    Hsol & Hp & Hpu & Hau & Ec' & Hv1 & Hv2 & Hv3 & _).
  assert (at' = at_) as -> by congruence. assert (m' = m) as -> by congruence.
  pose proof (pairs_current_frame _ _ F2 Hc) as Hc2.
  assert (G2 : same_input c c2) by apply F2. destruct G2 as (E1 & E2 & E3 & E4 & E5 & E6 & E7 & E8 & E9).
  pose proof (adjusted_least (atlas_len at_) (List.length (c_peaks c)) m) as Lim. cbv zeta in Lim.
  set (m' := adjusted_matches _ _ m) in *. clearbody m'. destruct Lim as (L1 & L2 & L3 & L4).
  destruct (solve_frame _ _ _ _ _ _ _ _ _ _ Hsol) as (_ & _ & _ & Hm3 & _).
  destruct (solve_ransac_inv o Harg _ _ _ _ _ _ _ _ _ Hsol) as [(K & _)|(x & y & size2 & f & samples & s0 & s & Hxy & _)];
    [congruence|].
  assert (NN : no_nan x /\ no_nan y).
  { eapply xy_no_nan; eauto; [rewrite E3; eauto|rewrite E1; auto]. }
  destruct NN as (Nx & Ny).
  destruct (ransac_quality_partial_main _ _ _ o _ _ _ _ _ _ _ _ _ _ _ _ Harg Hxy Nx Ny Hsol Hp)
    as (_ & _ & (m1 & Hm1 & Hl) & _).
  assert (m1 = m') as -> by congruence.
  destruct (fit_matches_observed_main _ _ _ o _ _ _ _ _ _ Harg Hc Ha Np Na H) as (xs & ys & X1 & X2 & X3 & _).
  destruct (ransac_valid_matching_main _ _ _ o _ _ _ _ _ _ _ _ _ _ _ _ Harg Hxy Nx Ny Hsol Hp) as (xs' & ys' & Y1 & _ & _ & Y2 & _).
  assert (xs' = xs) as -> by congruence.
  exists m', xs, ys. split; [subst c'; cbn; rewrite Hm3; exact Hm2|].
  do 6 (split; [assumption|]). split; [assumption|]. rewrite Y2. exact Hl.
Qed.

(** minimum_matches = 7 with five lines, and with five lines but four peaks. *)
Example fit_minimum_matches_example_main :
  (let c := after ex_peaks (session 9 (fz 7) ex_waves) in
   match fit o_ex 60 c a_session with
   | Some (c', Ok v) => r_matches (c_rp c') = Some (fz 5) /\ List.length (mseq_vals (fv_mpeaks v)) = 5%nat
   | _ => False
   end) /\
  (let c := after (tl ex_peaks) (session 2 (fz 7) ex_waves) in
   match fit o_ex 60 c a_session with
   | Some (c', Ok v) => r_matches (c_rp c') = Some (fz 4) /\ List.length (mseq_vals (fv_mpeaks v)) = 4%nat
   | _ => False
   end).
Proof. split; vm_compute; split; reflexivity. Qed.

(** * Main_Bins: what the probabilities of the peaks mean for a whole call of fit
    (C66). *)

From Coq Require Import ZArith Bool List String Lia Reals Lra Sorted Permutation.
From Verif Require Import Num F64 XReal Py Np NpFacts ArgsortFacts Util Models SpecPoly Atlas Hough SpecHough PolyEval Calib SpecCalib Main_Calib Cand SpecCand CandFacts SampleFacts Ransac SpecRansac RansacFacts Main_Ransac Fit SpecFit FitFacts Main_Fit Calls SpecRecover RecoverFacts SpecCover SpecDecoy Main_Recover Main_Decoy Main_Truth.
Import ListNotations.
Local Open Scope num_scope.

Section Stuck.
  Context {A : Type} {N : Num A}.
  Variable o : oracle A.

  Lemma try_stuck fuel f s smp : f_brute f = false -> existsb nisnan (f_prob f) = true ->
    try_sample o fuel f s smp = Out s \/ try_sample o fuel f s smp = Fail s ValueError.
  Proof.
    intros B E. destruct fuel as [|n]; [left; reflexivity|right].
    cbn [try_sample]. unfold draw. rewrite B, E. reflexivity.
  Qed.

  Lemma run_stuck fuel f s l s' : f_brute f = false -> existsb nisnan (f_prob f) = true ->
    run_samples o fuel f s l = Done s' -> s' = s.
  Proof.
    intros B E. destruct l as [|smp l]; cbn [run_samples]; [congruence|].
    destruct (try_stuck fuel f s smp B E) as [->| ->]; discriminate.
  Qed.
End Stuck.

Lemma data_range_same ps qs lo hi : (forall v, In v ps <-> In v qs) -> data_range qs lo hi -> data_range ps lo hi.
Proof.
  intros H [(E & D)|(a & b & Ha & Hb & Hall & D)].
  - left. split; auto. destruct ps as [|p ps]; auto. pose proof (proj1 (H p) (or_introl eq_refl)) as Hq. rewrite E in Hq. destruct Hq.
  - right. exists a, b. rewrite !H. split; auto. split; auto. split; auto. intros x Hx. apply Hall, H, Hx.
Qed.

Lemma stuck_prob ps l : sampling_prob (map Fin ps) = Ok l -> In NaN l -> existsb nisnan l = true.
Proof. intros _ H. apply existsb_exists. exists NaN. split; auto. Qed.

(** C66 at the level of fit: if fit, not asked for brute force, returns, then every
    candidate peak on an inner edge of the ten equal bins between the first and the last
    candidate peak has another candidate peak in the bin below. *)
Lemma fit_returns_clear_partial_main :
  forall (o : oracle xr) fuel (c : calib xr) (a : fit_args xr) c' v (x y : list R) lo hi,
    fit o fuel c a = Some (c', Ok v) -> fa_brute a = false ->
    fit_candidates o c a = Some (map Fin x, map Fin y) -> data_range x lo hi ->
    forall p i, In p x -> (1 <= i <= 9)%nat -> p = edge lo hi 10 i ->
      exists q, In q x /\ (edge lo hi 10 (i - 1) <= q < edge lo hi 10 i)%R.
Proof.
  intros o fuel c a c' v x y lo hi Hfit Hb Hcand Hr.
  destruct (fit_inside o fuel c a c' v Hfit) as
    (c2 & x' & y' & f & samples & s0 & s & at' & size & m' & F & Fk & Ha' & Fs & Fm & Fm2 & Fxy & Fc & Fset & Frun & Fcalls & V1 & _).
  assert (x' = map Fin x /\ y' = map Fin y) as (-> & ->) by (rewrite Hcand in Fc; injection Fc as <- <-; auto).
  rewrite Hb in Fset. apply ransac_setup_Ok in Fset.
  destruct Fset as (_ & _ & _ & _ & _ & _ & _ & _ & _ & _ & _ & _ & _ & _ & _ & _ & _ & Hbr & _ & _ & Hp & H0 & _).
  specialize (Hp eq_refl).
  destruct (np_unique_Fin x) as (ps & Eu & Su & Hu). rewrite Eu in Hp.
  intros p i Hpx Hi Ep.
  assert (Hne : ps <> []) by (intros ->; destruct (proj2 (Hu p) Hpx)).
  pose proof (sampling_prob_cases ps lo hi Hne (data_range_same _ _ _ _ Hu Hr)) as (_ & Hbad).
  destruct (existsb (fun q => Rleb (edge lo hi 10 (i - 1)) q && Rltb q (edge lo hi 10 i)) x) eqn:E.
  - apply existsb_exists in E. destruct E as (q & Hq & E). apply andb_prop in E. destruct E as (E1 & E2).
    exists q. split; auto. split.
    + destruct (Rleb_spec (edge lo hi 10 (i - 1)) q); [auto|discriminate].
    + destruct (Rltb_spec q (edge lo hi 10 i)); [auto|discriminate].
  - exfalso. destruct Hbad as (l & El & Hl).
    + intros C. destruct (C p i (proj2 (Hu p) Hpx) Hi Ep) as (q & Hq & Hq1 & Hq2).
      assert (existsb (fun q => Rleb (edge lo hi 10 (i - 1)) q && Rltb q (edge lo hi 10 i)) x = true).
      { apply existsb_exists. exists q. split; [apply Hu; auto|].
        destruct (Rleb_spec (edge lo hi 10 (i - 1)) q); [|lra].
        destruct (Rltb_spec q (edge lo hi 10 i)); [reflexivity|lra]. }
      congruence.
    + assert (f_prob f = l) by congruence. subst l.
      apply (run_stuck o _ _ _ _ _ Hbr (stuck_prob ps _ Hp Hl)) in Frun. subst s. congruence.
Qed.

(** Candidates at 0, 1 and 4: none of them is on an inner edge, and fit returns. *)
Example fit_returns_clear_example_main :
  exists c' v,
    fit dc_o 3 dc_c dc_a = Some (c', Ok v) /\ fa_brute dc_a = false /\
    fit_candidates dc_o dc_c dc_a = Some (map Fin [0; 1; 1; 4]%R, map Fin [100; 110; 221 / 2; 140]%R) /\
    data_range [0; 1; 1; 4]%R 0 4.
Proof.
  destruct decoys_session_example_main as (c' & v & _ & _ & _ & _ & H1 & H2 & _). exists c', v.
  split; [exact H2|]. split; [reflexivity|]. split; [exact H1|].
  right. exists 0%R, 4%R. split; [left; auto|]. split; [do 3 right; left; auto|]. split.
  - intros z [<-|[<-|[<-|[<-|[]]]]]; lra.
  - left. split; [lra|auto].
Qed.

(** C66 fails for every session whose candidates have three equally spaced peaks: fit
    does not return, however many tries it has and whatever the lines and settings are. *)
Lemma fit_three_even_refuted_main :
  forall (o : oracle xr) fuel (c : calib xr) (a : fit_args xr) c' v (x y : list R) p d,
    fa_brute a = false -> fit_candidates o c a = Some (map Fin x, map Fin y) ->
    (0 < d)%R -> (forall q, In q x <-> q = p \/ q = (p + d)%R \/ q = (p + 2 * d)%R) ->
    fit o fuel c a <> Some (c', Ok v).
Proof.
  intros o fuel c a c' v x y p d Hb Hc Hd Hx Hfit.
  assert (Hr : data_range x p (p + 2 * d)).
  { right. exists p, (p + 2 * d)%R. rewrite !Hx. split; auto. split; auto. split.
    - intros z Hz. apply Hx in Hz. destruct Hz as [->|[->| ->]]; lra.
    - left. split; [lra|auto]. }
  destruct (fit_returns_clear_partial_main o fuel c a c' v x y p (p + 2 * d)%R Hfit Hb Hc Hr (p + d)%R 5%nat) as (q & Hq & Hq2).
  - apply Hx. auto.
  - lia.
  - unfold edge. cbn. lra.
  - unfold edge in Hq2. cbn in Hq2. apply Hx in Hq. destruct Hq as [->|[->| ->]]; lra.
Qed.

Definition bn_us : list R := [0; 1; 2]%R.
Definition bn_ws : list R := [100; 110; 120]%R.
Definition bn_c : calib xr :=
  mkCal (map Fin bn_us) None (Some (mkAtlas (map ex_line bn_ws) (Fin 0) (Fin 1000) (Fin 0))) None
    (mkG (Some (Fin 3)) (Some (map Fin [0; 1; 2]%R)) None false false)
    (mkH None None None None None (Some (Fin 5)) (Some (Fin 5)) (Some (Fin 50)) (Some (Fin 150)) None None)
    (mkR (Some 2%nat) (Some 2%nat) (Some true) (Some false) (Some (Fin 1)) (Some false) (Some (Fin 1))
       (Some (Fin 3)) (Some (Fin 0)) (Some (Fin 0)))
    None false
    (PArr (flat_map (fun u => map (fun w => (Fin u, Fin w)) bn_ws) bn_us))
    (mkHough None None (Some [[1%nat]]) (Some [Fin 50; Fin 150]) (Some [Fin 5; Fin 15]) None None None None)
    (Some [(Fin 10, Fin 100)]) (Some (HArr [])) (MList []) (MList []) None None None None None None None None.

Lemma bn_rows : exists w1 w2 w3, candidates_linear bn_c (Fin 1) =
  Ok [[(Fin 0, Fin 100, w1); (Fin 1, Fin 110, w2); (Fin 2, Fin 120, w3)]].
Proof.
  unfold candidates_linear, bn_c. cbn [c_lines c_hp h_rt h_lt c_pairs].
  destruct (line_candidates_real (Fin 5) (Fin 5) 1 10 100
    [(0, 100); (0, 110); (0, 120); (1, 100); (1, 110); (1, 120); (2, 100); (2, 110); (2, 120)]%R) as (g & E).
  exists (g (0, 100)%R), (g (1, 110)%R), (g (2, 120)%R). apply f_equal.
  cbn [map fst snd flat_map app bn_us bn_ws] in E |- *.
  f_equal. etransitivity; [exact E|]. clear E. real_filter. reflexivity.
Qed.

Lemma bn_xy : ransac_xy dc_o bn_c (Fin 1) = Ok (map Fin bn_us, map Fin bn_ws).
Proof.
  destruct bn_rows as (w1 & w2 & w3 & E).
  unfold ransac_xy, ransac_candidates. change (c_rp bn_c) with
   (mkR (Some 2%nat) (Some 2%nat) (Some true) (Some false) (Some (Fin 1)) (Some false) (Some (Fin 1))
       (Some (Fin 3)) (Some (Fin 0)) (Some (Fin 0))).
  cbn [need bind r_linear r_top r_weighted r_close r_tol]. rewrite E. cbn [bind].
  unfold most_common_candidates. cbn [List.concat app map row_x row_y fst snd].
  assert (U3 : np_unique [Fin 0; Fin 1; Fin 2] = [Fin 0; Fin 1; Fin 2]).
  { apply (np_unique_sorted_id [0; 1; 2]%R). repeat constructor; lra. }
  rewrite U3. cbn [map]. unfold common_for. cbn [filter row_x row_y fst snd].
  repeat match goal with |- context [Fin ?x ==' Fin ?y] => change (Fin x ==' Fin y) with (Reqb x y) end.
  repeat match goal with |- context [Reqb ?x ?y] =>
    first [rewrite (Reqb_yes x y) by lra|rewrite (Reqb_no x y) by lra] end.
  cbn [map].
  assert (U : forall w, np_unique [Fin w] = [Fin w]) by (intros w; apply (np_unique_sorted_id [w]); repeat constructor).
  cbn [row_y fst snd]. rewrite !U. cbn [map mask_select List.length Nat.min dc_o o_argsort seq firstn gather flat_map fst snd repeat app filter row_x].
  repeat match goal with |- context [Fin ?x ==' Fin ?y] => change (Fin x ==' Fin y) with (Reqb x y) end.
  repeat match goal with |- context [Reqb ?x ?y] =>
    first [rewrite (Reqb_yes x y) by lra|rewrite (Reqb_no x y) by lra] end.
  cbn [map row_y fst snd]. rewrite ?U. cbn.
  unfold gather. cbn. reflexivity.
Qed.

(** Peaks at 0, 1 and 2 of the exact spectrum 100 + 10 u with lines at 100, 110 and 120:
    the candidates are right, and fit does not return. *)
Example fit_three_even_example_main :
  fa_brute dc_a = false /\
  fit_candidates dc_o bn_c dc_a = Some (map Fin [0; 1; 2]%R, map Fin [100; 110; 120]%R) /\
  (forall q, In q [0; 1; 2]%R <-> q = 0%R \/ q = (0 + 1)%R \/ q = (0 + 2 * 1)%R).
Proof.
  split; [reflexivity|]. split.
  - unfold fit_candidates.
    assert (B : exists c1, fit_begin bn_c dc_a = (c1, Ok tt) /\ exists c2, fit_prepare dc_o c1 dc_a = (c2, Ok tt) /\
      ransac_xy dc_o c2 (Fin 1) = ransac_xy dc_o bn_c (Fin 1)).
    { eexists. split; [reflexivity|]. eexists. split.
      - unfold fit_prepare, fit_hough.
        cbn [c_atlas c_rp c_lines c_points set_sample set_c_rp set_c_kind set_c_coeff set_c_deg bn_c r_sample r_matches].
        reflexivity.
      - reflexivity. }
    destruct B as (c1 & -> & c2 & -> & E). change (fa_ctol dc_a) with (Fin 1). rewrite E, bn_xy. reflexivity.
  - intros q. cbn. split; intros H; decompose [or] H; subst; try tauto; rewrite ?Rplus_0_l, ?Rmult_1_r; tauto.
Qed.

(** * Main_Truth: wrong candidates among right ones, in terms of a whole call of fit
    (C125). *)

From Coq Require Import ZArith Bool List String Lia Reals Lra Sorted Permutation.
From Verif Require Import Num F64 XReal Py Np NpFacts ArgsortFacts Util Models SpecPoly Atlas Hough PolyEval Calib SpecCalib Main_Calib Cand SpecCand CandFacts Ransac SpecRansac RansacFacts Main_Ransac Fit SpecFit FitFacts Main_Fit Calls SpecRecover SpecCover SpecDecoy Main_Recover Main_Decoy.
Import ListNotations.
Local Open Scope num_scope.

Section Inside.
  Context {A : Type} {N : Num A}.
  Variable o : oracle A.

  (** What happened inside a fit that returned. *)
  Lemma fit_inside fuel c a c' v :
    fit o fuel c a = Some (c', Ok v) ->
    exists c2 x y f samples s0 s at_ size m,
      frame c c2 /\ c_kind c2 = fa_type a /\
      c_atlas c = Some at_ /\ r_sample (c_rp c2) = Some size /\ r_matches (c_rp c) = Some m /\
      r_matches (c_rp c2) = Some (adjusted_matches (atlas_len at_) (List.length (c_peaks c)) m) /\
      ransac_xy o c2 (fa_ctol a) = Ok (x, y) /\ fit_candidates o c a = Some (x, y) /\
      ransac_setup o c2 x y (degree_used a) size (fa_tries a) (fa_coeff a) (fa_brute a) = Ok (f, samples, s0) /\
      run_samples o fuel f s0 samples = Done s /\
      fit_calls o fuel c a = rev (s_log s) /\
      s_p s = Some (fv_coeff v) /\ fv_mpeaks v = s_mp s /\ fv_matlas v = s_ma s /\
      fv_rms v = s_err s /\ fv_resid v = s_resid s.
  Proof.
    unfold fit, fit_candidates, fit_calls. intros H.
    assert (G : match fit_begin c a with
        | (c1, Raise e) => Some (c1, Raise e)
        | (c1, Ok _) =>
            match fit_prepare o c1 a with
            | (c2, Raise e) => Some (c2, Raise e)
            | (c2, Ok _) =>
                match solve_ransac o fuel c2 (degree_used a) (fa_tries a) (c_coeff c2) (fa_ctol a) (fa_brute a) with
                | None => None
                | Some (c3, Raise e) => Some (c3, Raise e)
                | Some (c3, Ok r) => Some (fit_end c3 r)
                end
            end
        end = Some (c', Ok v)).
    { destruct (fa_coeff a) as [[|]|]; [discriminate|exact H|exact H]. }
    assert (Ecalls : forall T (u w : T), match fa_coeff a with Some [] => u | _ => w end = w).
    { intros T u w. destruct (fa_coeff a) as [[|]|]; [discriminate|reflexivity|reflexivity]. }
    rewrite Ecalls. clear Ecalls H. rename G into H.
    pose proof (fit_begin_spec c a) as B. destruct (fit_begin c a) as [c1 [u|e]]; [|discriminate].
    cbn [fst snd] in B. destruct B as (B1 & B2 & B3 & B4 & B5 & B6). specialize (B6 ltac:(destruct u; auto)).
    pose proof (fit_prepare_spec o c1 a) as P. cbv zeta in P.
    destruct (fit_prepare o c1 a) as [c2 [u2|e]]; [|discriminate].
    cbn [fst snd] in P. destruct P as (P1 & P2 & P3 & P4 & P5 & P6). specialize (P6 ltac:(destruct u2; auto)).
    destruct P6 as (at_ & size & m & Q1 & Q2 & Q3 & Q4 & Q5).
    assert (F2 : frame c c2) by (eapply frame_trans; eauto).
    assert (Ea : c_atlas c = Some at_) by (destruct B1 as ((_ & _ & J & _) & _); congruence).
    assert (Ep : c_peaks c1 = c_peaks c) by (destruct B1 as ((J & _) & _); exact J).
    rewrite P2, B2 in H |- *. unfold solve_ransac in H. unfold solve_calls.
    destruct (ransac_candidates o c2 (fa_ctol a)) as [q|e]; [|discriminate].
    change (ransac_xy o (set_c_deg (Some (degree_used a)) c2) (fa_ctol a)) with (ransac_xy o c2 (fa_ctol a)) in H |- *.
    destruct (ransac_xy o c2 (fa_ctol a)) as [[x y]|e] eqn:Exy; [|discriminate].
    assert (Hend : forall c3 r, fit_end c3 r = (c', Ok v) ->
      rr_p r = Some (fv_coeff v) /\ fv_mpeaks v = c_mpeaks c3 /\ fv_matlas v = c_matlas c3 /\
      fv_rms v = rr_err r /\ fv_resid v = rr_resid r).
    { intros c3 r He. unfold fit_end in He. destruct (c_atlas c3); [|discriminate].
      destruct (utilisation _ _); [|discriminate]. destruct (utilisation _ _); [|discriminate].
      destruct (rr_p r) as [co|]; [|discriminate]. injection He as <- <-. cbn. tauto. }
    destruct (Nat.leb_spec (List.length (np_unique x)) (degree_used a)) as [L|L].
    { exfalso. injection H as H. apply Hend in H. destruct H as (H & _). discriminate. }
    change (r_sample (c_rp (set_c_deg (Some (degree_used a)) c2))) with (r_sample (c_rp c2)) in H |- *.
    rewrite Q4 in H |- *.
    change (ransac_setup o (set_c_deg (Some (degree_used a)) c2)) with (ransac_setup o c2) in H |- *.
    destruct (ransac_setup o c2 x y _ _ _ _ _) as [[[f samples] s0]|e] eqn:Eset; [|discriminate].
    destruct (run_samples o fuel f s0 samples) as [s|s e|s] eqn:Erun; [|discriminate|discriminate].
    destruct (ransac_result (degree_used a) s) as [r|e] eqn:Er; [|discriminate].
    injection H as H. apply Hend in H. destruct H as (H1 & H2 & H3 & H4 & H5).
    assert (Err : rr_p r = s_p s /\ rr_err r = s_err s /\ rr_resid r = s_resid s).
    { unfold ransac_result in Er. destruct (mseq_len (s_mp s)); [|discriminate]. destruct (mseq_len (s_ma s)); [|discriminate].
      match type of Er with (if ?b then _ else _) = _ => destruct b end; [|discriminate]. injection Er as <-. auto. }
    destruct Err as (R1 & R2 & R3).
    exists c2, x, y, f, samples, s0, s, at_, (adjusted_size a (atlas_len at_) size), m.
    split; auto. split; [congruence|]. split; auto. split; [exact Q4|]. split; [congruence|].
    split; [rewrite <- Ep; exact Q5|]. split; [exact Exy|]. split; [reflexivity|].
    split; [exact Eset|]. split; [exact Erun|]. split; [reflexivity|]. split; [congruence|].
    split; [rewrite H2; reflexivity|]. split; [rewrite H3; reflexivity|]. split; congruence.
  Qed.
End Inside.

Lemma adjusted_enough na np m : (m <= INR na)%R -> (m <= INR np)%R -> adjusted_matches na np (Fin m) = Fin m.
Proof.
  intros H1 H2. unfold adjusted_matches. rewrite !nnat_Fin.
  change (Fin (INR na) <' Fin m) with (Rltb (INR na) m).
  destruct (Rltb_spec (INR na) m) as [L|_]; [lra|].
  change (Fin (INR np) <' Fin m) with (Rltb (INR np) m).
  destruct (Rltb_spec (INR np) m) as [L|_]; [lra|reflexivity].
Qed.

(** C125 in terms of a call of fit: among candidates (the attributes candidate_peak and
    candidate_arc) of which those on the polynomial co are mixed with any wrong ones, a
    fit that returns and that has made one trial fit to right candidates only returns
    co, with every peak matched with its right line and no residual. *)
Lemma decoys_session_main :
  forall (o : oracle xr) (c : calib xr) (a : fit_args xr) (co us x y : list R) fuel c' v d,
    spline_not_negative o -> exact_polyfit o (fa_deg a) co -> exact_robust o (fa_deg a) co us ->
    decoy_session c a co us x y -> fit_candidates o c a = Some (map Fin x, map Fin y) ->
    fit o fuel c a = Some (c', Ok v) ->
    finite_fits o (fa_deg a) (fit_calls o fuel c a) ->
    In d (fit_calls o fuel c a) -> true_sample (fa_deg a) co d ->
    fv_coeff v = map Fin co /\
    fv_mpeaks v = MList (map Fin us) /\ fv_matlas v = MList (map Fin (map (poly co) us)) /\
    fv_rms v = Fin 0 /\ fv_resid v = Some (map (fun _ => Fin 0) us).
Proof.
  intros o c a co us x y fuel c' v d Hspl Hpf Hrob
    [(A1 & A2) (Lxy & Hus) Htrue Hs (Lco & Hd) Hkn (tol & Ht & Ht0) (lo & hi & Hi1 & Hi2 & Hic) Hinc (px & Hpx)
     (m & t & at_ & Ha & Hm1 & Hm2 & Hm & Hm3 & Hu & Hu2 & Huna) (e & He & He0) (w & Hw & Hw0)] Hcand Hfit Hfin Hin Hsmp.
  destruct (fit_inside o fuel c a c' v Hfit) as
    (c2 & x' & y' & f & samples & s0 & s & at' & size & m' & F & Fk & Ha' & Fs & Fm & Fm2 & Fxy & Fc & Fset & Frun & Fcalls & V1 & V2 & V3 & V4 & V5).
  assert (x' = map Fin x /\ y' = map Fin y) as (-> & ->) by (rewrite Hcand in Fc; injection Fc as <- <-; auto).
  assert (at' = at_) as -> by congruence. assert (m' = Fin m) as -> by congruence.
  rewrite adjusted_enough in Fm2 by auto.
  rewrite A2 in Fset. assert (Ed : degree_used a = fa_deg a) by (unfold degree_used; rewrite A2; reflexivity).
  rewrite Ed in Fset.
  destruct F as (Fi & Fg & Fr). unfold same_input in Fi. unfold same_ransac in Fr.
  rewrite Fcalls in Hfin, Hin. apply in_rev in Hin.
  assert (X : decoy_problem o c2 (fa_ctol a) (fa_deg a) size co us x y).
  { destruct Fi as (I1 & I2 & I3 & I4 & I5 & I6 & I7 & I8 & I9).
    split; auto.
    - congruence.
    - congruence.
    - exists tol. split; [|exact Ht0]. decompose [and] Fr. congruence.
    - exists lo, hi. rewrite I6. auto.
    - exists px. rewrite I5. auto.
    - exists m, t. decompose [and] Fr. rewrite I1. split; [exact Fm2|]. split; [exact Hm3|]. split; [congruence|]. split; auto.
    - exists e. split; [|exact He0]. decompose [and] Fr. congruence.
    - pose proof (ransac_setup_Ok _ _ _ _ _ _ _ _ _ _ _ _ Fset) as
       (_ & _ & _ & _ & _ & _ & _ & _ & _ & _ & _ & Fsp & _).
      assert (Hw2 : r_hweight (c_rp c2) = Some (Fin w)) by (decompose [and] Fr; congruence).
      unfold make_spline in Fsp. rewrite Hw2 in Fsp. unfold usable_density.
      destruct (ho_xedges (c_ht c2)) as [xe|]; [right|left; reflexivity].
      destruct (ho_yedges (c_ht c2)) as [ye|]; [|discriminate]. cbn [need bind] in Fsp.
      destruct xe as [|x0 [|x1 xe]]; [discriminate|discriminate|].
      destruct ye as [|y0 [|y1 ye]]; [discriminate|discriminate|].
      destruct (ho_hist (c_ht c2)) as [h|]; [|discriminate].
      exists x0, x1, xe, y0, y1, ye, h, w. do 4 (split; [auto|]). split; [exact Hw0|]. intros xs ys. apply Hspl. }
  assert (Hfin' : finite_fits o (fa_deg a) (s_log s)).
  { intros d' p Hd'. apply Hfin. apply in_rev in Hd'. exact Hd'. }
  destruct (decoys_search_main o c2 (fa_ctol a) (fa_deg a) size co us x y (fa_tries a) (fa_brute a) fuel f samples s0 s d
    X Fset Frun Hfin' Hin Hsmp) as (G1 & G2 & G3 & G4 & G5 & G6 & G7).
  split; [congruence|]. split; [congruence|]. split; [congruence|]. split; congruence.
Qed.

(** The peaks are at 0, 1 and 4, the atlas has lines at 100, 110, 110.5 and 140, the
    candidates contain the wrong (1, 110.5), and the first two peaks are drawn: the fit
    gives 100 + 10 u. *)
Example decoys_session_example_main :
  exists c' v,
    spline_not_negative dc_o /\ exact_polyfit dc_o 1 [100; 10]%R /\ exact_robust dc_o 1 [100; 10]%R [0; 1; 4]%R /\
    decoy_session dc_c dc_a [100; 10]%R [0; 1; 4]%R [0; 1; 1; 4]%R [100; 110; 221 / 2; 140]%R /\
    fit_candidates dc_o dc_c dc_a = Some (map Fin [0; 1; 1; 4]%R, map Fin [100; 110; 221 / 2; 140]%R) /\
    fit dc_o 3 dc_c dc_a = Some (c', Ok v) /\
    finite_fits dc_o 1 (fit_calls dc_o 3 dc_c dc_a) /\
    In ([Fin 0; Fin 1], [Fin 100; Fin 110]) (fit_calls dc_o 3 dc_c dc_a) /\
    true_sample 1 [100; 10]%R ([Fin 0; Fin 1], [Fin 100; Fin 110]) /\
    fv_coeff v = map Fin [100; 10]%R.
Proof.
  destruct decoys_example_main as (c1 & c2 & f & l & s0 & s & B & P & X & H1 & H2 & H3 & H4 & H5 & c' & v & H6 & H7).
  exists c', v.
  assert (Hc : fit_candidates dc_o dc_c dc_a = Some (map Fin dc_x, map Fin dc_y)).
  { unfold fit_candidates. rewrite B, P, (proj1 (dp_candidates _ _ _ _ _ _ _ _ _ X)). reflexivity. }
  split; [intros xs ys h; eexists; split; [reflexivity|]; intros a b; exists 1%R; split; [reflexivity|lra]|].
  split; [exact (dp_polyfit _ _ _ _ _ _ _ _ _ X)|]. split; [exact (dp_robust _ _ _ _ _ _ _ _ _ X)|].
  split.
  { split.
    - split; reflexivity.
    - split; [reflexivity|exact (dp_peaks _ _ _ _ _ _ _ _ _ X)].
    - exact (dp_true _ _ _ _ _ _ _ _ _ X).
    - exact (dp_sorted _ _ _ _ _ _ _ _ _ X).
    - exact (dp_degree _ _ _ _ _ _ _ _ _ X).
    - reflexivity.
    - exists 1%R. split; [reflexivity|lra].
    - exists 50%R, 150%R. split; [reflexivity|]. split; [reflexivity|]. cbn. lra.
    - exact (dp_increasing _ _ _ _ _ _ _ _ _ X).
    - exists [0; 1; 2; 3; 4]%R. reflexivity.
    - exists 3%R, 0%R. eexists. split; [reflexivity|]. split; [cbn; lra|]. split; [cbn; lra|]. split; [reflexivity|].
      split; [cbn; lra|]. split; [reflexivity|]. split; [cbn; lra|exact dc_unambiguous].
    - exists 0%R. split; [reflexivity|lra].
    - exists 1%R. split; [reflexivity|lra]. }
  split; [exact Hc|]. split; [exact H6|]. split; [apply dc_finite|].
  split; [|split; [exact H5|exact H7]].
  destruct (fit_inside dc_o 3 dc_c dc_a c' v H6) as
    (c2' & x' & y' & f' & l' & s0' & s' & at' & size & m' & F & Fk & Ha' & Fs & Fm & Fm2 & Fxy & Fc & Fset & Frun & Fcalls & _).
  unfold fit_calls. change (fa_coeff dc_a) with (@None (list xr)). cbv iota beta. rewrite B, P.
  unfold solve_calls.
  change (degree_used dc_a) with 1%nat.
  change (ransac_xy dc_o (set_c_deg (Some 1%nat) c2) (fa_ctol dc_a)) with (ransac_xy dc_o c2 (fa_ctol dc_a)).
  change (r_sample (c_rp (set_c_deg (Some 1%nat) c2))) with (r_sample (c_rp c2)).
  rewrite (proj1 (dp_candidates _ _ _ _ _ _ _ _ _ X)), (dp_size _ _ _ _ _ _ _ _ _ X).
  assert (Hq : exists q, ransac_candidates dc_o c2 (fa_ctol dc_a) = Ok q).
  { pose proof (proj1 (dp_candidates _ _ _ _ _ _ _ _ _ X)) as Hx. unfold ransac_xy in Hx.
    destruct (ransac_candidates dc_o c2 (fa_ctol dc_a)); [eauto|discriminate]. }
  destruct Hq as (q & Eq).
  change (ransac_candidates dc_o (set_c_deg (Some 1%nat) c2) (fa_ctol dc_a)) with (ransac_candidates dc_o c2 (fa_ctol dc_a)).
  try rewrite Eq.
  assert (Eu : np_unique (map Fin dc_x) = map Fin ex_us) by exact dc_unique1.
  change (map Fin [0; 1; 1; 4]%R) with (map Fin dc_x). rewrite Eu. 
  change (Nat.leb (List.length (map Fin ex_us)) 1) with false. cbv iota beta.
  change (ransac_setup dc_o (set_c_deg (Some 1%nat) c2)) with (ransac_setup dc_o c2).
  assert (Ec : c_coeff c2 = None).
  { pose proof (fit_begin_spec dc_c dc_a) as Bs. rewrite B in Bs. cbn [fst snd] in Bs. destruct Bs as (_ & Bs & _).
    pose proof (fit_prepare_spec dc_o c1 dc_a) as Ps. cbv zeta in Ps. rewrite P in Ps. cbn [fst snd] in Ps. destruct Ps as (_ & Ps & _).
    rewrite Ps, Bs. reflexivity. }
  try rewrite Ec. change (fa_coeff dc_a) with (@None (list xr)). change (fa_tries dc_a) with 1%nat. change (fa_brute dc_a) with false.
  change (map Fin dc_x) with (map Fin [0; 1; 1; 4]%R). rewrite H1, H2. apply -> in_rev. exact H4.
Qed.

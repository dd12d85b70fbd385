(** * Main_Again: fit does not depend on earlier results; repeating a fit. *)

From Coq Require Import ZArith Bool List String Lia Reals Lra Sorted Permutation.
From Verif Require Import Num F64 XReal Py Np NpFacts ArgsortFacts Util UtilFacts Models Atlas AtlasFacts SpecAtlas Hough SpecHough HoughFacts PolyEval Calib SpecCalib CalibFacts Main_Calib Cand SpecCand CandFacts Ransac SpecRansac RansacFacts Main_Ransac Fit SpecFit FitFacts Main_Fit Main_Limits SpecAgain.
Import ListNotations.
Local Open Scope num_scope.

Section Again.
  Context {A : Type} {N : Num A}.

  (** The question of c with the results of d. *)
  Definition graft (c d : calib A) : calib A :=
    mkCal (c_peaks c) (c_spectrum d) (c_atlas c) (c_known c) (c_gp c) (c_hp c) (c_rp c) (c_cand_tol d) (c_constrain d)
      (c_pairs c) (c_ht c) (c_lines c) (c_points c) (c_mpeaks d) (c_matlas d) (c_coeff d) (c_kind d) (c_deg d) (c_rms d)
      (c_resid d) (c_putil d) (c_autil d) (c_residuals d).

  Lemma graft_eq (c d : calib A) : same_question c d -> d = graft c d.
  Proof.
    destruct d; unfold same_question, graft; cbn.
    intros (-> & -> & -> & -> & -> & -> & -> & -> & -> & ->). reflexivity.
  Qed.
  Lemma graft_same c d : same_question c (graft c d). Proof. repeat split. Qed.
  Lemma same_question_refl (c : calib A) : same_question c c. Proof. repeat split. Qed.

  (** Two states of the search that agree but for the matches of an earlier fit. *)
  Definition sim (s t : rstate A) : Prop :=
    s_p s = s_p t /\ s_cost s = s_cost t /\ s_err s = s_err t /\ s_resid s = s_resid t /\ s_inl s = s_inl t /\
    s_rng s = s_rng t /\ s_log s = s_log t /\ (s_p s = None \/ (s_mp s = s_mp t /\ s_ma s = s_ma t)).

  Definition tried_sim (a b : tried) : Prop :=
    match a, b with
    | TContinue, TContinue => True
    | TNext s, TNext t => sim s t
    | TRaise s e, TRaise t e' => sim s t /\ e = e'
    | _, _ => False
    end.
  Definition outcome_sim (a b : Ransac.outcome) : Prop :=
    match a, b with
    | Done s, Done t => sim s t
    | Fail s e, Fail t e' => sim s t /\ e = e'
    | Out s, Out t => sim s t
    | _, _ => False
    end.

  Lemma consider_sim o f s t cost err mx my : sim s t -> tried_sim (consider o f s cost err mx my) (consider o f t cost err mx my).
  Proof.
    intros S. unfold consider. cbv zeta.
    destruct (Nat.leb _ _); [exact I|].
    destruct (robust_polyfit _ _ _ _ _) as [co|e].
    - destruct (_ <' f_minerr f); [exact I|]. destruct (_ <' f_minmatch f); [exact I|].
      destruct (_ <' f_minutil f *' _); [exact I|].
      destruct S as (E1 & E2 & E3 & E4 & E5 & E6 & E7 & E8).
      assert (S' : forall co rms resid n mp ma, sim (mkRS co cost rms resid n mp ma (s_rng s) (s_log s))
                     (mkRS co cost rms resid n mp ma (s_rng t) (s_log t))).
      { intros. unfold sim. cbn. rewrite E6, E7. repeat split; auto. }
      destruct (_ && _); [apply S'|split; [apply S'|auto]].
    - destruct e; first [exact I|split; auto].
  Qed.

  Lemma trial_sim o f s t xh yh : sim s t -> tried_sim (trial o f s xh yh) (trial o f t xh yh).
  Proof.
    intros S. unfold trial.
    destruct (o_polyfit _ _ _ _ _) as [co|e]; [|split; auto].
    destruct co as [|c0 co]; [split; auto|]. destruct (f_peaks f) as [|p0 ps]; [split; auto|].
    destruct (_ || _); [exact I|].
    destruct (np_ptp _) as [w|e]; [|split; auto].
    cbv zeta. destruct (nceil _); [|split; auto].
    destruct (negb _); [exact I|].
    destruct (match_bijective _ _ _) as [[[err0 mx] my]|e]; [|split; auto].
    destruct (Nat.eqb _ _); [exact I|].
    destruct (hough_bonus _ _) as [w'|e]; [|split; auto].
    assert (E : s_cost s = s_cost t) by apply S. rewrite <- E.
    destruct (_ <=' s_cost s); [apply consider_sim; auto|exact S].
  Qed.

  Lemma try_sample_sim o f smp fuel : forall s t, sim s t -> outcome_sim (try_sample o fuel f s smp) (try_sample o fuel f t smp).
  Proof.
    induction fuel as [|n IH]; intros s t S; cbn [try_sample]; [exact S|].
    assert (E : s_rng s = s_rng t) by apply S. rewrite <- E.
    destruct (draw o n f (s_rng s) smp) as [|k|e|k xh0 yh0]; [exact S| |split; auto|].
    - destruct S as (E1 & E2 & E3 & E4 & E5 & E6 & E7 & E8). unfold sim, set_rng; cbn. repeat split; auto.
    - destruct (add_known f xh0 yh0) as [xh yh]. cbv zeta.
      assert (S1 : sim (log_fit (xh, yh) (set_rng k s)) (log_fit (xh, yh) (set_rng k t))).
      { destruct S as (E1 & E2 & E3 & E4 & E5 & E6 & E7 & E8). unfold sim, set_rng, log_fit; cbn. rewrite E7. repeat split; auto. }
      pose proof (trial_sim o f _ _ xh yh S1) as T.
      destruct (trial o f (log_fit (xh, yh) (set_rng k s)) xh yh), (trial o f (log_fit (xh, yh) (set_rng k t)) xh yh);
        try contradiction; auto.
  Qed.

  Lemma run_samples_sim o f fuel : forall l s t, sim s t -> outcome_sim (run_samples o fuel f s l) (run_samples o fuel f t l).
  Proof.
    induction l as [|smp l IH]; intros s t S; cbn [run_samples]; [exact S|].
    pose proof (try_sample_sim o f smp fuel s t S) as T.
    destruct (try_sample o fuel f s smp), (try_sample o fuel f t smp); try contradiction; auto.
  Qed.

  Definition no_solution (r : res (rresult A)) : Prop := match r with Raise _ => True | Ok r => rr_p r = None end.

  Lemma result_none deg s : s_p s = None -> no_solution (ransac_result deg s).
  Proof.
    intros E. unfold ransac_result. destruct (mseq_len (s_mp s)), (mseq_len (s_ma s)); try exact I.
    destruct (_ && _); [exact E|exact I].
  Qed.

  Definition solve_same (a b : option (calib A * res (rresult A))) : Prop :=
    match a, b with
    | None, None => True
    | Some (c, r), Some (d, q) =>
        same_question c d /\
        ((no_solution r /\ no_solution q) \/ (r = q /\ c_mpeaks d = c_mpeaks c /\ c_matlas d = c_matlas c))
    | _, _ => False
    end.

  Lemma solve_forgets o fuel c d deg tries coeff ctol brute :
    same_question c d -> c_coeff d = c_coeff c -> c_kind d = c_kind c ->
    solve_same (solve_ransac o fuel c deg tries coeff ctol brute) (solve_ransac o fuel d deg tries coeff ctol brute).
  Proof.
    intros S Ec Ek. rewrite (graft_eq _ _ S).
    assert (Hd : exists d', d' = set_c_kind (c_kind c) (set_c_coeff (c_coeff c) (graft c d)) /\ d' = graft c d).
    { exists (graft c d). split; auto. unfold graft at 1. rewrite Ec, Ek. reflexivity. }
    destruct Hd as (d' & E & E'). rewrite <- E', E. clear E E' Ec Ek S d'.
    set (d' := set_c_kind _ _).
    unfold solve_ransac.
    change (ransac_candidates o d' ctol) with (ransac_candidates o c ctol).
    destruct (ransac_candidates o c ctol) as [q|e]; [|split; [repeat split|left; split; exact I]].
    cbv zeta.
    change (ransac_xy o (set_c_deg (Some deg) d') ctol) with (ransac_xy o c ctol).
    change (ransac_xy o (set_c_deg (Some deg) c) ctol) with (ransac_xy o c ctol).
    destruct (ransac_xy o c ctol) as [[x y]|e]; [|split; [repeat split|left; split; exact I]].
    destruct (Nat.leb _ deg); [split; [repeat split|left; split; reflexivity]|].
    change (r_sample (c_rp (set_c_deg (Some deg) d'))) with (r_sample (c_rp c)).
    change (r_sample (c_rp (set_c_deg (Some deg) c))) with (r_sample (c_rp c)).
    destruct (r_sample (c_rp c)) as [size|]; [|split; [repeat split|left; split; exact I]].
    set (n := List.length (np_unique x)).
    assert (S2 : same_question (if brute || Nat.leb n size then set_sample n (set_c_deg (Some deg) c) else set_c_deg (Some deg) c)
                   (if brute || Nat.leb n size then set_sample n (set_c_deg (Some deg) d') else set_c_deg (Some deg) d')).
    { destruct (brute || Nat.leb n size); repeat split. }
    assert (Es : match ransac_setup o (set_c_deg (Some deg) c) x y deg size tries coeff brute,
                       ransac_setup o (set_c_deg (Some deg) d') x y deg size tries coeff brute with
                 | Ok (f, l, s0), Ok (f', l', s0') => f' = f /\ l' = l /\ sim s0 s0'
                 | Raise e, Raise e' => e = e'
                 | _, _ => False
                 end).
    { unfold ransac_setup. cbv zeta.
      change (c_ht (set_c_deg (Some deg) d')) with (c_ht c). change (c_ht (set_c_deg (Some deg) c)) with (c_ht c).
      change (c_rp (set_c_deg (Some deg) d')) with (c_rp c). change (c_rp (set_c_deg (Some deg) c)) with (c_rp c).
      change (c_kind (set_c_deg (Some deg) d')) with (c_kind c). change (c_kind (set_c_deg (Some deg) c)) with (c_kind c).
      change (c_hp (set_c_deg (Some deg) d')) with (c_hp c). change (c_hp (set_c_deg (Some deg) c)) with (c_hp c).
      change (c_gp (set_c_deg (Some deg) d')) with (c_gp c). change (c_gp (set_c_deg (Some deg) c)) with (c_gp c).
      destruct (make_spline o (c_ht c) (r_hweight (c_rp c))) as [sp|]; cbn [bind]; [|reflexivity].
      destruct (need (c_kind c)) as [k|]; cbn [bind]; [|reflexivity].
      match goal with |- context[@bind ?U ?V ?X ?f] => destruct X as [best|]; cbn [bind]; [|reflexivity] end.
      destruct (if brute then Ok [] else sampling_prob (np_unique x)) as [prob|]; cbn [bind]; [|reflexivity].
      destruct (need (r_tol (c_rp c))); cbn [bind]; [|reflexivity].
      destruct (need (h_min_intercept (c_hp c))); cbn [bind]; [|reflexivity].
      destruct (need (h_max_intercept (c_hp c))); cbn [bind]; [|reflexivity].
      destruct (need (g_pixels (c_gp c))); cbn [bind]; [|reflexivity].
      destruct (need (r_fit_error (c_rp c))); cbn [bind]; [|reflexivity].
      destruct (need (r_matches (c_rp c))); cbn [bind]; [|reflexivity].
      destruct (need (r_util (c_rp c))); cbn [bind]; [|reflexivity].
      split; [reflexivity|]. split; [reflexivity|]. unfold sim; cbn; repeat split; auto. }
    destruct (ransac_setup o (set_c_deg (Some deg) c) x y deg size tries coeff brute) as [[[f l] s0]|e],
             (ransac_setup o (set_c_deg (Some deg) d') x y deg size tries coeff brute) as [[[f' l'] s0']|e']; try contradiction.
    - destruct Es as (-> & -> & Es).
      pose proof (run_samples_sim o f fuel l s0 s0' Es) as R.
      destruct (run_samples o fuel f s0 l) as [s|s e|s], (run_samples o fuel f s0' l) as [t|t e'|t]; try contradiction; try exact I.
      + split; [destruct (brute || Nat.leb n size); repeat split|].
        destruct R as (E1 & E2 & E3 & E4 & E5 & E6 & E7 & [E8|(E8 & E9)]).
        * left. split; apply result_none; congruence.
        * right. unfold ransac_result. rewrite E8, E9, E5, E1, E3, E4. split; [reflexivity|].
          destruct (brute || Nat.leb n size); cbn; split; congruence.
      + split; [destruct (brute || Nat.leb n size); repeat split|]. left. split; exact I.
    - split; [exact S2|]. left; split; exact I.
  Qed.
  Lemma transform_forgets argsort c d brute : same_question c d ->
    same_question (fst (do_hough_transform argsort c brute)) (fst (do_hough_transform argsort d brute)) /\
    snd (do_hough_transform argsort d brute) = snd (do_hough_transform argsort c brute).
  Proof.
    intros S. rewrite (graft_eq _ _ S). clear S.
    unfold do_hough_transform. cbn [graft c_pairs c_hp c_ht].
    destruct (c_pairs c); [repeat split| |]; cbv zeta;
      destruct (set_constraints (c_ht c) (h_min_slope (c_hp c)) (h_max_slope (c_hp c)) (h_min_intercept (c_hp c)) (h_max_intercept (c_hp c))) as [t1 [u|e]]; try (repeat split; fail).
    match goal with |- context[let (t2, r2) := ?X in _] => destruct X as [t2 [u2|e2]] end; [|repeat split].
    match goal with |- context[let (t3, r3) := ?X in _] => destruct X as [t3 [u3|e3]] end; repeat split.
  Qed.

  Lemma fit_hough_forgets argsort c d : same_question c d ->
    same_question (fst (fit_hough argsort c)) (fst (fit_hough argsort d)) /\
    snd (fit_hough argsort d) = snd (fit_hough argsort c).
  Proof.
    intros S. unfold fit_hough. assert (E : c_lines d = c_lines c) by apply S. assert (E' : c_points d = c_points c) by apply S.
    rewrite E, E'. destruct (c_lines c), (c_points c); try (apply transform_forgets; auto). split; auto.
  Qed.

  Lemma prepare_forgets o c d a : same_question c d ->
    same_question (fst (fit_prepare o c a)) (fst (fit_prepare o d a)) /\
    snd (fit_prepare o d a) = snd (fit_prepare o c a).
  Proof.
    intros S. unfold fit_prepare.
    assert (E1 : c_atlas d = c_atlas c) by apply S. assert (E2 : c_rp d = c_rp c) by apply S.
    rewrite E1, E2. destruct (c_atlas c) as [at_|]; [|split; auto]. destruct (r_sample (c_rp c)) as [size|]; [|split; auto].
    cbv zeta. set (n := adjusted_size a (atlas_len at_) size).
    assert (S1 : same_question (set_sample n c) (set_sample n d)).
    { unfold same_question, set_sample in *; cbn. rewrite E2. intuition. }
    destruct (fit_hough_forgets (o_argsort o) _ _ S1) as (S2 & E3).
    destruct (fit_hough (o_argsort o) (set_sample n c)) as [c2 r2], (fit_hough (o_argsort o) (set_sample n d)) as [d2 q2].
    cbn [fst snd] in S2, E3. subst q2. destruct r2; [|split; auto].
    assert (E4 : c_rp d2 = c_rp c2) by apply S2. assert (E5 : c_peaks d2 = c_peaks c2) by apply S2. rewrite E4, E5.
    destruct (r_matches (c_rp c2)) as [m|]; [|split; auto]. split; auto.
    unfold same_question, set_matches in *; cbn. rewrite E4. intuition.
  Qed.

  Lemma end_forgets c d r : same_question c d ->
    c_coeff d = c_coeff c -> c_kind d = c_kind c -> c_deg d = c_deg c ->
    c_mpeaks d = c_mpeaks c -> c_matlas d = c_matlas c ->
    match fit_end c r, fit_end d r with
    | (c', Ok v), (d', Ok w) =>
        v = w /\ same_question c' d' /\ c_coeff d' = c_coeff c' /\ c_kind d' = c_kind c' /\ c_deg d' = c_deg c' /\
        c_mpeaks d' = c_mpeaks c' /\ c_matlas d' = c_matlas c' /\ c_rms d' = c_rms c' /\ c_resid d' = c_resid c' /\
        c_putil d' = c_putil c' /\ c_autil d' = c_autil c'
    | (c', Raise _), (d', Raise _) => same_question c' d'
    | _, _ => False
    end.
  Proof.
    intros S H1 H2 H3 H4 H5. unfold fit_end.
    assert (E1 : c_atlas d = c_atlas c) by apply S. assert (E2 : c_peaks d = c_peaks c) by apply S.
    rewrite E1, E2. destruct (c_atlas c) as [at_|]; [|auto].
    destruct (utilisation _ (List.length _)); [|auto]. destruct (utilisation _ (atlas_len _)); [|auto].
    destruct (rr_p r) as [co|]; [|auto]. cbn. rewrite H4, H5. repeat split; auto; apply S.
  Qed.

  Lemma end_none c r : no_solution (Ok r) -> fst (fit_end c r) = c /\ exists e, snd (fit_end c r) = Raise e.
  Proof.
    cbn. intros E. unfold fit_end. destruct (c_atlas c); [|split; [reflexivity|eexists; reflexivity]].
    destruct (utilisation _ (List.length _)); [|split; [reflexivity|eexists; reflexivity]]. destruct (utilisation _ (atlas_len _)); [|split; [reflexivity|eexists; reflexivity]].
    rewrite E. split; [reflexivity|eexists; reflexivity].
  Qed.

  Lemma solve_deg o fuel c deg tries coeff ctol brute c' r :
    solve_ransac o fuel c deg tries coeff ctol brute = Some (c', Ok r) -> c_deg c' = Some deg.
  Proof.
    unfold solve_ransac. destruct (ransac_candidates o c ctol) as [q0|e0]; [|discriminate]. cbv zeta.
    destruct (ransac_xy o _ ctol) as [[x y]|]; [|discriminate].
    destruct (Nat.leb _ deg); [intros E; assert (set_c_deg (Some deg) c = c') as <- by congruence; reflexivity|].
    destruct (r_sample _) as [size|]; [|discriminate].
    destruct (ransac_setup _ _ _ _ _ _ _ _ _) as [[[f l] s0]|]; [|discriminate].
    destruct (run_samples _ _ _ _ _); try discriminate. intros E.
    match type of E with Some (?a, _) = _ => assert (Ec : a = c') by congruence end. rewrite <- Ec.
    destruct (brute || _); reflexivity.
  Qed.

  (** fit from the point where the attributes are set. *)
  Definition fit_rest (o : oracle A) fuel (c1 : calib A) (a : fit_args A) :=
    match fit_prepare o c1 a with
    | (c2, Raise e) => Some (c2, Raise e)
    | (c2, Ok _) =>
        match solve_ransac o fuel c2 (degree_used a) (fa_tries a) (c_coeff c2) (fa_ctol a) (fa_brute a) with
        | None => None
        | Some (c3, Raise e) => Some (c3, Raise e)
        | Some (c3, Ok r) => Some (fit_end c3 r)
        end
    end.

  Definition fit_same (x y : option (calib A * res (fit_value A))) : Prop :=
    match x, y with
    | Some (c', Ok v), Some (d', Ok w) =>
        v = w /\ same_question c' d' /\ c_coeff d' = c_coeff c' /\ c_kind d' = c_kind c' /\ c_deg d' = c_deg c' /\
        c_mpeaks d' = c_mpeaks c' /\ c_matlas d' = c_matlas c' /\ c_rms d' = c_rms c' /\ c_resid d' = c_resid c' /\
        c_putil d' = c_putil c' /\ c_autil d' = c_autil c'
    | Some (c', Raise _), Some (d', Raise _) => same_question c' d'
    | None, None => True
    | _, _ => False
    end.

  (** The search and the end of fit. *)
  Definition search_rest (o : oracle A) fuel (c2 : calib A) (a : fit_args A) :=
    match solve_ransac o fuel c2 (degree_used a) (fa_tries a) (c_coeff c2) (fa_ctol a) (fa_brute a) with
    | None => None
    | Some (c3, Raise e) => Some (c3, Raise e)
    | Some (c3, Ok r) => Some (fit_end c3 r)
    end.

  Lemma search_forgets o fuel c2 d2 a : same_question c2 d2 -> c_coeff d2 = c_coeff c2 -> c_kind d2 = c_kind c2 ->
    fit_same (search_rest o fuel c2 a) (search_rest o fuel d2 a).
  Proof.
    intros S2 Ec Ek. unfold search_rest. rewrite Ec.
    pose proof (solve_forgets o fuel c2 d2 (degree_used a) (fa_tries a) (c_coeff c2) (fa_ctol a) (fa_brute a) S2 Ec Ek) as R.
    destruct (solve_ransac o fuel c2 (degree_used a) (fa_tries a) (c_coeff c2) (fa_ctol a) (fa_brute a)) as [[c3 r]|] eqn:Es,
             (solve_ransac o fuel d2 (degree_used a) (fa_tries a) (c_coeff c2) (fa_ctol a) (fa_brute a)) as [[d3 q]|] eqn:Et;
      try contradiction; [|exact I].
    cbn in R. destruct R as (S3 & R).
    pose proof (solve_frame _ _ _ _ _ _ _ _ _ _ Es) as (_ & F1 & F2 & _).
    pose proof (solve_frame _ _ _ _ _ _ _ _ _ _ Et) as (_ & G1 & G2 & _).
    destruct R as [(R1 & R2)|(<- & M1 & M2)].
    - assert (X : forall c r, no_solution r ->
        match r with Raise e => Some (c, Raise e) | Ok r => Some (fit_end c r) end = Some (c, Raise TypeError) \/
        exists e, match r with Raise e => Some (c, Raise e) | Ok r => Some (fit_end c r) end = Some (c, Raise e)).
      { intros c0 [r0|e0] H; right; eauto. destruct (end_none c0 r0 H) as (X1 & e & X2). exists e.
        destruct (fit_end c0 r0); cbn in *; congruence. }
      destruct (X c3 r R1) as [->|(e & ->)], (X d3 q R2) as [->|(e' & ->)]; exact S3.
    - destruct r as [r|e]; [|exact S3].
      pose proof (end_forgets c3 d3 r S3 ltac:(congruence) ltac:(congruence)
        ltac:(rewrite (solve_deg _ _ _ _ _ _ _ _ _ _ Es), (solve_deg _ _ _ _ _ _ _ _ _ _ Et); reflexivity) M1 M2) as X.
      unfold fit_same. destruct (fit_end c3 r) as [c4 [v|e]], (fit_end d3 r) as [d4 [w|e']]; exact X.
  Qed.

  Lemma rest_forgets o fuel c d a : same_question c d -> c_coeff d = c_coeff c -> c_kind d = c_kind c ->
    fit_same (fit_rest o fuel c a) (fit_rest o fuel d a).
  Proof.
    intros S Ec Ek. unfold fit_rest.
    destruct (prepare_forgets o c d a S) as (S2 & E2).
    pose proof (fit_prepare_spec o c a) as (_ & P1 & P2 & _). pose proof (fit_prepare_spec o d a) as (_ & Q1 & Q2 & _).
    destruct (fit_prepare o c a) as [c2 r2], (fit_prepare o d a) as [d2 q2]. cbn [fst snd] in *. subst q2.
    destruct r2; [|exact S2]. apply (search_forgets o fuel c2 d2 a); congruence || auto.
  Qed.

  Lemma fit_begin_rest o fuel c a : fa_coeff a <> Some [] ->
    fit o fuel c a = match fit_begin c a with (c1, Raise e) => Some (c1, Raise e) | (c1, Ok _) => fit_rest o fuel c1 a end.
  Proof. intros H. unfold fit, fit_rest. destruct (fa_coeff a) as [[|]|]; congruence || reflexivity. Qed.
End Again.

(** What fit returns, and whether it raises or does not end, depends only on what the
    user supplied and on the Hough transform in use: two calibrators that agree on these
    give the same answer, and agree on them afterwards. *)
Lemma fit_ignores_earlier_results_main :
  forall (A : Type) (N : Num A) (o : oracle A) fuel (c d : calib A) (a : fit_args A),
    same_question c d ->
    match fit o fuel c a, fit o fuel d a with
    | Some (c', Ok v), Some (d', Ok w) =>
        v = w /\ same_question c' d' /\ c_coeff d' = c_coeff c' /\ c_kind d' = c_kind c' /\ c_deg d' = c_deg c' /\
        c_mpeaks d' = c_mpeaks c' /\ c_matlas d' = c_matlas c' /\ c_rms d' = c_rms c' /\ c_resid d' = c_resid c' /\
        c_putil d' = c_putil c' /\ c_autil d' = c_autil c'
    | Some (c', Raise _), Some (d', Raise _) => same_question c' d'
    | None, None => True
    | _, _ => False
    end.
Proof.
  intros A N o fuel c d a S. change (fit_same (fit o fuel c a) (fit o fuel d a)).
  destruct (match fa_coeff a with Some [] => true | _ => false end) eqn:E.
  - unfold fit. destruct (fa_coeff a) as [[|]|]; try discriminate. exact S.
  - assert (H : fa_coeff a <> Some []) by (intros K; rewrite K in E; discriminate).
    rewrite !fit_begin_rest by auto. unfold fit_begin. destruct (fa_type a) as [k|].
    + apply rest_forgets; try reflexivity. unfold same_question in *; cbn. intuition.
    + cbn. unfold same_question in *; cbn. intuition.
Qed.

(** The hypothesis: a calibrator after a fit, and a fresh one with the same settings but
    the transform of the first; the second fit of the same calibrator starts from four
    matches, a stored polynomial and its figures. *)
Example fit_ignores_earlier_results_example_main :
  match fit o_ex 60 c_session a_session with
  | Some (c', Ok v) =>
      let d := set_c_points (c_points c') (set_c_lines (c_lines c') (set_c_ht (c_ht c') (set_c_rp (c_rp c') c_session))) in
      same_question c' d /\ c_mpeaks d = MList [] /\ c_mpeaks c' = MList ex_peaks /\ c_coeff d = None /\ c_coeff c' <> None /\
      match fit o_ex 60 d a_session with Some (_, Ok w) => v = w | _ => False end
  | _ => False
  end.
Proof.
  vm_compute. repeat split. discriminate.
Qed.

Lemma adjusted_matches_twice {A} {N : Num A} {O : NumOrder A} k p (m : A) :
  adjusted_matches k p (adjusted_matches k p m) = adjusted_matches k p m.
Proof.
  destruct (adjusted_least k p m) as (_ & _ & E1 & E2). set (m' := adjusted_matches k p m) in *. clearbody m'.
  unfold adjusted_matches. rewrite E1, E2. reflexivity.
Qed.

Lemma transform_sets {A} {N : Num A} argsort (c : calib A) brute :
  snd (do_hough_transform argsort c brute) = Ok tt ->
  c_lines (fst (do_hough_transform argsort c brute)) <> None /\ c_points (fst (do_hough_transform argsort c brute)) <> None.
Proof.
  unfold do_hough_transform. destruct (c_pairs c); [discriminate| |]; cbv zeta;
    destruct (set_constraints _ _ _ _ _) as [t1 [u|e]]; try discriminate.
  match goal with |- context[let (t2, r2) := ?X in _] => destruct X as [t2 [u2|e2]] end; [|discriminate].
  destruct (h_xbins (c_hp c)) as [xb|]; [|discriminate]. destruct (h_ybins (c_hp c)) as [yb|]; [|discriminate].
  unfold bin_hough_points. destruct (ho_points t2) as [[pts| |]|] eqn:Ep; try discriminate.
  destruct (bin_edges (map fst pts) xb) as [xe|]; [|discriminate].
  destruct (bin_edges (map snd pts) yb) as [ye|]; [|discriminate].
  cbn. split; discriminate.
Qed.

Lemma solve_keeps_hough {A} {N : Num A} (o : oracle A) fuel c deg tries coeff ctol brute c' r :
  solve_ransac o fuel c deg tries coeff ctol brute = Some (c', r) ->
  c_ht c' = c_ht c /\ c_points c' = c_points c.
Proof.
  unfold solve_ransac. destruct (ransac_candidates o c ctol) as [q0|e0]; [|intros E; injection E as <- <-; auto]. cbv zeta.
  destruct (ransac_xy o _ ctol) as [[x y]|]; [|intros E; injection E as <- <-; auto].
  destruct (Nat.leb _ deg); [intros E; injection E as <- <-; auto|].
  destruct (r_sample _) as [size|]; [|intros E; injection E as <- <-; auto].
  set (b := brute || _). clearbody b.
  destruct (ransac_setup _ _ _ _ _ _ _ _ _) as [[[f l] s0]|].
  - destruct (run_samples _ _ _ _ _); try discriminate; intros E.
    all: match type of E with Some (?a, _) = _ => assert (Ec : a = c') by congruence end; rewrite <- Ec; destruct b; split; reflexivity.
  - intros E. match type of E with Some (?a, _) = _ => assert (Ec : a = c') by congruence end. rewrite <- Ec. destruct b; split; reflexivity.
Qed.

Lemma rp_eq {A} {N : Num A} (c d : calib A) : same_ransac c d -> r_sample (c_rp d) = r_sample (c_rp c) ->
  r_matches (c_rp d) = r_matches (c_rp c) -> c_rp d = c_rp c.
Proof.
  unfold same_ransac. destruct (c_rp c), (c_rp d). cbn. intros (-> & -> & -> & -> & -> & -> & -> & ->) -> ->. reflexivity.
Qed.

(** If fit leaves sample_size as it was, the same fit with the same random decisions
    returns the same and changes nothing any more. *)
Lemma fit_repeatable_partial_main :
  forall (A : Type) (N : Num A) (O : NumOrder A) (o : oracle A) fuel c a c' v,
    fit o fuel c a = Some (c', Ok v) -> r_sample (c_rp c') = r_sample (c_rp c) ->
    fit o fuel c' a = Some (c', Ok v).
Proof.
  intros A N O o fuel c a c' v H Hs.
  assert (Hne : fa_coeff a <> Some []).
  { intros E. unfold fit in H. rewrite E in H. discriminate. }
  pose proof H as Hfit. rewrite fit_begin_rest in H by auto.
  destruct (fa_type a) as [k|] eqn:Ek; [|unfold fit_begin in H; rewrite Ek in H; discriminate].
  assert (B : forall x, fit_begin x a = (set_c_kind (Some k) (set_c_coeff (fa_coeff a) (set_c_deg (Some (degree_used a)) x)), Ok tt)).
  { intros x. unfold fit_begin. rewrite Ek. reflexivity. }
  rewrite B in H. set (c1 := set_c_kind _ _) in H.
  unfold fit_rest in H.
  pose proof (fit_prepare_spec o c1 a) as P. cbv zeta in P.
  assert (Hh : snd (fit_prepare o c1 a) = Ok tt -> c_lines (fst (fit_prepare o c1 a)) <> None /\ c_points (fst (fit_prepare o c1 a)) <> None).
  { unfold fit_prepare. destruct (c_atlas c1) as [at_|]; [|discriminate]. destruct (r_sample (c_rp c1)) as [size|]; [|discriminate].
    cbv zeta. unfold fit_hough. set (c1' := set_sample _ c1).
    assert (X : snd (do_hough_transform (o_argsort o) c1' false) = Ok tt ->
      c_lines (fst (do_hough_transform (o_argsort o) c1' false)) <> None /\ c_points (fst (do_hough_transform (o_argsort o) c1' false)) <> None)
      by apply transform_sets.
    destruct (c_lines c1') eqn:E1; [destruct (c_points c1') eqn:E2|].
    - destruct (r_matches (c_rp c1')); [|discriminate]. cbn [fst snd]. intros _.
      change (c_lines (set_matches ?m ?c)) with (c_lines c). change (c_points (set_matches ?m ?c)) with (c_points c).
      rewrite E1, E2. split; discriminate.
    - destruct (do_hough_transform (o_argsort o) c1' false) as [c2 [u|e]]; [|discriminate]. cbn [fst snd] in X.
      destruct (r_matches (c_rp c2)); [|discriminate]. intros _. apply X. destruct u; auto.
    - destruct (do_hough_transform (o_argsort o) c1' false) as [c2 [u|e]]; [|discriminate]. cbn [fst snd] in X.
      destruct (r_matches (c_rp c2)); [|discriminate]. intros _. apply X. destruct u; auto. }
  destruct (fit_prepare o c1 a) as [c2 [[]|e]]; [|discriminate].
  cbn [fst snd] in P, Hh. destruct P as (F2 & P2 & P3 & P4 & P5 & P6). specialize (P6 eq_refl). specialize (Hh eq_refl).
  destruct P6 as (at_ & size & m & Q1 & Q2 & Q3 & Q4 & Q5).
  change (search_rest o fuel c2 a = Some (c', Ok v)) in H.
  pose proof H as H'. unfold search_rest in H'.
  destruct (solve_ransac o fuel c2 (degree_used a) (fa_tries a) (c_coeff c2) (fa_ctol a) (fa_brute a)) as [[c3 [r|e]]|] eqn:Es; try discriminate.
  pose proof (solve_frame _ _ _ _ _ _ _ _ _ _ Es) as (F3 & G1 & G2 & G3 & G4 & _).
  pose proof (solve_keeps_hough _ _ _ _ _ _ _ _ _ _ Es) as (G5 & G6).
  assert (X : fit_end c3 r = (c', Ok v)) by congruence. clear H'.
  assert (X' : exists co pu au, c' = set_c_autil (Some au) (set_c_putil (Some pu) (set_c_resid (rr_resid r)
                                (set_c_rms (Some (rr_err r)) (set_c_coeff (Some co) c3))))).
  { unfold fit_end in X. destruct (c_atlas c3); [|discriminate].
    destruct (utilisation _ (List.length _)) as [pu|]; [|discriminate]. destruct (utilisation _ (atlas_len _)) as [au|]; [|discriminate].
    destruct (rr_p r) as [co|]; [|discriminate]. exists co, pu, au. congruence. }
  destruct X' as (co & pu & au & Ec').
  (* the second fit *)
  set (d1 := set_c_kind (Some k) (set_c_coeff (fa_coeff a) (set_c_deg (Some (degree_used a)) c'))).
  assert (F23 : frame c1 c3) by (eapply frame_trans; eauto).
  destruct F23 as ((I1 & I2 & I3 & I4 & I5 & I6 & I7 & I8 & I9) & _ & I10).
  assert (Ed : fit_prepare o d1 a = (set_matches (adjusted_matches (atlas_len at_) (List.length (c_peaks c1)) m) (set_sample (adjusted_size a (atlas_len at_) size) d1), Ok tt)).
  { unfold fit_prepare.
    assert (E1 : c_atlas d1 = Some at_) by (unfold d1; subst c'; cbn; congruence).
    assert (E2 : r_sample (c_rp d1) = Some size).
    { unfold d1. cbn [c_rp set_c_kind set_c_coeff set_c_deg]. rewrite Hs. exact Q2. }
    rewrite E1, E2. cbv zeta. unfold fit_hough.
    change (c_lines (set_sample (adjusted_size a (atlas_len at_) size) d1)) with (c_lines c').
    change (c_points (set_sample (adjusted_size a (atlas_len at_) size) d1)) with (c_points c').
    assert (E3 : c_lines c' = c_lines c2) by (subst c'; cbn; auto). assert (E4 : c_points c' = c_points c2) by (subst c'; cbn; auto).
    rewrite E3, E4. destruct Hh as (Hl & Hp). destruct (c_lines c2); [|congruence]. destruct (c_points c2); [|congruence].
    change (r_matches (c_rp (set_sample (adjusted_size a (atlas_len at_) size) d1))) with (r_matches (c_rp c')).
    assert (E5 : r_matches (c_rp c') = Some (adjusted_matches (atlas_len at_) (List.length (c_peaks c1)) m)).
    { rewrite Ec'. exact (eq_trans G3 Q5). }
    rewrite E5. change (c_peaks (set_sample (adjusted_size a (atlas_len at_) size) d1)) with (c_peaks c').
    assert (E6 : c_peaks c' = c_peaks c1) by (subst c'; cbn; auto). rewrite E6, adjusted_matches_twice. reflexivity. }
  set (d2 := set_matches _ _) in Ed.
  assert (S2 : same_question c2 d2).
  { destruct F2 as ((J1 & J2 & J3 & J4 & J5 & J6 & J7 & J8 & J9) & _ & J10).
    unfold d2, d1. subst c'. unfold same_question. cbn [c_peaks c_atlas c_known c_gp c_hp c_pairs c_ht c_lines c_points set_matches set_sample set_c_rp set_c_kind set_c_coeff set_c_deg set_c_autil set_c_putil set_c_resid set_c_rms].
    repeat (split; [congruence|]). split; [|repeat (split; [congruence|]); congruence].
    apply rp_eq; [|symmetry; exact Q4|symmetry; exact Q5].
    unfold same_ransac in *. cbn. destruct I10 as (K1 & K2 & K3 & K4 & K5 & K6 & K7 & K8). destruct J10 as (L1 & L2 & L3 & L4 & L5 & L6 & L7 & L8).
    repeat (split; [congruence|]). congruence. }
  assert (Ec2 : c_coeff d2 = c_coeff c2) by (rewrite P2; reflexivity).
  assert (Ek2 : c_kind d2 = c_kind c2) by (rewrite P3; reflexivity).
  pose proof (search_forgets o fuel c2 d2 a S2 Ec2 Ek2) as Z. rewrite H in Z.
  assert (Efit : fit o fuel c' a = search_rest o fuel d2 a).
  { rewrite fit_begin_rest by auto. rewrite B. fold d1. unfold fit_rest. rewrite Ed. reflexivity. }
  rewrite <- Efit in Z. destruct (fit o fuel c' a) as [[d' [w|e]]|] eqn:Ef; try contradiction.
  cbn [fit_same] in Z. destruct Z as (<- & Z1 & Z2 & Z3 & Z4 & Z5 & Z6 & Z7 & Z8 & Z9 & Z10).
  destruct (fit_keeps_settings_partial_main _ _ _ _ _ _ _ _ _ Ef) as ((_ & Y1 & _ & _ & _ & _ & Y2 & Y3 & _) & _).
  assert (Y4 : c_residuals d' = c_residuals c').
  { destruct (fit_inv _ _ _ _ _ _ Ef) as (x2 & x3 & r' & co' & at' & size' & m' & Fx & _ & _ & _ & _ & _ & _ & _ & Hsol & _ & _ & _ & Ex & _).
    pose proof (solve_frame _ _ _ _ _ _ _ _ _ _ Hsol) as (Fy & _).
    assert (Fz : frame c' x3) by (eapply frame_trans; eauto). destruct Fz as (_ & (_ & _ & _ & _ & T) & _). subst d'. exact T. }
  rewrite (graft_eq _ _ Z1). unfold graft. rewrite Y1, Y2, Y3, Y4, Z2, Z3, Z4, Z5, Z6, Z7, Z8, Z9, Z10.
  assert (T : c' = graft c' c') by (apply graft_eq; apply same_question_refl). unfold graft in T. rewrite <- T. reflexivity.
Qed.

(** In general it does not: with brute force fit replaces sample_size by the number of
    candidate peaks, and the second fit of this session matches three peaks instead of
    four. *)
Lemma fit_repeatable_refuted_main :
  exists h a c' v c'' w,
    let c := after ex_peaks h in
    cal_ok env0 (match calib_init all_inside ex_peaks None with Ok c => c | Raise _ => calib_blank [] None end) h /\
    fit o_ex 60 c a = Some (c', Ok v) /\ fit o_ex 60 c' a = Some (c'', Ok w) /\
    r_sample (c_rp c) = Some 2%nat /\ r_sample (c_rp c') = Some 5%nat /\
    List.length (mseq_vals (fv_mpeaks v)) = 4%nat /\ List.length (mseq_vals (fv_mpeaks w)) = 3%nat.
Proof.
  exists (session 2 (fz 1) [fz 4002; fz 4897; fz 6101; fz 7302; fz 7987] ++
          [ORansac (mkRA None None None None None None None None None (Some (fz 0)))]),
         (mkFA 9 1 None (fz 5) (Some FitPoly) (fz 30) true).
  eexists _, _, _, _. cbv zeta.
  split; [vm_compute; repeat split|]. split; [vm_compute; reflexivity|]. split; [vm_compute; reflexivity|].
  vm_compute. repeat split.
Qed.

Example fit_repeatable_example_main :
  match fit o_ex 60 c_session a_session with
  | Some (c', Ok v) =>
      r_sample (c_rp c') = r_sample (c_rp c_session) /\
      match fit o_ex 60 c' a_session with Some (_, Ok w) => v = w | _ => False end
  | _ => False
  end.
Proof.
  destruct session_answer as (c' & v & E & _ & _ & _ & H & _). rewrite E.
  assert (S : r_sample (c_rp c') = r_sample (c_rp c_session)) by (rewrite H; vm_compute; reflexivity).
  split; [exact S|]. rewrite (fit_repeatable_partial_main _ _ _ _ _ _ _ _ _ E S). reflexivity.
Qed.

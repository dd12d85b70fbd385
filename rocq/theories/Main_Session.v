(** * Main_Session: properties of whole sessions. *)

From Coq Require Import ZArith Bool List String Lia Reals Lra Sorted Permutation.
From Verif Require Import Num F64 XReal Py Np NpFacts ArgsortFacts Util UtilFacts Models Atlas AtlasFacts SpecAtlas Hough SpecHough HoughFacts PolyEval Calib SpecCalib CalibFacts Main_Calib Cand SpecCand CandFacts Ransac SpecRansac RansacFacts Main_Ransac Fit SpecFit FitFacts Main_Fit Main_Limits MatchPeaks SpecMatch MatchFacts Main_Match Main_Edit Main_Pairs Plot SpecAgain Main_Again SpecSession.
Import ListNotations.
Local Open Scope num_scope.

Section Settings.
  Context {A : Type} {N : Num A}.

  (** The settings of c with everything else from d. *)
  Definition reset (c d : calib A) : calib A :=
    mkCal (c_peaks c) (c_spectrum d) (c_atlas c) (c_known c) (c_gp c) (c_hp c)
      (mkR (r_sample (c_rp d)) (r_top (c_rp c)) (r_linear (c_rp c)) (r_close (c_rp c)) (r_tol (c_rp c)) (r_weighted (c_rp c))
         (r_hweight (c_rp c)) (r_matches (c_rp d)) (r_util (c_rp c)) (r_fit_error (c_rp c)))
      (c_cand_tol c) (c_constrain c)
      (c_pairs c) (c_ht d) (c_lines d) (c_points d) (c_mpeaks d) (c_matlas d) (c_coeff d) (c_kind d) (c_deg d) (c_rms d)
      (c_resid d) (c_putil d) (c_autil d) (c_residuals d).

  Lemma reset_eq (c d : calib A) : same_settings c d -> d = reset c d.
  Proof.
    destruct d as [f1 f2 f3 f4 f5 f6 [g1 g2 g3 g4 g5 g6 g7 g8 g9 g10] f8 f9 f10 f11 f12 f13 f14 f15 f16 f17 f18 f19 f20 f21 f22 f23].
    unfold same_settings, same_ransac, reset; cbn.
    intros (-> & -> & -> & -> & -> & -> & -> & -> & (-> & -> & -> & -> & -> & -> & -> & ->) & _). reflexivity.
  Qed.

  Lemma same_settings_refl (c : calib A) : same_settings c c. Proof. repeat split. Qed.
  Lemma same_settings_trans (a b c : calib A) : same_settings a b -> same_settings b c -> same_settings a c.
  Proof.
    unfold same_settings, same_ransac.
    intros (H1 & H2 & H3 & H4 & H5 & H6 & H7 & H8 & (H9 & H10 & H11 & H12 & H13 & H14 & H15 & H16) & H17)
           (G1 & G2 & G3 & G4 & G5 & G6 & G7 & G8 & (G9 & G10 & G11 & G12 & G13 & G14 & G15 & G16) & G17).
    rewrite G1, G2, G3, G4, G5, G6, G7, G8, G9, G10, G11, G12, G13, G14, G15, G16, G17.
    repeat (split; [assumption|]). split; [repeat (split; [assumption|]); assumption|assumption].
  Qed.
  Lemma same_settings_sym (a b : calib A) : same_settings a b -> same_settings b a.
  Proof.
    unfold same_settings, same_ransac.
    intros (H1 & H2 & H3 & H4 & H5 & H6 & H7 & H8 & (H9 & H10 & H11 & H12 & H13 & H14 & H15 & H16) & H17).
    repeat (split; [symmetry; assumption|]). split; [repeat (split; [symmetry; assumption|]); symmetry; assumption|symmetry; assumption].
  Qed.

  Definition same_step (x y : calib A * res unit) : Prop := same_settings (fst x) (fst y) /\ snd y = snd x.

  Ltac solve_same := solve [split; [unfold same_settings, same_ransac; cbn; repeat split; auto|reflexivity]].

  Lemma pairs_settings hull c d : same_settings c d -> same_step (generate_pairs hull c) (generate_pairs hull d).
  Proof.
    intros S. assert (L : option_map (@List.length A) (c_spectrum d) = option_map (@List.length A) (c_spectrum c)) by apply S.
    rewrite (reset_eq _ _ S). clear S.
    unfold generate_pairs. cbn [reset c_atlas c_peaks c_constrain].
    destruct (c_atlas c) as [at_|]; [|solve_same].
    destruct (c_constrain c); [|solve_same].
    change (corners (reset c d)) with (corners c).
    destruct (bind (corners c) _); solve_same.
  Qed.

  Lemma settings_frame (c c' : calib A) : frame c c' -> same_settings c c'.
  Proof.
    intros ((I1 & I2 & I3 & I4 & I5 & I6 & I7 & I8 & I9) & _ & R). unfold same_settings.
    repeat (split; [assumption|]). f_equal. exact I2.
  Qed.

  Lemma general_settings c d n p l : same_settings c d ->
    same_step (set_calibrator_properties c n p l) (set_calibrator_properties d n p l).
  Proof.
    intros S. assert (L : option_map (@List.length A) (c_spectrum d) = option_map (@List.length A) (c_spectrum c)) by apply S.
    unfold set_calibrator_properties.
    replace (match c_spectrum d with
             | Some s => Ok (nnat (List.length s))
             | None => bind (py_max (c_peaks d)) (fun m => Ok (nlit 11 (-1) *' m)) end)
      with (match c_spectrum c with
             | Some s => Ok (nnat (List.length s))
             | None => bind (py_max (c_peaks c)) (fun m => Ok (nlit 11 (-1) *' m)) end).
    2: { assert (P : c_peaks d = c_peaks c) by apply S. rewrite P. clear S P.
         destruct (c_spectrum c), (c_spectrum d); try discriminate; auto. injection L as ->. reflexivity. }
    rewrite (reset_eq _ _ S). clear S.
    change (c_gp (reset c d)) with (c_gp c).
    match goal with |- same_step (match ?X with _ => _ end) _ => destruct X end; [|solve_same].
    destruct (String.eqb _ _); [|destruct (String.eqb _ _)]; solve_same.
  Qed.

  Lemma hough_settings hull c d a : same_settings c d ->
    same_step (set_hough_properties hull c a) (set_hough_properties hull d a).
  Proof.
    intros S. assert (L : option_map (@List.length A) (c_spectrum d) = option_map (@List.length A) (c_spectrum c)) by apply S.
    rewrite (reset_eq _ _ S). clear S.
    unfold set_hough_properties.
    change (c_hp (reset c d)) with (c_hp c). change (c_gp (reset c d)) with (c_gp c).
    change (c_atlas (reset c d)) with (c_atlas c).
    match goal with |- same_step (match ?X with _ => _ end) _ => destruct X end; [|solve_same].
    destruct (g_pixels (c_gp c)) as [px|]; [|solve_same].
    destruct (np_ptp px); [|solve_same].
    destruct (c_atlas c) eqn:Ea; [|solve_same].
    apply pairs_settings. unfold same_settings, same_ransac; cbn; repeat split; auto.
  Qed.

  Lemma set_atlas_settings hull c d a t k : same_settings c d ->
    same_step (set_atlas hull c a t k) (set_atlas hull d a t k).
  Proof.
    intros S. apply pairs_settings. assert (L := S). unfold same_settings, same_ransac in *. cbn. tauto.
  Qed.

  (** Calls that configure do the same to two calibrators with the same settings. *)
  Lemma configure_settings (e : env A) c d op : same_settings c d ->
    same_settings (fst (cal_step e c op)) (fst (cal_step e d op)) /\
    (match op with OTransform _ | OLoad _ _ _ => True | _ => snd (cal_step e d op) = snd (cal_step e c op) end).
  Proof.
    intros S. assert (L : option_map (@List.length A) (c_spectrum d) = option_map (@List.length A) (c_spectrum c)) by apply S.
    destruct op as [n p l| | |a|a|p w|a t k|a t k|u t k|w t| |b|fs nm ft]; cbn [cal_step].
    - apply general_settings; auto.
    - rewrite (reset_eq _ _ S). solve_same.
    - rewrite (reset_eq _ _ S). solve_same.
    - apply hough_settings; auto.
    - rewrite (reset_eq _ _ S). unfold set_ransac_properties. cbn [reset c_rp].
      destruct (negb (match ra_matches a with Some v => _ | None => _ end)); [solve_same|].
      destruct (negb (match ra_util a with Some v => _ | None => _ end)); [solve_same|].
      destruct (negb (match ra_fit_error a with Some v => _ | None => _ end)); solve_same.
    - rewrite (reset_eq _ _ S). unfold set_known_pairs.
      destruct p as [p|], w as [w|]; try solve_same.
      destruct (negb _); [solve_same|]. repeat match goal with |- context [if ?b then _ else _] => destruct b end; solve_same.
    - apply set_atlas_settings; auto.
    - unfold cal_add_atlas.
      assert (Eh : c_hp d = c_hp c) by apply S. assert (Ea : c_atlas d = c_atlas c) by apply S.
      rewrite Eh, Ea.
      destruct (h_minw (c_hp c)) as [minw|]; [|split; [exact S|reflexivity]].
      destruct (h_maxw (c_hp c)) as [maxw|]; [|split; [exact S|reflexivity]].
      destruct (h_rt (c_hp c)) as [rt|]; [|split; [exact S|reflexivity]].
      cbv zeta. destruct (c_atlas c) as [at_|].
      + destruct (atlas_add _ _ _ _) as [at' [u|ex]].
        * apply pairs_settings. unfold same_settings, same_ransac in *. cbn. tauto.
        * split; [|reflexivity]. unfold same_settings, same_ransac in *. cbn. tauto.
      + destruct (atlas_init _ _ _ _ _ _ _ _ _ _ _ _ _) as [at_|ex]; [|split; [exact S|reflexivity]].
        apply pairs_settings. unfold same_settings, same_ransac in *. cbn. tauto.
    - unfold cal_add_user_atlas. assert (Ea : c_atlas d = c_atlas c) by apply S. rewrite Ea. cbv zeta.
      destruct (add_user_atlas _ _) as [at' [v|ex]].
      + apply pairs_settings. unfold same_settings, same_ransac in *. cbn. tauto.
      + split; [|reflexivity]. unfold same_settings, same_ransac in *. cbn. tauto.
    - unfold cal_remove_lines. assert (Ea : c_atlas d = c_atlas c) by apply S. rewrite Ea.
      destruct (c_atlas c); (split; [|reflexivity]); [|exact S]. unfold same_settings, same_ransac in *. cbn. tauto.
    - unfold cal_clear_atlas. assert (Ea : c_atlas d = c_atlas c) by apply S. rewrite Ea.
      destruct (c_atlas c); (split; [|reflexivity]); [|exact S]. unfold same_settings, same_ransac in *. cbn. tauto.
    - split; [|exact I].
      pose proof (transform_frame (e_argsort e) c b) as (F & _). pose proof (transform_frame (e_argsort e) d b) as (G & _).
      apply settings_frame in F. apply settings_frame in G.
      eapply same_settings_trans; [apply same_settings_sym, F|]. eapply same_settings_trans; [exact S|exact G].
    - split; [|exact I]. unfold load_hough_transform.
      destruct (hough_load (c_ht c) fs nm ft), (hough_load (c_ht d) fs nm ft). exact S.
  Qed.
End Settings.

Section Calls.
  Context {A : Type} {N : Num A} {O : NumOrder A}.

  Lemma fit_settings (o : oracle A) fuel c a c' r : fit o fuel c a = Some (c', r) -> same_settings c c'.
  Proof.
    intros H. apply fit_frame in H. destruct H as ((I1 & I2 & I3 & I4 & I5 & I6 & I7 & I8 & I9) & R & _).
    unfold same_settings. repeat (split; [assumption|]). f_equal. exact I2.
  Qed.

  Lemma match_settings (o : oracle A) mini c a : same_settings c (fst (match_peaks o mini c a)).
  Proof.
    unfold match_peaks.
    match goal with |- context [match ?X with Ok _ => _ | Raise _ => _ end] => destruct X as [co|ex] end; [|apply same_settings_refl].
    destruct (mseq_vals co) as [|v0 vs]; [apply same_settings_refl|]. cbv zeta.
    match goal with |- context [match ?X with Ok _ => _ | Raise _ => _ end] => destruct X as [[[new|]|]|ex] end;
      try apply same_settings_refl.
    all: destruct (c_atlas c) as [at_|]; [|apply same_settings_refl].
    all: match goal with |- context [match ?X with Ok _ => _ | Raise _ => _ end] => destruct X as [[xs cand]|ex] end;
      [|apply same_settings_refl].
    all: unfold match_store.
    all: match goal with |- context [match ?X with Ok _ => _ | Raise _ => _ end] => destruct X as [[co' resid]|ex] end;
      [|repeat split].
    all: destruct (negb _); [repeat split|].
    all: destruct (Nat.eqb _ _); [repeat split|].
    all: destruct (Nat.eqb _ _); [repeat split|].
    all: destruct (ma_robust a); [|repeat split].
    all: destruct (robust_polyfit _ _ _ _ _) as [co2|ex]; [|repeat split].
    all: destruct (existsb _ _); [repeat split|].
    all: destruct (polyvals_of _ _ _); repeat split.
  Qed.

  Lemma edit_settings (c : calib A) op : same_settings c (fst (edit_step c op)).
  Proof.
    destruct op as [p w|k]; cbn [edit_step].
    - unfold add_pix_wave_pair. destruct (c_mpeaks c) as [|l|l]; try apply same_settings_refl.
      destruct (np_where _ _); [apply same_settings_refl|].
      destruct (c_matlas c); try apply same_settings_refl; (destruct (Nat.ltb _ _); [apply same_settings_refl|repeat split]).
    - unfold remove_pix_wave_pair. destruct (c_mpeaks c); try apply same_settings_refl;
        destruct (c_matlas c); try apply same_settings_refl;
        (match goal with |- context [match ?X with Ok _ => _ | Raise _ => _ end] => destruct X as [[p' w']|ex] end;
         [repeat split|apply same_settings_refl]).
  Qed.

  Lemma refit_settings (o : oracle A) c a : same_settings c (fst (manual_refit o c a)).
  Proof.
    unfold manual_refit. destruct (refit_start c a) as [[x0 d]|]; [|apply same_settings_refl].
    cbv zeta.
    destruct (match rf_peaks a with MNone => c_mpeaks c | m => m end); try apply same_settings_refl;
    destruct (match rf_atlas a with MNone => c_matlas c | m => m end); try apply same_settings_refl;
    (destruct (negb _); [apply same_settings_refl|]; destruct (robust_polyfit _ _ _ _ _); [|apply same_settings_refl];
     destruct (polyvals_of _ _ _); repeat split).
  Qed.

  Lemma clip_length (s : list A) : List.length (clip_spectrum s) = List.length s.
  Proof. unfold clip_spectrum. apply map_length. Qed.

  Lemma plot_settings (c : calib A) a c' s r : plot_fit c a = (c', s, r) -> same_settings c c'.
  Proof.
    unfold plot_fit. intros H.
    assert (E : c' = match pf_spectrum a with None => set_c_spectrum (plot_spectrum a (c_spectrum c)) c | Some _ => c end) by congruence.
    subst c'. destruct (pf_spectrum a); [apply same_settings_refl|].
    unfold same_settings, same_ransac, plot_spectrum. cbn. repeat split.
    destruct (c_spectrum c) as [l|]; cbn; auto. destruct (pf_log a); auto. rewrite clip_length. reflexivity.
  Qed.

  Lemma other_call_settings (e : env A) c k c' r : call_step e c k = Some (c', r) ->
    match k with Configure _ => True | _ => same_settings c c' end.
  Proof.
    destruct k as [op|o fuel a|o mini a|op|o a|a]; cbn [call_step]; auto; intros H.
    - destruct (fit o fuel c a) as [[c1 r1]|] eqn:E; [|discriminate]. injection H as <- <-. eapply fit_settings; eauto.
    - pose proof (match_settings o mini c a) as S. destruct (match_peaks o mini c a). injection H as <- <-. exact S.
    - pose proof (edit_settings c op) as S. destruct (edit_step c op). injection H as <- <-. exact S.
    - pose proof (refit_settings o c a) as S. destruct (manual_refit o c a). injection H as <- <-. exact S.
    - destruct (plot_fit c a) as [[c1 s1] r1] eqn:E. injection H as <- <-. eapply plot_settings; eauto.
  Qed.

  Lemma session_settings (e : env A) ks : forall c d c', same_settings d c -> session_run e c ks = Some c' ->
    same_settings (cal_run e d (configuration ks)) c'.
  Proof.
    induction ks as [|k r IH]; intros c d c' S H; cbn [session_run] in H.
    - injection H as <-. exact S.
    - destruct (call_step e c k) as [[c1 r1]|] eqn:E; [|discriminate].
      pose proof (other_call_settings _ _ _ _ _ E) as K.
      destruct k; try (cbn [configuration]; eapply IH; [eapply same_settings_trans; [exact S|exact K]|exact H]).
      cbn [configuration]. cbn [call_step] in E. change (cal_run e d (op :: configuration r)) with (cal_run e (fst (cal_step e d op)) (configuration r)).
      eapply IH; [|exact H]. pose proof (configure_settings e d c op S) as (Q & _).
      injection E as E. rewrite E in Q. exact Q.
  Qed.
End Calls.

(** ** The matched pairs *)

Section Matches.
  Context {A : Type} {N : Num A}.

  (** The matched lists are of the same length, or the lines are None. *)
  Definition lined (p w : mseq A) : Prop :=
    p <> MNone /\ (w = MNone \/ List.length (mseq_vals p) = List.length (mseq_vals w)).
  Definition lined_c (c : calib A) : Prop := lined (c_mpeaks c) (c_matlas c).

  Lemma bijective_length (ev : A -> A) d peaks err mx my :
    match_bijective ev d peaks = Ok (err, mx, my) -> List.length mx = List.length my /\ List.length err = List.length my.
  Proof.
    unfold match_bijective. intros H. apply bind_Ok in H. destruct H as (rows & _ & H).
    apply bind_Ok in H. destruct H as (qs & _ & H). destruct (Nat.eqb _ _); [|discriminate].
    assert (E : err = map (fun q => fst (fst q)) qs /\ mx = map (fun q => snd (fst q)) qs /\ my = map snd qs) by (repeat split; congruence).
    destruct E as (-> & -> & ->). rewrite !map_length. auto.
  Qed.

  Lemma mask_len {S T} (m : list bool) : forall (l : list S) (k : list T), List.length l = List.length k ->
    List.length (mask_select m l) = List.length (mask_select m k).
  Proof.
    unfold mask_select. induction m as [|b m IH]; intros [|x l] [|y k] H; try discriminate; auto.
    cbn. destruct b; cbn; [f_equal|]; apply IH; cbn in H; congruence.
  Qed.

  (** What a trial stores. *)
  Definition kept (s s' : rstate A) : Prop :=
    (s_mp s' = s_mp s /\ s_ma s' = s_ma s /\ s_p s' = s_p s) \/
    (exists xs ys, s_mp s' = MList xs /\ s_ma s' = MList ys /\ List.length xs = List.length ys).
  Lemma kept_trans a b c : kept a b -> kept b c -> kept a c.
  Proof.
    unfold kept. intros H [(E1 & E2 & E3)|G]; [|right; exact G]. rewrite E1, E2, E3. exact H.
  Qed.
  Lemma kept_refl s : kept s s. Proof. left; auto. Qed.

  Lemma trial_kept (o : oracle A) f s xh yh :
    match trial o f s xh yh with TContinue => True | TNext s' | TRaise s' _ => kept s s' end.
  Proof.
    unfold trial. destruct (o_polyfit _ _ _ _ _) as [co|]; [|apply kept_refl].
    destruct co as [|c0 co]; [apply kept_refl|]. destruct (f_peaks f) as [|p0 ps] eqn:Ep; [apply kept_refl|].
    destruct (_ || _); auto. rewrite <- Ep.
    destruct (np_ptp _) as [w|]; [|apply kept_refl]. cbv zeta.
    destruct (nceil _); [|apply kept_refl]. destruct (negb _); auto.
    destruct (match_bijective _ _ _) as [[[err mx] my]|] eqn:Em; [|apply kept_refl].
    apply bijective_length in Em. destruct Em as (L & _).
    destruct (Nat.eqb (List.length mx) 0); auto.
    destruct (hough_bonus _ _) as [wt|]; [|apply kept_refl].
    destruct (_ <=' _); [|apply kept_refl].
    unfold consider. cbv zeta. destruct (Nat.leb _ _); auto.
    destruct (robust_polyfit _ _ _ _ _) as [co2|[]]; auto; try apply kept_refl.
    destruct (_ <' _); auto. destruct (_ <' _); auto. destruct (_ <' _); auto.
    assert (K : forall err' (s2 : rstate A), s_mp s2 = MList (mask_select (map (fun e => e <' f_tol f) err') mx) ->
                s_ma s2 = MList (mask_select (map (fun e => e <' f_tol f) err') my) -> kept s s2).
    { intros err' s2 E1 E2. right. eexists _, _. split; [exact E1|]. split; [exact E2|]. apply mask_len; auto. }
    destruct (_ && _); eapply K; cbn; reflexivity.
  Qed.

  Lemma try_sample_kept (o : oracle A) f fuel : forall s smp,
    match try_sample o fuel f s smp with Done s' | Fail s' _ | Out s' => kept s s' end.
  Proof.
    induction fuel as [|n IH]; intros s smp; cbn [try_sample]; [apply kept_refl|].
    destruct (draw o n f (s_rng s) smp) as [|t|e|t xh0 yh0]; try apply kept_refl; [left; auto|].
    destruct (add_known f xh0 yh0) as [xh yh].
    set (s1 := log_fit (xh, yh) (set_rng t s)).
    assert (H1 : kept s s1) by (left; auto).
    pose proof (trial_kept o f s1 xh yh) as T.
    destruct (trial o f s1 xh yh).
    - specialize (IH s1 smp). destruct (try_sample o n f s1 smp); exact (kept_trans _ _ _ H1 IH).
    - exact (kept_trans _ _ _ H1 T).
    - exact (kept_trans _ _ _ H1 T).
  Qed.
  Lemma run_samples_kept (o : oracle A) f fuel smps : forall s,
    match run_samples o fuel f s smps with Done s' | Fail s' _ | Out s' => kept s s' end.
  Proof.
    induction smps as [|smp r IH]; intros s; cbn [run_samples]; [apply kept_refl|].
    pose proof (try_sample_kept o f fuel s smp) as T. destruct (try_sample o fuel f s smp) as [s1|s1 e|s1]; auto.
    specialize (IH s1). destruct (run_samples o fuel f s1 r); exact (kept_trans _ _ _ T IH).
  Qed.

  Lemma solve_kept (o : oracle A) fuel c deg tries coeff ctol brute c' r :
    solve_ransac o fuel c deg tries coeff ctol brute = Some (c', r) ->
    (c_mpeaks c' = c_mpeaks c /\ c_matlas c' = c_matlas c /\ (forall v, r = Ok v -> rr_p v = None)) \/
    (exists xs ys, c_mpeaks c' = MList xs /\ c_matlas c' = MList ys /\ List.length xs = List.length ys).
  Proof.
    unfold solve_ransac. intros H.
    destruct (ransac_candidates o c ctol) as [q|e]; [|left; injection H as <- <-; repeat split; discriminate].
    cbv zeta in H. destruct (ransac_xy o (set_c_deg (Some deg) c) ctol) as [[x y]|e]; [|left; injection H as <- <-; repeat split; discriminate].
    destruct (Nat.leb _ _).
    { left; injection H as <- <-. repeat split. intros v E. injection E as <-. reflexivity. }
    destruct (r_sample (c_rp (set_c_deg (Some deg) c))) as [size|]; [|left; injection H as <- <-; repeat split; discriminate].
    set (c2 := if brute || _ then _ else _) in H.
    assert (E2 : c_mpeaks c2 = c_mpeaks c /\ c_matlas c2 = c_matlas c) by (unfold c2; destruct (brute || _); split; reflexivity).
    clearbody c2. destruct E2 as (E2 & E2').
    destruct (ransac_setup _ _ _ _ _ _ _ _ _) as [[[f samples] s0]|e] eqn:Es;
      [|left; injection H as <- <-; repeat split; auto; discriminate].
    pose proof (ransac_setup_Ok _ _ _ _ _ _ _ _ _ _ _ _ Es) as Q.
    assert (Q' : s_p s0 = None /\ s_mp s0 = c_mpeaks c /\ s_ma s0 = c_matlas c).
    { destruct Q as (_ & _ & _ & _ & _ & _ & _ & _ & _ & _ & _ & _ & _ & _ & _ & _ & _ & _ & _ & _ & _ & Q1 & _ & _ & Q2 & Q3 & _). auto. }
    clear Q. destruct Q' as (Q1 & Q2 & Q3).
    pose proof (run_samples_kept o f fuel samples s0) as K.
    destruct (run_samples o fuel f s0 samples) as [s|s e|s]; [| |discriminate].
    - assert (Ec : c' = set_c_matlas (s_ma s) (set_c_mpeaks (s_mp s) c2)) by congruence.
      assert (Er : r = ransac_result deg s) by congruence. clear H. subst c' r. cbn.
      destruct K as [(K1 & K2 & K3)|K]; [|right; exact K]. left. rewrite K1, K2. split; [exact Q2|]. split; [exact Q3|].
      intros v. unfold ransac_result. destruct (mseq_len (s_mp s)), (mseq_len (s_ma s)); try discriminate.
      destruct (_ && _); [|discriminate]. intros E. injection E as <-. cbn. congruence.
    - assert (Ec : c' = set_c_matlas (s_ma s) (set_c_mpeaks (s_mp s) c2)) by congruence.
      assert (Er : r = Raise e) by congruence. clear H. subst c' r. cbn.
      destruct K as [(K1 & K2 & K3)|K]; [|right; exact K]. left. rewrite K1, K2. repeat split; auto. discriminate.
  Qed.

  Lemma fit_kept (o : oracle A) fuel c a c' r : fit o fuel c a = Some (c', r) ->
    (c_mpeaks c' = c_mpeaks c /\ c_matlas c' = c_matlas c /\ forall v, r <> Ok v) \/
    (exists xs ys, c_mpeaks c' = MList xs /\ c_matlas c' = MList ys /\ List.length xs = List.length ys).
  Proof.
    unfold fit. intros H.
    assert (G : (c' = c /\ forall v, r <> Ok v) \/ match fit_begin c a with
        | (c1, Raise e) => Some (c1, Raise e)
        | (c1, Ok _) =>
            match fit_prepare o c1 a with
            | (c2, Raise e) => Some (c2, Raise e)
            | (c2, Ok _) =>
                match solve_ransac o fuel c2 (degree_used a) (fa_tries a) (c_coeff c2) (fa_ctol a) (fa_brute a) with
                | None => None
                | Some (c3, Raise e) => Some (c3, Raise e)
                | Some (c3, Ok r) => Some (fit_end c3 r)
                end
            end
        end = Some (c', r)).
    { destruct (fa_coeff a) as [[|]|]; [left; split; [congruence|intros v E; congruence]|right; exact H|right; exact H]. }
    clear H. destruct G as [(-> & G)|H]; [left; auto|].
    pose proof (fit_begin_spec c a) as B. destruct (fit_begin c a) as [c1 [u|e]]; cbn [fst snd] in B;
      destruct B as (_ & _ & _ & B1 & B2 & _).
    2: { left. assert (c' = c1 /\ r = Raise e) as (-> & ->) by (split; congruence). repeat split; auto; discriminate. }
    pose proof (fit_prepare_spec o c1 a) as P. cbv zeta in P.
    destruct (fit_prepare o c1 a) as [c2 [u2|e]]; cbn [fst snd] in P; destruct P as (_ & _ & _ & P1 & P2 & _);
      rewrite B1 in P1; rewrite B2 in P2.
    2: { left. assert (c' = c2 /\ r = Raise e) as (-> & ->) by (split; congruence). repeat split; auto; discriminate. }
    destruct (solve_ransac o fuel c2 (degree_used a) (fa_tries a) (c_coeff c2) (fa_ctol a) (fa_brute a))
      as [[c3 r3]|] eqn:Es; [|discriminate].
    pose proof (solve_kept _ _ _ _ _ _ _ _ _ _ Es) as S. rewrite P1, P2 in S.
    destruct r3 as [q|e].
    2: { assert (c' = c3 /\ r = Raise e) as (-> & ->) by (split; congruence).
         destruct S as [(S1 & S2 & _)|S]; [left; repeat split; auto; discriminate|right; exact S]. }
    assert (He : fit_end c3 q = (c', r)) by congruence. unfold fit_end in He.
    assert (Em : c_mpeaks c' = c_mpeaks c3 /\ c_matlas c' = c_matlas c3 /\ (rr_p q = None -> forall v, r <> Ok v)).
    { destruct (c_atlas c3); [|injection He as <- <-; repeat split; discriminate].
      destruct (utilisation _ _); [|injection He as <- <-; repeat split; discriminate].
      destruct (utilisation _ _); [|injection He as <- <-; repeat split; discriminate].
      destruct (rr_p q); injection He as <- <-; repeat split; discriminate. }
    destruct Em as (-> & -> & Em). destruct S as [(S1 & S2 & S3)|S]; [left|right; exact S].
    repeat split; auto.
  Qed.

  Lemma match_kept (o : oracle A) mini c a : 
    let c' := fst (match_peaks o mini c a) in
    (c' = c /\ (forall v, snd (match_peaks o mini c a) = Ok v -> mv_peaks v = MNone)) \/
    (exists xs, c_mpeaks c' = MArr xs /\
       ((c_matlas c' = MNone /\ forall v, snd (match_peaks o mini c a) <> Ok v) \/
        exists ys, c_matlas c' = MArr ys /\ List.length xs = List.length ys)).
  Proof.
    cbv zeta. unfold match_peaks.
    match goal with |- context [match ?X with Ok _ => _ | Raise _ => _ end] => destruct X as [co|ex] end; [|left; split; [auto|discriminate]].
    destruct (mseq_vals co) as [|v0 vs]; [left; split; [auto|discriminate]|]. cbv zeta.
    match goal with |- context [match ?X with Ok _ => _ | Raise _ => _ end] => destruct X as [[[new|]|]|ex] end;
      try (left; split; [auto|discriminate]).
    2: { left. split; auto. intros v E. injection E as <-. reflexivity. }
    all: destruct (c_atlas c) as [at_|]; [|left; split; [auto|discriminate]].
    all: match goal with |- context [match ?X with Ok _ => _ | Raise _ => _ end] => destruct X as [[xs cand]|ex] end;
      [|left; split; [auto|discriminate]].
    all: right; exists xs; unfold match_store.
    all: match goal with |- context [match ?X with Ok _ => _ | Raise _ => _ end] => destruct X as [[co' resid]|ex] eqn:EX end;
      [|split; [reflexivity|left; split; [reflexivity|discriminate]]].
    all: apply bind_Ok in EX; destruct EX as (co3 & Hfit & _); unfold polyfit_of in Hfit;
      destruct (c_kind c); [|discriminate]; destruct xs as [|x xs]; [discriminate|];
      destruct (Nat.eqb_spec (List.length (x :: xs)) (List.length cand)) as [L|]; [|discriminate].
    all: destruct (negb _); [split; [reflexivity|left; split; [reflexivity|discriminate]]|].
    all: cbv zeta.
    all: destruct (Nat.eqb _ _); [split; [reflexivity|right; exists cand; auto]|].
    all: destruct (Nat.eqb _ _); [split; [reflexivity|right; exists cand; auto]|].
    all: destruct (ma_robust a); [|split; [reflexivity|right; exists cand; auto]].
    all: destruct (robust_polyfit _ _ _ _ _) as [co2|ex]; [|split; [reflexivity|right; exists cand; auto]].
    all: destruct (existsb _ _); [split; [reflexivity|right; exists cand; auto]|].
    all: destruct (polyvals_of _ _ _); (split; [reflexivity|right; exists cand; auto]).
  Qed.

  Lemma refit_kept (o : oracle A) c a :
    let c' := fst (manual_refit o c a) in
    (c' = c /\ forall v, snd (manual_refit o c a) <> Ok v) \/ aligned c'.
  Proof.
    cbv zeta. unfold manual_refit. destruct (refit_start c a) as [[x0 d]|]; [|left; split; [reflexivity|discriminate]].
    cbv zeta.
    destruct (match rf_peaks a with MNone => c_mpeaks c | m => m end) as [l|l|] eqn:E1; try (left; split; [reflexivity|discriminate]);
    (destruct (match rf_atlas a with MNone => c_matlas c | m => m end) as [l'|l'|] eqn:E2; try (left; split; [reflexivity|discriminate]));
    (destruct (Nat.eqb_spec (List.length l) (List.length l')) as [L|L]; cbn [mseq_vals];
     [|rewrite (proj2 (Nat.eqb_neq _ _) L); left; split; [reflexivity|discriminate]];
     destruct (negb _); [left; split; [reflexivity|discriminate]|];
     destruct (robust_polyfit _ _ _ _ _); [|left; split; [reflexivity|discriminate]];
     right; destruct (polyvals_of _ _ _); (split; [discriminate|split; [discriminate|exact L]])).
  Qed.

  Lemma cal_step_matches (e : env A) c op :
    c_mpeaks (fst (cal_step e c op)) = c_mpeaks c /\ c_matlas (fst (cal_step e c op)) = c_matlas c.
  Proof.
    assert (GP : forall hull c1, c_mpeaks c1 = c_mpeaks c -> c_matlas c1 = c_matlas c ->
      c_mpeaks (fst (generate_pairs hull c1)) = c_mpeaks c /\ c_matlas (fst (generate_pairs hull c1)) = c_matlas c).
    { intros hull c1 E1 E2. unfold generate_pairs. destruct (c_atlas c1); auto. destruct (c_constrain c1); auto.
      destruct (bind _ _); auto. }
    destruct op as [n p l| | |a|a|p w|a t k|a t k|u t k|w t| |b|fs nm ft]; cbn [cal_step]; auto.
    - unfold set_calibrator_properties.
      match goal with |- context [match ?X with Ok _ => _ | Raise _ => _ end] => destruct X end; auto.
    - unfold set_hough_properties.
      match goal with |- context [match ?X with Ok _ => _ | Raise _ => _ end] => destruct X end; auto.
      destruct (g_pixels (c_gp c)) as [px|]; auto. destruct (np_ptp px); auto. destruct (c_atlas c); auto; apply GP; reflexivity.
    - unfold set_ransac_properties. repeat match goal with |- context [if negb ?b then _ else _] => destruct (negb b) end; auto.
    - unfold set_known_pairs. destruct p, w; auto. destruct (negb _); auto. destruct (existsb _ _); auto. destruct (existsb _ _); auto.
    - apply GP; reflexivity.
    - unfold cal_add_atlas. destruct (h_minw (c_hp c)); auto. destruct (h_maxw (c_hp c)); auto. destruct (h_rt (c_hp c)); auto.
      cbv zeta. destruct (c_atlas c).
      + destruct (atlas_add _ _ _ _) as [at' [|]]; auto; apply GP; reflexivity.
      + destruct (atlas_init _ _ _ _ _ _ _ _ _ _ _ _ _); auto; apply GP; reflexivity.
    - unfold cal_add_user_atlas. cbv zeta. destruct (add_user_atlas _ _) as [at' [|]]; auto; apply GP; reflexivity.
    - unfold cal_remove_lines. destruct (c_atlas c); auto.
    - unfold cal_clear_atlas. destruct (c_atlas c); auto.
    - pose proof (transform_frame (e_argsort e) c b) as (_ & _ & _ & _ & _ & F). exact F.
    - unfold load_hough_transform. destruct (hough_load _ _ _ _). auto.
  Qed.

  Lemma aligned_lined c : aligned c -> lined_c c.
  Proof. intros (H1 & H2 & H3). split; auto. Qed.

  Lemma call_lined (e : env A) c k c' r : call_step e c k = Some (c', r) -> lined_c c -> lined_c c'.
  Proof.
    destruct k as [op|o fuel a|o mini a|op|o a|a]; cbn [call_step]; intros H L.
    - injection H as H. pose proof (cal_step_matches e c op) as (E1 & E2). rewrite H in E1, E2. cbn in E1, E2.
      unfold lined_c. rewrite E1, E2. exact L.
    - destruct (fit o fuel c a) as [[c1 r1]|] eqn:E; [|discriminate]. injection H as <- <-.
      destruct (fit_kept _ _ _ _ _ _ E) as [(K1 & K2 & _)|(xs & ys & K1 & K2 & K3)]; unfold lined_c; rewrite K1, K2;
        [exact L|split; [discriminate|right; exact K3]].
    - pose proof (match_kept o mini c a) as K. cbv zeta in K. destruct (match_peaks o mini c a) as [c1 r1].
      cbn [fst snd] in K. injection H as <- <-.
      destruct K as [(-> & _)|(xs & K1 & [(K2 & _)|(ys & K2 & K3)])]; auto; unfold lined_c; rewrite K1, K2;
        (split; [discriminate|]); [left|right]; auto.
    - assert (H1 : c' = fst (edit_step c op)) by (injection H as ->; reflexivity). subst c'.
      destruct (snd (edit_step c op)) as [u|ex] eqn:Es.
      2: { rewrite (edit_fail _ _ _ Es). exact L. }
      apply aligned_lined. apply edit_step_spec. destruct L as (L1 & L2). split; auto.
      assert (Ew : c_matlas c <> MNone).
      { intros E. destruct op as [p w|n]; cbn [edit_step] in Es; unfold add_pix_wave_pair, remove_pix_wave_pair in Es;
          rewrite E in Es; destruct (c_mpeaks c); try discriminate. destruct (np_where _ _); discriminate. }
      split; auto. destruct L2 as [L2|L2]; [contradiction|exact L2].
    - pose proof (refit_kept o c a) as K. cbv zeta in K. destruct (manual_refit o c a) as [c1 r1]. cbn [fst snd] in K.
      injection H as <- <-. destruct K as [(-> & _)|K]; auto. apply aligned_lined; auto.
    - destruct (plot_fit c a) as [[c1 s1] r1] eqn:E. injection H as <- <-. unfold plot_fit in E.
      assert (E1 : c1 = match pf_spectrum a with None => set_c_spectrum (plot_spectrum a (c_spectrum c)) c | Some _ => c end) by congruence.
      subst c1. destruct (pf_spectrum a); exact L.
  Qed.

  Lemma call_aligned (e : env A) c k c' r : call_step e c k = Some (c', r) -> (is_match k = true -> r = Ok tt) ->
    aligned c -> aligned c'.
  Proof.
    intros H Hm Ha. pose proof (call_lined _ _ _ _ _ H (aligned_lined _ Ha)) as (L1 & L2).
    assert (Ew : c_matlas c' <> MNone); [|split; [exact L1|]; split; [exact Ew|destruct L2; [contradiction|assumption]]].
    destruct Ha as (Ha1 & Ha2 & Ha3). clear L1 L2.
    destruct k as [op|o fuel a|o mini a|op|o a|a]; cbn [call_step] in H.
    - injection H as H. pose proof (cal_step_matches e c op) as (E1 & E2). rewrite H in E1, E2. cbn in E1, E2. congruence.
    - destruct (fit o fuel c a) as [[c1 r1]|] eqn:E; [|discriminate]. injection H as <- <-.
      destruct (fit_kept _ _ _ _ _ _ E) as [(K1 & K2 & _)|(xs & ys & K1 & K2 & K3)]; rewrite K2; [exact Ha2|discriminate].
    - pose proof (match_kept o mini c a) as K. cbv zeta in K. destruct (match_peaks o mini c a) as [c1 r1].
      cbn [fst snd] in K. injection H as <- <-. specialize (Hm eq_refl).
      destruct K as [(-> & _)|(xs & K1 & [(K2 & K3)|(ys & K2 & K3)])]; auto.
      + destruct r1 as [v|ex]; [exfalso; apply (K3 v); auto|discriminate].
      + rewrite K2. discriminate.
    - assert (H1 : c' = fst (edit_step c op)) by (injection H as ->; reflexivity). subst c'.
      apply (edit_step_spec c op). repeat split; auto.
    - pose proof (refit_kept o c a) as K. cbv zeta in K. destruct (manual_refit o c a) as [c1 r1]. cbn [fst snd] in K.
      injection H as <- <-. destruct K as [(-> & _)|K]; auto. apply K.
    - destruct (plot_fit c a) as [[c1 s1] r1] eqn:E. injection H as <- <-. unfold plot_fit in E.
      assert (E1 : c1 = match pf_spectrum a with None => set_c_spectrum (plot_spectrum a (c_spectrum c)) c | Some _ => c end) by congruence.
      subst c1. destruct (pf_spectrum a); exact Ha2.
  Qed.
End Matches.

(** C114: whatever else was called in between and whatever raised, the peaks, the atlas,
    the known pairs, all properties but sample_size and minimum_matches and the pairs
    are those the configuring calls alone would have left; and the length of the
    spectrum stays the same. *)
Lemma session_settings_main :
  forall (A : Type) (N : Num A) (O : NumOrder A) (e : env A) c0 ks c,
    session_run e c0 ks = Some c ->
    same_settings (cal_run e c0 (configuration ks)) c.
Proof.
  intros A N O e c0 ks c H. eapply session_settings; [|exact H]. apply same_settings_refl.
Qed.

(** C114: so the plotting library is still one of the two, and the RANSAC thresholds are
    still valid, in every session. *)
Lemma session_valid_main :
  forall (fexp : f64 -> f64) (e : env f64) peaks spectrum c0 ks c,
    let N := F64num fexp in
    calib_init (e_hull e) peaks spectrum = Ok c0 ->
    session_run e c0 ks = Some c ->
    (which_plotting_library c = Some "matplotlib"%string \/ which_plotting_library c = Some "plotly"%string) /\
    exists u f, r_util (c_rp c) = Some u /\ r_fit_error (c_rp c) = Some f /\
      (nZ 0 <=' u = true /\ u <=' nZ 1 = true) /\ nZ 0 <=' f = true.
Proof.
  intros fexp e peaks spectrum c0 ks c N H0 H.
  pose proof (session_settings_main f64 N (F64order fexp) e c0 ks c H) as S.
  pose proof (one_library_main f64 N e peaks spectrum c0 (configuration ks) H0) as (L & _).
  pose proof (ransac_properties_valid_main fexp e peaks spectrum c0 (configuration ks) H0) as (m & u & f & R1 & R2 & R3 & R4 & R5 & R6).
  destruct S as (S1 & S2 & S3 & S4 & S5 & S6 & S7 & S8 & (T1 & T2 & T3 & T4 & T5 & T6 & T7 & T8) & _).
  split; [unfold which_plotting_library in *; rewrite S4; exact L|].
  exists u, f. split; [exact (eq_trans T7 R2)|]. split; [exact (eq_trans T8 R3)|]. auto.
Qed.

(** C115: as long as no match_peaks raises, in every session the matched peaks and lines
    are two lists of the same length, all of which get_pix_wave_pairs lists. *)
Lemma session_matches_main :
  forall (A : Type) (N : Num A) (e : env A) c0 ks c,
    aligned c0 -> none_raises is_match e c0 ks -> session_run e c0 ks = Some c ->
    aligned c /\
    exists l, get_pix_wave_pairs c = Ok l /\ map snd l = combine (mseq_vals (c_mpeaks c)) (mseq_vals (c_matlas c)) /\
      List.length l = List.length (mseq_vals (c_mpeaks c)).
Proof.
  intros A N e c0 ks c Ha Hn H.
  assert (Hal : aligned c).
  { revert c0 Ha Hn H. induction ks as [|k r IH]; intros c0 Ha Hn H; cbn in H, Hn; [injection H as <-; exact Ha|].
    destruct (call_step e c0 k) as [[c1 v]|] eqn:E; [|discriminate]. destruct Hn as (Hv & Hn).
    apply (IH c1); auto. eapply call_aligned; eauto. }
  split; auto. rewrite (listing_value c Hal). eexists. split; [reflexivity|].
  assert (Em : forall T (l : list T) n, map snd (combine (seq n (List.length l)) l) = l).
  { intros T l. induction l as [|x l IH]; intros n; auto. cbn. rewrite IH. reflexivity. }
  split; [apply Em|]. rewrite combine_length, seq_length. unfold matched_pairs. rewrite combine_length.
  destruct Hal as (_ & _ & L). rewrite L. lia.
Qed.

(** C115: also when match_peaks raised, the peaks are a list and the lines are as many or
    None; and a fit, a manual_refit or a match_peaks that succeeds and returns peaks
    leaves two lists of the same length, whatever was there before. *)
Lemma session_matches_restored_main :
  forall (A : Type) (N : Num A) (e : env A),
    (forall peaks spectrum c0, calib_init (e_hull e) peaks spectrum = Ok c0 -> aligned c0) /\
    (forall c0 ks c, aligned c0 -> session_run e c0 ks = Some c ->
       c_mpeaks c <> MNone /\
       (c_matlas c = MNone \/ List.length (mseq_vals (c_mpeaks c)) = List.length (mseq_vals (c_matlas c)))) /\
    (forall o fuel c a c' v, fit o fuel c a = Some (c', Ok v) -> aligned c') /\
    (forall o c a c' v, manual_refit o c a = (c', Ok v) -> aligned c') /\
    (forall o mini c a c' v, match_peaks o mini c a = (c', Ok v) -> mv_peaks v <> MNone -> aligned c').
Proof.
  intros A N e. split; [|split; [|split; [|split]]].
  - intros peaks spectrum c0 H. apply calib_init_inv in H. destruct H as (c1 & c2 & H1 & H2 & H3).
    pose proof (cal_step_matches e (calib_blank peaks spectrum) (OGeneral None None None)) as (G1 & K1).
    pose proof (cal_step_matches e c1 (OHough no_hough_args)) as (G2 & K2).
    pose proof (cal_step_matches e c2 (ORansac no_ransac_args)) as (G3 & K3).
    cbn [cal_step] in *. rewrite H1 in G1, K1. rewrite H2 in G2, K2. rewrite H3 in G3, K3. cbn [fst] in *.
    unfold aligned. rewrite G3, G2, G1, K3, K2, K1. cbn. repeat split; discriminate.
  - intros c0 ks c Ha H. assert (L : lined_c c); [|exact L].
    apply aligned_lined in Ha. revert c0 Ha H. induction ks as [|k r IH]; intros c0 Ha H; cbn in H; [injection H as <-; exact Ha|].
    destruct (call_step e c0 k) as [[c1 v]|] eqn:E; [|discriminate].
    apply (IH c1); auto. eapply call_lined; eauto.
  - intros o fuel c a c' v H. destruct (fit_kept _ _ _ _ _ _ H) as [(_ & _ & K)|(xs & ys & K1 & K2 & K3)]; [exfalso; apply (K v); auto|].
    unfold aligned. rewrite K1, K2. repeat split; auto; discriminate.
  - intros o c a c' v H. pose proof (refit_kept o c a) as K. cbv zeta in K. rewrite H in K. cbn [fst snd] in K.
    destruct K as [(_ & K)|K]; auto. exfalso. apply (K v). auto.
  - intros o mini c a c' v H Hv. pose proof (match_kept o mini c a) as K. cbv zeta in K. rewrite H in K. cbn [fst snd] in K.
    destruct K as [(_ & K)|(xs & K1 & [(_ & K)|(ys & K2 & K3)])].
    + exfalso. apply Hv. apply K. auto.
    + exfalso. apply (K v). auto.
    + unfold aligned. rewrite K1, K2. repeat split; auto; discriminate.
Qed.

(** A session with a fit, edits, a match_peaks that raises, a refit and a plot: the
    hypotheses of C114 and C115 hold of it, or of the part without the failing call. *)
Definition good_calls : list (call f64) :=
  [Fit o_ex 60 a_session; Configure OUsePlotly; MatchPeaks o_ex no_mini (ma_plain (fz 20) false true);
   Edit (EAdd (fz 200) (fz 5000)); Edit (ERemove 99); Edit (ERemove 0); Configure (ORemove (fz 4002) (fz 1))].
Definition bad_call : call f64 := MatchPeaks o_ex no_mini (ma_plain (fz 0) false true).
Example session_example_main :
  aligned c_session /\ none_raises is_match env0 c_session good_calls /\
  match session_run env0 c_session good_calls with
  | Some c => matched_pairs c = combine ex_peaks ex_waves /\ which_plotting_library c = Some "plotly"%string /\
              option_map atlas_len (c_atlas c) = Some 4%nat /\ List.length (mseq_vals (c_mpeaks c)) = 5%nat
  | None => False
  end /\
  configuration good_calls = [OUsePlotly; ORemove (fz 4002) (fz 1)].
Proof.
  split; [vm_compute; repeat split; discriminate|]. split; [vm_compute; repeat split; discriminate|].
  split; [vm_compute; repeat split|]. reflexivity.
Qed.

(** C116, refuted: a match_peaks that raises loses the matched pairs.  If no peak has a
    line within the tolerance, it raises TypeError, the list of matched peaks is empty
    afterwards and the pairs can no longer be listed. *)
Lemma failed_match_keeps_pairs_refuted_main :
  forall (A : Type) (N : Num A) (o : oracle A) mini c a at_ k co,
    input_coeff c a co -> co <> [] -> ma_refine a = false -> c_atlas c = Some at_ -> c_kind c = Some k ->
    (forall p w, In p (c_peaks c) -> In w (get_lines at_) -> within (fun p => eval_kind k p co) (ma_tol a) p w = false) ->
    exists c', match_peaks o mini c a = (c', Raise TypeError) /\
      c_mpeaks c' = MArr [] /\ c_residuals c' = None /\ get_pix_wave_pairs c' = Raise TypeError.
Proof.
  intros A N o mini c a at_ k co Hin Hco Hr Ha Hk Hw. unfold match_peaks.
  assert (E : exists m, match ma_coeff a, c_coeff c with
          | MNone, None => Raise AttributeError
          | MNone, Some l => Ok (MArr l)
          | m, _ => Ok m
          end = Ok m /\ mseq_vals m = co).
  { unfold input_coeff in Hin. destruct (ma_coeff a) as [l|l|]; [eexists; split; [reflexivity|exact Hin]..|].
    rewrite Hin. eexists. split; reflexivity. }
  destruct E as (m & -> & ->). destruct co as [|v0 co]; [contradiction|]. cbv zeta. rewrite Hr, Ha.
  assert (El : lines_within (c_kind c) (get_lines at_) (v0 :: co) (ma_tol a) (c_peaks c) = Ok []).
  { rewrite Hk. clear -Hw. induction (c_peaks c) as [|p r IH]; auto.
    cbn [lines_within]. unfold polyval_of at 1. cbn [bind].
    rewrite IH by (intros; apply Hw; auto; right; auto). cbn [bind].
    replace (filter _ (get_lines at_)) with (@nil A); auto.
    assert (Hp : forall w, In w (get_lines at_) -> nabs (w -' eval_kind k p (v0 :: co)) <' ma_tol a = false).
    { intros w Hi. apply (Hw p w); [left; auto|exact Hi]. }
    clear -Hp. induction (get_lines at_) as [|w ls IH]; auto. cbn [filter]. rewrite Hp by (left; auto).
    apply IH. intros; apply Hp; right; auto. }
  rewrite El. cbn [bind map candidate_of]. unfold match_store, polyfit_of. rewrite Hk. cbn [bind].
  eexists. split; [reflexivity|]. repeat split.
Qed.

(** It happens: after the fit of the session five pairs are listed; after a match_peaks
    with tolerance 0, none can be. *)
Example failed_match_example_main :
  (exists l, get_pix_wave_pairs c_fitted = Ok l /\ List.length l = 5%nat) /\
  match call_step env0 c_fitted bad_call with
  | Some (c, Raise TypeError) => get_pix_wave_pairs c = Raise TypeError
  | _ => False
  end.
Proof. split; [eexists; split; vm_compute; reflexivity|vm_compute; reflexivity]. Qed.

(** C116, what does hold: a match_peaks that raises changes no setting and no
    coefficient (for an optimiser that returns as many coefficients as it is given).  If it changed the matched pairs, the peaks stored are those with a line
    within the tolerance. *)
Lemma failed_match_keeps_pairs_partial_main :
  forall (A : Type) (N : Num A) (o : oracle A) mini c a c' err,
    (forall x y d p q, o_ls o x y d p = Ok q -> List.length q = List.length p) ->
    match_peaks o mini c a = (c', Raise err) ->
    same_settings c c' /\ c_spectrum c' = c_spectrum c /\ c_rp c' = c_rp c /\
    c_coeff c' = c_coeff c /\ c_kind c' = c_kind c /\ c_deg c' = c_deg c /\
    c_ht c' = c_ht c /\ c_lines c' = c_lines c /\ c_points c' = c_points c /\
    (c' = c \/
     exists co at_, input_coeff c a co /\ c_atlas c = Some at_ /\
       ((c_mpeaks c' = MArr [] /\ c_peaks c = []) \/
        exists k, c_kind c = Some k /\
        c_mpeaks c' = MArr (filter (fun p => existsb (within (fun p => eval_kind k p co) (ma_tol a) p) (get_lines at_)) (c_peaks c)))).
Proof.
  intros A N o mini c a c' err Hls H. unfold match_peaks in H.
  destruct (match ma_coeff a with MNone => _ | _ => _ end) as [co|] eqn:Eco.
  2: { assert (c' = c) as -> by congruence. repeat (split; [repeat split|]). left; auto. }
  assert (Hin : input_coeff c a (mseq_vals co)).
  { unfold input_coeff. destruct (ma_coeff a); [injection Eco as <-; auto|injection Eco as <-; auto|].
    destruct (c_coeff c); [|discriminate]. injection Eco as <-. auto. }
  destruct (mseq_vals co) as [|v0 l0] eqn:Ev.
  { assert (c' = c) as -> by congruence. repeat (split; [repeat split|]). left; auto. }
  cbv zeta in H.
  destruct (if ma_refine a then _ else _) as [q|ex] eqn:Eq.
  2: { assert (c' = c) as -> by congruence. repeat (split; [repeat split|]). left; auto. }
  assert (G : exists refined, match c_atlas c with
       | None => (c, Raise AttributeError)
       | Some at_ =>
           match bind (lines_within (c_kind c) (get_lines at_) (v0 :: l0) (ma_tol a) (c_peaks c)) (fun m =>
                 bind (candidate_of (map snd m) []) (fun cand => Ok (map fst m, cand))) with
           | Raise e => (c, Raise e)
           | Ok (xs, cand) =>
               match_store o c (oget (List.length (v0 :: l0) - 1)%nat (ma_deg a)) (ma_robust a) refined xs cand (atlas_len at_)
           end
       end = (c', Raise err)).
  { destruct q as [[new|]|]; [eexists; exact H|discriminate|eexists; exact H]. }
  clear H Eq. destruct G as (refined & H).
  destruct (c_atlas c) as [at_|] eqn:Ea.
  2: { assert (c' = c) as -> by congruence. repeat (split; [repeat split|]). left; auto. }
  destruct (bind _ _) as [[xs cand]|ex] eqn:E in H.
  2: { assert (c' = c) as -> by congruence. repeat (split; [repeat split|]). left; auto. }
  apply bind_Ok in E. destruct E as (m & Em & E). apply bind_Ok in E. destruct E as (cand' & _ & E).
  assert (Ex : xs = map fst m) by congruence. clear E cand'.
  apply lines_within_spec in Em; [|discriminate].
  assert (K : same_settings c c' /\ c_spectrum c' = c_spectrum c /\ c_rp c' = c_rp c /\
    c_coeff c' = c_coeff c /\ c_kind c' = c_kind c /\ c_deg c' = c_deg c /\
    c_ht c' = c_ht c /\ c_lines c' = c_lines c /\ c_points c' = c_points c /\ c_mpeaks c' = MArr xs).
  { unfold match_store in H.
    destruct (bind _ _) as [[co' resid]|ex] eqn:EX in H; [|injection H as <- <-; repeat split].
    destruct (negb _); [injection H as <- <-; repeat split|].
    destruct (Nat.eqb _ _); [injection H as <- <-; repeat split|].
    destruct (Nat.eqb _ _); [injection H as <- <-; repeat split|].
    destruct (ma_robust a).
    - destruct (robust_polyfit _ _ _ _ _) as [co2|] eqn:Er; [|injection H as <- <-; repeat split].
      destruct (existsb _ _); [discriminate|].
      destruct (polyvals_of (c_kind c) xs co2) eqn:Epv; [discriminate|].
      exfalso. apply bind_Ok in EX. destruct EX as (co3 & Hf & EX). apply bind_Ok in EX. destruct EX as (vs & Hv & _).
      unfold polyfit_of in Hf. destruct (c_kind c) as [k|]; [|discriminate].
      rewrite polyvals_map in Epv; [discriminate|].
      intros ->; unfold robust_polyfit in Er; destruct (normalise_input _ _) as [xn yn].
      apply bind_Ok in Er; destruct Er as (p0 & _ & Er).
      destruct (Nat.eqb_spec (List.length p0) (oget (List.length (v0 :: l0) - 1) (ma_deg a) + 1)) as [L|]; [|discriminate].
      cbn [negb] in Er.
      apply bind_Ok in Er; destruct Er as (q' & Hq & Er); apply Hls in Hq.
      assert (Eq : rev (denormalise (np_std xs) (np_std cand) (oget (List.length (v0 :: l0) - 1)%nat (ma_deg a)) q') = []) by congruence.
      apply (f_equal (@List.length _)) in Eq; rewrite rev_length, denormalise_length in Eq; cbn in Eq; lia.
    - destruct refined; [discriminate|]. injection H as <- <-; repeat split. }
  destruct K as (K1 & K2 & K3 & K4 & K5 & K6 & K7 & K8 & K9 & K10).
  repeat (split; [assumption|]). right. exists (v0 :: l0), at_. split; auto. split; auto.
  destruct Em as [(Ep & ->)|(k & Ek & Em)].
  - left. rewrite K10, Ex. auto.
  - right. exists k. split; auto. rewrite K10, Ex, Em, map_map. f_equal. apply map_id.
Qed.

(** * Main_Interrupt: interrupting fit, and fitting again. *)

From Coq Require Import ZArith Bool List String Lia Reals Lra Sorted Permutation.
From Verif Require Import Num F64 XReal Py Np NpFacts ArgsortFacts Util UtilFacts Models Atlas AtlasFacts SpecAtlas Hough SpecHough HoughFacts PolyEval Calib SpecCalib CalibFacts Main_Calib Cand SpecCand CandFacts Ransac SpecRansac RansacFacts Main_Ransac Fit SpecFit FitFacts Main_Fit Main_Limits SpecAgain Main_Again Interrupt SpecInterrupt.
Import ListNotations.
Local Open Scope num_scope.

Section Interrupt.
  Context {A : Type} {N : Num A}.

  (** The transform depends on the pairs and the Hough settings only. *)
  Lemma transform_fresh argsort (c d : calib A) : c_pairs d = c_pairs c -> c_hp d = c_hp c ->
    match do_hough_transform argsort c false, do_hough_transform argsort d false with
    | (c2, Ok _), (d2, Ok _) => c_ht d2 = c_ht c2 /\ c_lines d2 = c_lines c2 /\ c_points d2 = c_points c2
    | (_, Raise _), (_, Raise _) => True
    | _, _ => False
    end.
  Proof.
    intros E1 E2. unfold do_hough_transform. rewrite E1, E2. destruct (c_pairs c) as [| |l]; [exact I| |];
      unfold set_constraints; cbv zeta;
      (match goal with |- context[bind (check_finite ?a) ?b] => destruct (bind (check_finite a) b) as [[[[x1 x2] x3] x4]|] end);
      try exact I.
    set (t := mkHough (ho_points (c_ht c)) _ _ _ _ _ _ _ _).
    set (t' := mkHough (ho_points (c_ht d)) _ _ _ _ _ _ _ _).
    assert (G : forall n, match generate_hough_points t (map fst l) (map snd l) n, generate_hough_points t' (map fst l) (map snd l) n with
       | (u, Ok _), (u', Ok _) => ho_points u' = ho_points u /\ ho_min_slope u' = ho_min_slope u /\ ho_max_slope u' = ho_max_slope u /\
             ho_min_intercept u' = ho_min_intercept u /\ ho_max_intercept u' = ho_max_intercept u
       | (_, Raise _), (_, Raise _) => True | _, _ => False end).
    { intros n. unfold generate_hough_points, t, t'. cbn [ho_min_slope ho_max_slope ho_min_intercept ho_max_intercept].
      destruct (negb _); [exact I|]. destruct (Nat.eqb n 0 || _); [exact I|]. cbn. repeat split. }
    set (g := fun t => match h_num_slopes (c_hp c) with
        | Some (Zneg _) => (t, Raise ValueError)
        | Some z => generate_hough_points t (map fst l) (map snd l) (Z.to_nat z)
        | None => (t, Raise TypeError) end).
    change (match h_num_slopes (c_hp c) with
        | Some (Zneg _) => (t, Raise ValueError)
        | Some z => generate_hough_points t (map fst l) (map snd l) (Z.to_nat z)
        | None => (t, Raise TypeError) end) with (g t).
    change (match h_num_slopes (c_hp c) with
        | Some (Zneg _) => (t', Raise ValueError)
        | Some z => generate_hough_points t' (map fst l) (map snd l) (Z.to_nat z)
        | None => (t', Raise TypeError) end) with (g t').
    assert (G' : match g t, g t' with
       | (u, Ok _), (u', Ok _) => ho_points u' = ho_points u /\ ho_min_slope u' = ho_min_slope u /\ ho_max_slope u' = ho_max_slope u /\
             ho_min_intercept u' = ho_min_intercept u /\ ho_max_intercept u' = ho_max_intercept u
       | (_, Raise _), (_, Raise _) => True | _, _ => False end).
    { unfold g. destruct (h_num_slopes (c_hp c)) as [[|p|p]|]; try exact I; apply G. }
    destruct (g t) as [u [v|e]], (g t') as [u' [v'|e']]; try contradiction; [|exact I].
    destruct G' as (G1 & G2 & G3 & G4 & G5).
    destruct (h_xbins (c_hp c)) as [xb|]; [|exact I]. destruct (h_ybins (c_hp c)) as [yb|]; [|exact I].
    unfold bin_hough_points. rewrite G1. destruct (ho_points u) as [[pts| |]|]; try exact I.
    destruct (bin_edges (map fst pts) xb) as [xe|]; [|exact I].
    destruct (bin_edges (map snd pts) yb) as [ye|]; [|exact I].
    cbn. rewrite G2, G3, G4, G5. repeat split.
  Qed.

  (** What c and d, both after the first assignments of fit, must have in common. *)
  Definition size_alike (a : fit_args A) (c d : calib A) : Prop :=
    match r_sample (c_rp c), r_sample (c_rp d) with
    | Some s, Some t => forall at_, c_atlas c = Some at_ -> adjusted_size a (atlas_len at_) t = adjusted_size a (atlas_len at_) s
    | None, None => True
    | _, _ => False
    end.
  Definition matches_alike (c d : calib A) : Prop :=
    match r_matches (c_rp c), r_matches (c_rp d) with
    | Some s, Some t => forall at_, c_atlas c = Some at_ ->
        adjusted_matches (atlas_len at_) (List.length (c_peaks c)) t = adjusted_matches (atlas_len at_) (List.length (c_peaks c)) s
    | None, None => True
    | _, _ => False
    end.
  Definition hough_alike (o : oracle A) (c d : calib A) : Prop :=
    (c_ht d = c_ht c /\ c_lines d = c_lines c /\ c_points d = c_points c) \/
    ((c_lines c = None \/ c_points c = None) /\
     ((c_lines d = None \/ c_points d = None) \/
      exists c2, do_hough_transform (o_argsort o) c false = (c2, Ok tt) /\
        c_ht d = c_ht c2 /\ c_lines d = c_lines c2 /\ c_points d = c_points c2)).
  Definition alike (o : oracle A) (a : fit_args A) (c d : calib A) : Prop :=
    same_input c d /\ same_ransac c d /\ size_alike a c d /\ matches_alike c d /\ hough_alike o c d.

  Lemma redo_hough argsort (c : calib A) : c_lines c = None \/ c_points c = None ->
    fit_hough argsort c = do_hough_transform argsort c false.
  Proof. unfold fit_hough. intros [->| ->]; [reflexivity|]. destruct (c_lines c); reflexivity. Qed.

  Lemma hough_again o a (c d : calib A) n : alike o a c d ->
    match fit_hough (o_argsort o) (set_sample n c), fit_hough (o_argsort o) (set_sample n d) with
    | (c2, Ok _), (d2, Ok _) => c_ht d2 = c_ht c2 /\ c_lines d2 = c_lines c2 /\ c_points d2 = c_points c2
    | (_, Raise _), (_, Raise _) => True
    | _, _ => False
    end.
  Proof.
    intros (I0 & _ & _ & _ & H). assert (Ep : c_pairs d = c_pairs c) by apply I0. assert (Eh : c_hp d = c_hp c) by apply I0.
    assert (R : (c_lines c = None \/ c_points c = None) -> (c_lines d = None \/ c_points d = None) ->
      match fit_hough (o_argsort o) (set_sample n c), fit_hough (o_argsort o) (set_sample n d) with
      | (c2, Ok _), (d2, Ok _) => c_ht d2 = c_ht c2 /\ c_lines d2 = c_lines c2 /\ c_points d2 = c_points c2
      | (_, Raise _), (_, Raise _) => True
      | _, _ => False
      end).
    { intros Hc Hd. rewrite !redo_hough by auto. apply transform_fresh; assumption. }
    destruct H as [(H1 & H2 & H3)|(Hc & [Hd|(c2 & Hd & H1 & H2 & H3)])].
    - destruct (c_lines c) as [l|] eqn:El; [|apply R; auto]. destruct (c_points c) as [p|] eqn:Ep'; [|apply R; auto].
      unfold fit_hough. change (c_lines (set_sample n c)) with (c_lines c). change (c_points (set_sample n c)) with (c_points c).
      change (c_lines (set_sample n d)) with (c_lines d). change (c_points (set_sample n d)) with (c_points d).
      rewrite El, Ep', H2, H3. cbn. repeat split; congruence.
    - exact (R Hc Hd).
    - pose proof (transform_sets (o_argsort o) c false) as T. rewrite Hd in T. cbn [fst snd] in T. destruct (T eq_refl) as (T1 & T2).
      pose proof (transform_fresh (o_argsort o) c (set_sample n c) eq_refl eq_refl) as F. rewrite Hd in F.
      rewrite (redo_hough _ (set_sample n c)) by auto.
      destruct (do_hough_transform (o_argsort o) (set_sample n c) false) as [c3 [u|e]]; [|contradiction]. destruct F as (F1 & F2 & F3).
      unfold fit_hough. change (c_lines (set_sample n d)) with (c_lines d). change (c_points (set_sample n d)) with (c_points d).
      rewrite H2, H3. destruct (c_lines c2) eqn:Q1; [|congruence]. destruct (c_points c2) eqn:Q2; [|congruence].
      change (c_ht (set_sample n d)) with (c_ht d). change (c_lines (set_sample n d)) with (c_lines d).
      change (c_points (set_sample n d)) with (c_points d). repeat split; congruence.
  Qed.

  Lemma hough_keeps_rp argsort (c : calib A) : c_rp (fst (fit_hough argsort c)) = c_rp c /\ c_peaks (fst (fit_hough argsort c)) = c_peaks c.
  Proof.
    pose proof (fit_hough_frame argsort c) as F. cbv zeta in F. destruct F as (((F1 & _) & _) & F2 & _). split; [exact F2|exact F1].
  Qed.

  Lemma prepare_again o a (c d : calib A) : alike o a c d ->
    match fit_prepare o c a, fit_prepare o d a with
    | (c2, Ok _), (d2, Ok _) => same_question c2 d2
    | (_, Raise _), (_, Raise _) => True
    | _, _ => False
    end.
  Proof.
    intros H. pose proof H as (I0 & Ir & Is & Im & _).
    pose proof (fit_prepare_spec o c a) as P. pose proof (fit_prepare_spec o d a) as Q. cbv zeta in P, Q.
    assert (X : match fit_prepare o c a, fit_prepare o d a with
      | (c2, Ok _), (d2, Ok _) => c_ht d2 = c_ht c2 /\ c_lines d2 = c_lines c2 /\ c_points d2 = c_points c2 /\
          r_sample (c_rp d2) = r_sample (c_rp c2) /\ r_matches (c_rp d2) = r_matches (c_rp c2)
      | (_, Raise _), (_, Raise _) => True
      | _, _ => False
      end).
    { clear P Q. unfold fit_prepare. assert (Ea : c_atlas d = c_atlas c) by apply I0. assert (Epk : c_peaks d = c_peaks c) by apply I0. rewrite Ea.
      destruct (c_atlas c) as [at_|] eqn:Eat; [|exact I].
      unfold size_alike in Is. unfold matches_alike in Im.
      destruct (r_sample (c_rp c)) as [s|], (r_sample (c_rp d)) as [t|]; try contradiction; [|exact I].
      rewrite (Is at_ Eat). cbv zeta. set (n := adjusted_size a (atlas_len at_) s).
      pose proof (hough_again o a c d n H) as G.
      pose proof (hough_keeps_rp (o_argsort o) (set_sample n c)) as (K1 & K2).
      pose proof (hough_keeps_rp (o_argsort o) (set_sample n d)) as (L1 & L2).
      destruct (fit_hough (o_argsort o) (set_sample n c)) as [c2 [u|e]], (fit_hough (o_argsort o) (set_sample n d)) as [d2 [u'|e']];
        try contradiction; [|exact I]. cbn [fst] in *.
      rewrite K1, L1. change (r_matches (c_rp (set_sample n c))) with (r_matches (c_rp c)). change (r_matches (c_rp (set_sample n d))) with (r_matches (c_rp d)).
      destruct (r_matches (c_rp c)) as [m|], (r_matches (c_rp d)) as [m'|]; try contradiction; [|exact I].
      destruct G as (G1 & G2 & G3).
      change (c_ht (set_matches ?m ?x)) with (c_ht x). change (c_lines (set_matches ?m ?x)) with (c_lines x). change (c_points (set_matches ?m ?x)) with (c_points x).
      repeat (split; [assumption|]). cbn [set_matches set_c_rp c_rp r_sample r_matches]. rewrite K1, L1, K2, L2. split; [reflexivity|].
      change (c_peaks (set_sample n c)) with (c_peaks c). change (c_peaks (set_sample n d)) with (c_peaks d). rewrite Epk. f_equal. apply Im; auto. }
    destruct (fit_prepare o c a) as [c2 [u|e]], (fit_prepare o d a) as [d2 [u'|e']]; try contradiction; [|exact I].
    cbn [fst snd] in *. destruct X as (X1 & X2 & X3 & X4 & X5). destruct P as (((P1 & P2 & P3 & P4 & P5 & P6 & P7 & P8 & P9) & _ & Pr) & _).
    destruct Q as (((Q1 & Q2 & Q3 & Q4 & Q5 & Q6 & Q7 & Q8 & Q9) & _ & Qr) & _).
    destruct I0 as (J1 & J2 & J3 & J4 & J5 & J6 & J7 & J8 & J9).
    unfold same_question. repeat (split; [congruence|]). split; [|repeat split; congruence].
    apply rp_eq; [|assumption|assumption].
    unfold same_ransac in *. destruct Pr as (L1 & L2 & L3 & L4 & L5 & L6 & L7 & L8). destruct Qr as (K1 & K2 & K3 & K4 & K5 & K6 & K7 & K8).
    destruct Ir as (M1 & M2 & M3 & M4 & M5 & M6 & M7 & M8). repeat split; congruence.
  Qed.

  (** The state after the first assignments. *)
  Definition begun (a : fit_args A) (k : fit_kind) (c : calib A) : calib A :=
    set_c_kind (Some k) (set_c_coeff (fa_coeff a) (set_c_deg (Some (degree_used a)) c)).

  Lemma fit_again o fuel a (c d : calib A) :
    (forall k, fa_type a = Some k -> alike o a (begun a k c) (begun a k d)) ->
    same_answer (fit o fuel c a) (fit o fuel d a).
  Proof.
    intros H. destruct (match fa_coeff a with Some [] => true | _ => false end) eqn:E.
    { unfold fit. destruct (fa_coeff a) as [[|]|]; try discriminate. exact I. }
    assert (Hne : fa_coeff a <> Some []) by (intros X; rewrite X in E; discriminate).
    rewrite !fit_begin_rest by assumption. unfold fit_begin.
    destruct (fa_type a) as [k|]; [|exact I]. specialize (H k eq_refl). fold (begun a k c). fold (begun a k d).
    unfold fit_rest. pose proof (prepare_again o a _ _ H) as P.
    pose proof (fit_prepare_spec o (begun a k c) a) as (_ & S1 & S2 & _). pose proof (fit_prepare_spec o (begun a k d) a) as (_ & T1 & T2 & _).
    destruct (fit_prepare o (begun a k c) a) as [c2 [u|e]], (fit_prepare o (begun a k d) a) as [d2 [u'|e']]; try contradiction; [|exact I].
    cbn [fst] in *.
    pose proof (search_forgets o fuel c2 d2 a P) as X. specialize (X ltac:(rewrite S1, T1; reflexivity) ltac:(rewrite S2, T2; reflexivity)).
    unfold search_rest in X. unfold same_answer, fit_same in *.
    destruct (match solve_ransac o fuel c2 (degree_used a) (fa_tries a) (c_coeff c2) (fa_ctol a) (fa_brute a) with
      | Some (c3, Ok r) => Some (fit_end c3 r) | Some (c3, Raise e) => Some (c3, Raise e) | None => None end) as [[c4 [v|e]]|],
     (match solve_ransac o fuel d2 (degree_used a) (fa_tries a) (c_coeff d2) (fa_ctol a) (fa_brute a) with
      | Some (c3, Ok r) => Some (fit_end c3 r) | Some (c3, Raise e) => Some (c3, Raise e) | None => None end) as [[d4 [w|e']]|]; try contradiction; try exact I.
    destruct X as (X0 & X1 & X). destruct X1 as (_ & _ & _ & _ & _ & X1 & _). tauto.
  Qed.
  Lemma adjusted_size_max (a : fit_args A) na size : adjusted_size a na size = Nat.max (fa_deg a + 1) (Nat.min size na).
  Proof.
    unfold adjusted_size. cbv zeta. destruct (Nat.ltb_spec na size).
    - destruct (Nat.leb_spec na (fa_deg a)); lia.
    - destruct (Nat.leb_spec size (fa_deg a)); lia.
  Qed.

  Lemma begin_eq (a : fit_args A) (c c1 : calib A) : fit_begin c a = (c1, Ok tt) -> exists k, fa_type a = Some k /\ c1 = begun a k c.
  Proof.
    unfold fit_begin. destruct (fa_type a) as [k|]; [|discriminate]. intros H. exists k. split; [reflexivity|].
    assert (X : c1 = set_c_kind (Some k) (set_c_coeff (fa_coeff a) (set_c_deg (Some (degree_used a)) c))) by congruence. exact X.
  Qed.

  (** The Hough state fit uses. *)
  Lemma hough_result o (c d c2 : calib A) n : fit_hough (o_argsort o) (set_sample n c) = (c2, Ok tt) ->
    c_ht d = c_ht c2 -> c_lines d = c_lines c2 -> c_points d = c_points c2 -> hough_alike o c d.
  Proof.
    intros H H1 H2 H3.
    assert (R : (c_lines c = None \/ c_points c = None) -> hough_alike o c d).
    { intros Hc. right. split; [exact Hc|]. right. rewrite redo_hough in H by exact Hc.
      pose proof (transform_fresh (o_argsort o) c (set_sample n c) eq_refl eq_refl) as F. rewrite H in F.
      destruct (do_hough_transform (o_argsort o) c false) as [c3 [[]|e]]; [|contradiction]. destruct F as (F1 & F2 & F3).
      exists c3. repeat split; congruence. }
    destruct (c_lines c) as [l|] eqn:El; [|apply R; auto]. destruct (c_points c) as [p|] eqn:Ep; [|apply R; auto].
    left. unfold fit_hough in H. change (c_lines (set_sample n c)) with (c_lines c) in H. change (c_points (set_sample n c)) with (c_points c) in H.
    rewrite El, Ep in H. assert (X : c2 = set_sample n c) by congruence. subst c2.
    rewrite H1, H2, H3. repeat split; assumption.
  Qed.

  Lemma prepare_hough o a (c c2 : calib A) : fit_prepare o c a = (c2, Ok tt) ->
    exists at_ size c3 m, c_atlas c = Some at_ /\ r_sample (c_rp c) = Some size /\
      fit_hough (o_argsort o) (set_sample (adjusted_size a (atlas_len at_) size) c) = (c3, Ok tt) /\
      r_matches (c_rp c) = Some m /\ c2 = set_matches (adjusted_matches (atlas_len at_) (List.length (c_peaks c)) m) c3.
  Proof.
    unfold fit_prepare. destruct (c_atlas c) as [at_|]; [|discriminate]. destruct (r_sample (c_rp c)) as [size|]; [|discriminate].
    cbv zeta. set (n := adjusted_size a (atlas_len at_) size).
    pose proof (hough_keeps_rp (o_argsort o) (set_sample n c)) as (K1 & K2).
    destruct (fit_hough (o_argsort o) (set_sample n c)) as [c3 [[]|e]] eqn:E; [|discriminate]. cbn [fst] in *. rewrite K1, K2.
    change (r_matches (c_rp (set_sample n c))) with (r_matches (c_rp c)). change (c_peaks (set_sample n c)) with (c_peaks c).
    destruct (r_matches (c_rp c)) as [m|]; [|discriminate]. intros H. exists at_, size, c3, m.
    split; [reflexivity|]. split; [reflexivity|]. split; [exact E|]. split; [reflexivity|].
    assert (X : c2 = set_matches (adjusted_matches (atlas_len at_) (List.length (c_peaks c)) m) c3) by congruence. exact X.
  Qed.

  Lemma ransac_frame_refl (c : calib A) : same_ransac c c. Proof. repeat split. Qed.
  Lemma input_refl (c : calib A) : same_input c c. Proof. repeat split. Qed.

  Lemma same_size a (c d : calib A) : r_sample (c_rp d) = r_sample (c_rp c) -> size_alike a c d.
  Proof. unfold size_alike. intros ->. destruct (r_sample (c_rp c)); auto. Qed.
  Lemma same_matches (c d : calib A) : r_matches (c_rp d) = r_matches (c_rp c) -> matches_alike c d.
  Proof. unfold matches_alike. intros ->. destruct (r_matches (c_rp c)); auto. Qed.
  Lemma same_hough o (c d : calib A) : c_ht d = c_ht c -> c_lines d = c_lines c -> c_points d = c_points c -> hough_alike o c d.
  Proof. intros. left. auto. Qed.

  Lemma kept_size a (c d : calib A) : sample_size_kept a c d -> size_alike a c d.
  Proof.
    intros [H|(at_ & size & H1 & H2 & H3)]; [apply same_size; exact H|].
    unfold size_alike. rewrite H2, H3. intros at' E. rewrite !adjusted_size_max. rewrite H1 in E. assert (at' = at_) by congruence. subst at'. lia.
  Qed.

  Context {O : NumOrder A}.

  Lemma kept_matches (c d : calib A) at_ m : c_atlas c = Some at_ -> r_matches (c_rp c) = Some m ->
    r_matches (c_rp d) = Some (adjusted_matches (atlas_len at_) (List.length (c_peaks c)) m) -> matches_alike c d.
  Proof.
    intros H1 H2 H3. unfold matches_alike. rewrite H2, H3. intros at' E. assert (at' = at_) by congruence. subst at'. apply adjusted_matches_twice.
  Qed.

  (** A state reached after the settings were adjusted. *)
  Lemma late_alike o a (c1 c2 d : calib A) : fit_prepare o c1 a = (c2, Ok tt) ->
    same_input c2 d -> same_ransac c2 d -> r_matches (c_rp d) = r_matches (c_rp c2) ->
    c_ht d = c_ht c2 -> c_lines d = c_lines c2 -> c_points d = c_points c2 -> size_alike a c1 d -> alike o a c1 d.
  Proof.
    intros H H1 H2 H3 H4 H5 H6 H7.
    pose proof (fit_prepare_spec o c1 a) as P. cbv zeta in P. rewrite H in P. cbn [fst snd] in P.
    destruct P as ((P1 & _ & P2) & _ & _ & _ & _ & P3). destruct (P3 eq_refl) as (at_ & size & m & Q1 & Q2 & Q3 & Q4 & Q5).
    destruct (prepare_hough o a c1 c2 H) as (at' & size' & c3 & m' & R1 & R2 & R3 & R4 & R5).
    unfold alike. split; [eapply same_input_trans; eauto|]. split; [eapply same_ransac_trans; eauto|]. split; [exact H7|].
    split; [apply (kept_matches c1 d at_ m Q1 Q3); congruence|].
    eapply hough_result; [exact R3| | |]; subst c2; assumption.
  Qed.

  Lemma search_keeps o a (c2 d : calib A) : search_moment o c2 a d ->
    same_input c2 d /\ same_ransac c2 d /\ r_matches (c_rp d) = r_matches (c_rp c2) /\
    c_ht d = c_ht c2 /\ c_lines d = c_lines c2 /\ c_points d = c_points c2 /\ same_figures c2 d /\ c_coeff d = c_coeff c2 /\ c_kind d = c_kind c2.
  Proof.
    intros []; unfold loop_start; try (destruct (fa_brute a || _)); repeat split.
  Qed.

  (** After begun: the fields that matter are the same. *)
  Lemma begun_alike o a k (c d : calib A) : alike o a c d -> alike o a c (begun a k d).
  Proof. intros H. exact H. Qed.

  Lemma early_alike o a (c d : calib A) : (c_points c = None -> c_lines c = None) -> interrupted_early o c a d ->
    forall k, fa_type a = Some k -> alike o a (begun a k c) (begun a k d).
  Proof.
    intros Hp H k Hk. apply begun_alike. destruct H as [d H|c1 d H M].
    - assert (X : c_rp d = c_rp c /\ same_input c d /\ c_ht d = c_ht c /\ c_lines d = c_lines c /\ c_points d = c_points c).
      { unfold begin_moments in H. rewrite Hk in H. cbn [app In] in H. repeat (destruct H as [<-|H]; [repeat split|]). contradiction. }
      destruct X as (X1 & X2 & X3 & X4 & X5).
      split; [exact X2|]. split; [unfold same_ransac; rewrite X1; repeat split|].
      split; [apply same_size; rewrite X1; reflexivity|]. split; [apply same_matches; rewrite X1; reflexivity|].
      apply same_hough; assumption.
    - destruct (begin_eq _ _ _ H) as (k' & Hk' & ->). assert (k' = k) by congruence. subst k'. clear H Hk'.
      change (c_points c) with (c_points (begun a k c)) in Hp. change (c_lines c) with (c_lines (begun a k c)) in Hp.
      set (c1 := begun a k c) in *. clearbody c1.
      destruct M as [at_ size E1 E2|at_ size E1 E2|at_ size t E1 E2 E3|at_ size c2 E1 E2 E3 E4|at_ size c2 E1 E2 E3|at_ size c2 m E1 E2 E3 E4|c2 E].
      + split; [repeat split|]. split; [repeat split|]. split; [|split; [apply same_matches; reflexivity|apply same_hough; reflexivity]].
        unfold size_alike. rewrite E2. cbn [set_sample set_c_rp c_rp r_sample]. intros at' Ea. assert (at' = at_) by congruence. subst. rewrite !adjusted_size_max.
        destruct (Nat.ltb_spec (atlas_len at_) size); lia.
      + split; [repeat split|]. split; [repeat split|]. split; [|split; [apply same_matches; reflexivity|apply same_hough; reflexivity]].
        unfold size_alike. rewrite E2. cbn [set_sample set_c_rp c_rp r_sample]. intros at' Ea. assert (at' = at_) by congruence. subst. rewrite !adjusted_size_max. lia.
      + split; [repeat split|]. split; [repeat split|]. split; [|split; [apply same_matches; reflexivity|]].
        * unfold size_alike. rewrite E2. cbn [set_sample set_c_rp set_c_ht c_rp r_sample]. intros at' Ea. assert (at' = at_) by congruence. subst. rewrite !adjusted_size_max. lia.
        * right. split; [exact E3|]. left. exact E3.
      + split; [repeat split|]. split; [repeat split|]. split; [|split; [apply same_matches; reflexivity|]].
        * unfold size_alike. rewrite E2. cbn [set_sample set_c_rp set_c_ht set_c_points c_rp r_sample]. intros at' Ea. assert (at' = at_) by congruence. subst. rewrite !adjusted_size_max. lia.
        * right. split; [exact E3|]. left. left. destruct E3 as [E3|E3]; [exact E3|exact (Hp E3)].
      + pose proof (fit_hough_frame (o_argsort o) (set_sample (adjusted_size a (atlas_len at_) size) c1)) as F. cbv zeta in F. rewrite E3 in F. cbn [fst] in F.
        destruct F as ((F1 & _ & F3) & F4 & _).
        split; [exact F1|]. split; [exact F3|]. split; [|split; [apply same_matches; rewrite F4; reflexivity|eapply hough_result; [exact E3| | |]; reflexivity]].
        unfold size_alike. rewrite E2, F4. cbn [set_sample set_c_rp c_rp r_sample]. intros at' Ea. assert (at' = at_) by congruence. subst. rewrite !adjusted_size_max. lia.
      + pose proof (fit_hough_frame (o_argsort o) (set_sample (adjusted_size a (atlas_len at_) size) c1)) as F. cbv zeta in F. rewrite E3 in F. cbn [fst] in F.
        destruct F as ((F1 & _ & F3) & F4 & _).
        split; [exact F1|]. split; [exact F3|]. split; [|split; [|eapply hough_result; [exact E3| | |]; reflexivity]].
        * unfold size_alike. cbn [set_matches set_c_rp c_rp r_sample]. rewrite E2, F4. cbn [set_sample set_c_rp c_rp r_sample]. intros at' Ea. assert (at' = at_) by congruence. subst. rewrite !adjusted_size_max. lia.
        * unfold matches_alike. rewrite F4 in E4. change (r_matches (c_rp c1) = Some m) in E4. rewrite E4. cbn [set_matches set_c_rp c_rp r_matches].
          intros at' Ea. assert (at' = at_) by congruence. subst. unfold adjusted_matches.
          destruct (nnat (atlas_len at_) <' m) eqn:Q; [|rewrite Q; reflexivity].
          destruct (nnat (atlas_len at_) <' nnat (atlas_len at_)); reflexivity.
      + pose proof (prepare_hough o a c1 c2 E) as (at_ & size & c3 & m & R1 & R2 & R3 & R4 & R5).
        eapply late_alike; [exact E|apply input_refl|apply ransac_frame_refl|reflexivity|reflexivity|reflexivity|reflexivity|].
        pose proof (fit_prepare_spec o c1 a) as P. cbv zeta in P. rewrite E in P. cbn [fst snd] in P.
        destruct P as (_ & _ & _ & _ & _ & P3). destruct (P3 eq_refl) as (at' & size' & m' & Q1 & Q2 & Q3 & Q4 & Q5).
        unfold size_alike. rewrite Q2, Q4. intros at'' Ea. assert (at'' = at') by congruence. subst at''. rewrite !adjusted_size_max. lia.
  Qed.
End Interrupt.

Lemma transform_parts {A} {N : Num A} argsort (c : calib A) brute :
  (c_points c = None -> c_lines c = None) ->
  c_points (fst (do_hough_transform argsort c brute)) = None -> c_lines (fst (do_hough_transform argsort c brute)) = None.
Proof.
  intros H. pose proof (transform_sets argsort c brute) as T.
  assert (X : snd (do_hough_transform argsort c brute) <> Ok tt ->
    c_points (fst (do_hough_transform argsort c brute)) = c_points c /\ c_lines (fst (do_hough_transform argsort c brute)) = c_lines c).
  { clear T. unfold do_hough_transform. destruct (c_pairs c); [auto| |]; cbv zeta; destruct (set_constraints _ _ _ _ _) as [t1 [u|e]]; auto.
    match goal with |- context[let (t2, r2) := ?X in _] => destruct X as [t2 [u2|e2]] end; [|auto].
    match goal with |- context[let (t2, r2) := ?X in _] => destruct X as [t3 [u3|e3]] end; [|auto].
    intros Q. exfalso. apply Q. reflexivity. }
  destruct (snd (do_hough_transform argsort c brute)) as [[]|e].
  - destruct (T eq_refl) as (_ & T2). intros; contradiction.
  - destruct X as (-> & ->); [discriminate|exact H].
Qed.
Lemma hough_parts {A} {N : Num A} argsort (c : calib A) :
  (c_points c = None -> c_lines c = None) ->
  c_points (fst (fit_hough argsort c)) = None -> c_lines (fst (fit_hough argsort c)) = None.
Proof.
  intros H. assert (R : c_lines c = None \/ c_points c = None \/ fit_hough argsort c = (c, Ok tt)).
  { unfold fit_hough. destruct (c_lines c); [destruct (c_points c)|]; auto. }
  destruct R as [R|[R|R]]; [rewrite redo_hough by auto; apply transform_parts, H|rewrite redo_hough by auto; apply transform_parts, H|].
  rewrite R. exact H.
Qed.
Lemma prepare_parts {A} {N : Num A} (o : oracle A) (c : calib A) a :
  (c_points c = None -> c_lines c = None) ->
  c_points (fst (fit_prepare o c a)) = None -> c_lines (fst (fit_prepare o c a)) = None.
Proof.
  intros H. unfold fit_prepare. destruct (c_atlas c) as [at_|]; [|exact H]. destruct (r_sample (c_rp c)) as [size|]; [|exact H]. cbv zeta.
  pose proof (hough_parts (o_argsort o) (set_sample (adjusted_size a (atlas_len at_) size) c) H) as P.
  destruct (fit_hough (o_argsort o) _) as [c2 [u|e]]; [|exact P]. destruct (r_matches (c_rp c2)); exact P.
Qed.

(** The Hough points are assigned before the lines: after any history of calls, whether or
    not they raise, and at every moment of a fit, there are lines only if there are
    points. *)
Lemma points_before_lines_main :
  (forall (A : Type) (N : Num A) (e : env A) peaks spectrum c0 h,
     calib_init (e_hull e) peaks spectrum = Ok c0 ->
     c_points (cal_run e c0 h) = None -> c_lines (cal_run e c0 h) = None) /\
  (forall (A : Type) (N : Num A) (o : oracle A) (c : calib A) a,
     (c_points c = None -> c_lines c = None) ->
     (forall d, interrupted o c a d -> c_points d = None -> c_lines d = None) /\
     (forall fuel c' r, fit o fuel c a = Some (c', r) -> c_points c' = None -> c_lines c' = None)).
Proof.
  split.
  - intros A N e peaks spectrum c0 h H0.
    apply (cal_run_inv e (fun c => c_points c = None -> c_lines c = None)).
    + destruct (init_others _ _ _ _ H0) as (_ & _ & -> & -> & _). auto.
    + intros c o. destruct (transforms o) eqn:Ho.
      * destruct o; try discriminate. apply transform_parts.
      * destruct (step_lines e c o Ho) as [-> ->]. auto.
  - intros A N o c a H.
    assert (B : forall c1, fit_begin c a = (c1, Ok tt) -> c_points c1 = None -> c_lines c1 = None).
    { intros c1 E. destruct (begin_eq _ _ _ E) as (k & _ & ->). exact H. }
    assert (L : forall c1 c2, fit_begin c a = (c1, Ok tt) -> fit_prepare o c1 a = (c2, Ok tt) -> c_points c2 = None -> c_lines c2 = None).
    { intros c1 c2 E1 E2. pose proof (prepare_parts o c1 a (B c1 E1)) as P. rewrite E2 in P. exact P. }
    assert (M : forall c2 n c3 r, (c_points c2 = None -> c_lines c2 = None) ->
      solve_ransac o n c2 (degree_used a) (fa_tries a) (c_coeff c2) (fa_ctol a) (fa_brute a) = Some (c3, r) -> c_points c3 = None -> c_lines c3 = None).
    { intros c2 n c3 r H2 E. pose proof (solve_frame _ _ _ _ _ _ _ _ _ _ E) as (_ & _ & _ & _ & -> & _).
      pose proof (solve_keeps_hough _ _ _ _ _ _ _ _ _ _ E) as (_ & ->). exact H2. }
    split.
    + intros d I0. destruct I0 as [d E|c1 c2 d H1 H2 H3|c1 c2 c3 n r at_ co pu au d H1 H2 H3 H4 H5 H6 H7 H8].
      * destruct E as [d E|c1 d E P].
        -- unfold begin_moments in E. apply in_app_iff in E. destruct E as [E|E].
           ++ cbn [In] in E. repeat (destruct E as [<-|E]; [exact H|]). contradiction.
           ++ destruct (fa_type a); [|contradiction]. destruct E as [<-|[]]. exact H.
        -- specialize (B c1 E). destruct P as [at_ size E1 E2|at_ size E1 E2|at_ size t E1 E2 E3|at_ size c2 E1 E2 E3 E4|at_ size c2 E1 E2 E3|at_ size c2 m E1 E2 E3 E4|c2 E2];
             try exact B.
           ++ pose proof (transform_sets (o_argsort o) (set_sample (adjusted_size a (atlas_len at_) size) c1) false) as T.
              rewrite E4 in T. destruct (T eq_refl) as (_ & T2). intros Q. contradiction.
           ++ pose proof (hough_parts (o_argsort o) (set_sample (adjusted_size a (atlas_len at_) size) c1) B) as P. rewrite E3 in P. exact P.
           ++ pose proof (hough_parts (o_argsort o) (set_sample (adjusted_size a (atlas_len at_) size) c1) B) as P. rewrite E3 in P. exact P.
           ++ exact (L c1 c2 E E2).
      * destruct (search_keeps o a c2 d H3) as (_ & _ & _ & _ & -> & -> & _). exact (L c1 c2 H1 H2).
      * specialize (M c2 n c3 (Ok r) (L c1 c2 H1 H2) H3).
        unfold end_moments in H8. cbn [In] in H8. repeat (destruct H8 as [<-|H8]; [exact M|]). contradiction.
    + intros fuel c' r E.
      destruct (match fa_coeff a with Some [] => true | _ => false end) eqn:Ee.
      { unfold fit in E. destruct (fa_coeff a) as [[|]|]; try discriminate. assert (c' = c) by congruence. subst c'. exact H. }
      rewrite fit_begin_rest in E by (intros X; rewrite X in Ee; discriminate).
      assert (B' : c_points (fst (fit_begin c a)) = None -> c_lines (fst (fit_begin c a)) = None) by (unfold fit_begin; destruct (fa_type a); exact H).
      destruct (fit_begin c a) as [c1 [[]|e]] eqn:E1; [|assert (c' = c1) by congruence; subst c'; exact B'].
      unfold fit_rest in E. pose proof (prepare_parts o c1 a B') as P.
      destruct (fit_prepare o c1 a) as [c2 [[]|e]] eqn:E2; [|assert (c' = c2) by congruence; subst c'; exact P].
      destruct (solve_ransac o fuel c2 (degree_used a) (fa_tries a) (c_coeff c2) (fa_ctol a) (fa_brute a)) as [[c3 [q|e]]|] eqn:E3; [| |discriminate].
      * specialize (M c2 fuel c3 (Ok q) P E3). assert (X : fit_end c3 q = (c', r)) by congruence. unfold fit_end in X.
        destruct (c_atlas c3); [|assert (c' = c3) by congruence; subst c'; exact M].
        destruct (utilisation _ (List.length _)); [|assert (c' = c3) by congruence; subst c'; exact M].
        destruct (utilisation _ (atlas_len _)); [|assert (c' = c3) by congruence; subst c'; exact M].
        destruct (rr_p q); [|assert (c' = c3) by congruence; subst c'; exact M].
        match type of X with (?z, _) = _ => assert (Ez : z = c') by congruence end. rewrite <- Ez. exact M.
      * specialize (M c2 fuel c3 (Raise e) P E3). assert (c' = c3) by congruence. subst c'. exact M.
Qed.

(** Fitting again after an interruption, with the same arguments and the same random
    decisions, gives the answer the first call would have given: always when the
    interruption came before the search, and later if sample_size is still what the user
    set or what fit makes of it before the search.  (The Hough lines and points are
    assigned together except by the interruption itself.) *)
Lemma interrupted_fit_retry_partial_main :
  forall (A : Type) (N : Num A) (O : NumOrder A) (o : oracle A) fuel (c d : calib A) (a : fit_args A),
    (c_points c = None -> c_lines c = None) ->
    interrupted_early o c a d \/ (interrupted o c a d /\ sample_size_kept a c d) ->
    same_answer (fit o fuel c a) (fit o fuel d a).
Proof.
  intros A N O o fuel c d a Hp H. apply fit_again.
  assert (L : interrupted_early o c a d -> forall k, fa_type a = Some k -> alike o a (begun a k c) (begun a k d)) by (apply early_alike; exact Hp).
  destruct H as [H|(H & Hs)]; [exact (L H)|].
  destruct H as [d H|c1 c2 d H1 H2 H3|c1 c2 c3 n r at_ co pu au d H1 H2 H3 H4 H5 H6 H7 H8]; [exact (L H)| |]; clear L; intros k Hk; apply begun_alike;
    destruct (begin_eq _ _ _ H1) as (k' & Hk' & ->); assert (k' = k) by congruence; subst k'.
  - destruct (search_keeps o a c2 d H3) as (S1 & S2 & S3 & S4 & S5 & S6 & _).
    eapply late_alike; eauto. apply kept_size. exact Hs.
  - pose proof (solve_frame _ _ _ _ _ _ _ _ _ _ H3) as ((F1 & _ & F3) & _ & _ & F4 & F5 & _).
    pose proof (solve_keeps_hough _ _ _ _ _ _ _ _ _ _ H3) as (F6 & F7).
    assert (X : same_input c3 d /\ c_rp d = c_rp c3 /\ c_ht d = c_ht c3 /\ c_lines d = c_lines c3 /\ c_points d = c_points c3).
    { unfold end_moments in H8. cbn [In] in H8. repeat (destruct H8 as [<-|H8]; [repeat split|]). contradiction. }
    destruct X as (X1 & X2 & X3 & X4 & X5).
    eapply late_alike; [exact H2| | | | | | |].
    + eapply same_input_trans; eauto.
    + unfold same_ransac in *. rewrite X2. exact F3.
    + rewrite X2. exact F4.
    + congruence.
    + congruence.
    + congruence.
    + apply kept_size. exact Hs.
Qed.

(** Whenever fit is interrupted, what the user supplied and the search settings other than
    sample_size and minimum_matches are as before.  Either rms, residuals and utilisations
    are those of the earlier solution, and the coefficients are the earlier ones (then so
    are the matched pairs) or the argument fit_coeff; or the coefficients and the matched
    pairs are those of the answer fit was about to return, and each figure is the old or
    the new one. *)
Lemma interrupted_fit_partial_main :
  forall (A : Type) (N : Num A) (o : oracle A) (c d : calib A) (a : fit_args A),
    fa_coeff a <> Some [] -> interrupted o c a d ->
    same_input c d /\ same_ransac c d /\ c_residuals d = c_residuals c /\
    ((same_figures c d /\
      ((c_coeff d = c_coeff c /\ c_mpeaks d = c_mpeaks c /\ c_matlas d = c_matlas c) \/ c_coeff d = fa_coeff a)) \/
     exists fuel c' v, fit o fuel c a = Some (c', Ok v) /\
       c_coeff d = Some (fv_coeff v) /\ c_mpeaks d = fv_mpeaks v /\ c_matlas d = fv_matlas v /\
       (c_rms d = c_rms c \/ c_rms d = Some (fv_rms v)) /\ (c_resid d = c_resid c \/ c_resid d = fv_resid v) /\
       (c_putil d = c_putil c \/ c_putil d = Some (fv_putil v)) /\ (c_autil d = c_autil c \/ c_autil d = Some (fv_autil v))).
Proof.
  intros A N o c d a Hne H.
  assert (B : forall c1, fit_begin c a = (c1, Ok tt) -> frame c c1 /\ c_coeff c1 = fa_coeff a).
  { intros c1 E. destruct (begin_eq _ _ _ E) as (k & _ & ->). repeat split. }
  assert (K : forall c1, frame c c1 /\ c_coeff c1 = fa_coeff a -> frame c1 d /\ c_coeff d = c_coeff c1 ->
    same_input c d /\ same_ransac c d /\ c_residuals d = c_residuals c /\ same_figures c d /\ c_coeff d = fa_coeff a).
  { intros c1 (F & E) (G & E'). destruct (frame_trans _ _ _ F G) as (T1 & T2 & T3).
    split; [exact T1|]. split; [exact T3|]. split; [apply T2|]. split; [exact T2|congruence]. }
  destruct H as [d H|c1 c2 d H1 H2 H3|c1 c2 c3 n r at_ co pu au d H1 H2 H3 H4 H5 H6 H7 H8].
  - destruct H as [d H|c1 d H M].
    + unfold begin_moments in H. apply in_app_iff in H. destruct H as [H|H].
      * cbn [In] in H. destruct H as [<-|[<-|[<-|[<-|[]]]]]; (split; [repeat split|split; [repeat split|split; [reflexivity|left; split; [repeat split|]]]]);
          cbn; auto.
      * destruct (fa_type a) as [k|]; [|contradiction]. destruct H as [<-|[]].
        split; [repeat split|split; [repeat split|split; [reflexivity|left; split; [repeat split|]]]]. right. reflexivity.
    + assert (X : frame c1 d /\ c_coeff d = c_coeff c1).
      { assert (Y : forall n c2, fit_hough (o_argsort o) (set_sample n c1) = (c2, Ok tt) -> frame c1 c2 /\ c_coeff c2 = c_coeff c1).
        { intros n c2 E. pose proof (fit_hough_frame (o_argsort o) (set_sample n c1)) as F. cbv zeta in F. rewrite E in F. cbn [fst] in F.
          destruct F as (F1 & _ & F3 & _). split; [|exact F3]. eapply frame_trans; [|exact F1]. repeat split. }
        destruct M as [at_ size E1 E2|at_ size E1 E2|at_ size t E1 E2 E3|at_ size c2 E1 E2 E3 E4|at_ size c2 E1 E2 E3|at_ size c2 m E1 E2 E3 E4|c2 E];
          try (split; [repeat split|reflexivity]).
        - exact (Y _ _ E3).
        - destruct (Y _ _ E3) as (Y1 & Y2). split; [|exact Y2]. eapply frame_trans; [exact Y1|]. repeat split.
        - pose proof (fit_prepare_spec o c1 a) as P. cbv zeta in P. rewrite E in P. cbn [fst] in P. tauto. }
      destruct (K c1 (B c1 H) X) as (K1 & K2 & K3 & K4 & K5). split; [exact K1|]. split; [exact K2|]. split; [exact K3|]. left. auto.
  - pose proof (fit_prepare_spec o c1 a) as P. cbv zeta in P. rewrite H2 in P. cbn [fst] in P. destruct P as (P1 & P2 & _).
    destruct (search_keeps o a c2 d H3) as (S1 & S2 & S3 & S4 & S5 & S6 & S7 & S8 & S9).
    destruct (K c1 (B c1 H1)) as (K1 & K2 & K3 & K4 & K5).
    { split; [eapply frame_trans; [exact P1|split; auto]|congruence]. }
    split; [exact K1|]. split; [exact K2|]. split; [exact K3|]. left. auto.
  - pose proof (fit_prepare_spec o c1 a) as P. cbv zeta in P. rewrite H2 in P. cbn [fst] in P. destruct P as (P1 & P2 & _).
    pose proof (solve_frame _ _ _ _ _ _ _ _ _ _ H3) as (F & F2 & _).
    pose proof (frame_trans _ _ _ (proj1 (B c1 H1)) (frame_trans _ _ _ P1 F)) as (T1 & T2 & T3).
    assert (E : c_coeff c3 = fa_coeff a) by (rewrite F2, P2; apply (B c1 H1)).
    assert (Q : fit o n c a = Some (set_c_autil (Some au) (set_c_putil (Some pu) (set_c_resid (rr_resid r)
                                (set_c_rms (Some (rr_err r)) (set_c_coeff (Some co) c3)))),
                Ok (mkFV co (c_mpeaks c3) (c_matlas c3) (rr_err r) (rr_resid r) pu au))).
    { rewrite fit_begin_rest by assumption. rewrite H1. unfold fit_rest. rewrite H2, H3. unfold fit_end. rewrite H4, H6, H7, H5. reflexivity. }
    assert (X : same_input c3 d /\ c_rp d = c_rp c3 /\ c_residuals d = c_residuals c3).
    { unfold end_moments in H8. cbn [In] in H8. repeat (destruct H8 as [<-|H8]; [repeat split|]). contradiction. }
    destruct X as (X1 & X2 & X3).
    split; [eapply same_input_trans; eauto|]. split; [unfold same_ransac in *; rewrite X2; exact T3|].
    split; [rewrite X3; apply T2|].
    destruct T2 as (U1 & U2 & U3 & U4 & U5).
    unfold end_moments in H8. cbn [In] in H8. destruct H8 as [<-|H8].
    { left. split; [repeat split; assumption|right; exact E]. }
    right. eexists _, _, _. split; [exact Q|]. cbn [fv_coeff fv_mpeaks fv_matlas fv_rms fv_resid fv_putil fv_autil].
    repeat (destruct H8 as [<-|H8]; [cbn; repeat split; auto|]). contradiction.
Qed.

(** An interrupted search of the calibrator c: the loop has dealt with the first n samples,
    and matched_peaks has been replaced for the next one; None if c does not get there. *)
Definition cut (c : calib f64) (n : nat) : option (calib f64) :=
  match fit_prepare o_ex (fst (fit_begin c a_session)) a_session with
  | (c2, Ok tt) =>
    match ransac_xy o_ex (set_c_deg (Some 1%nat) c2) (fa_ctol a_session), r_sample (c_rp c2) with
    | Ok (x, y), Some size =>
        if Nat.ltb 1 (List.length (np_unique x)) then
          match ransac_setup o_ex (set_c_deg (Some 1%nat) c2) x y 1 size 3 (c_coeff c2) false with
          | Ok (f, samples, s0) =>
              match run_samples o_ex 60 f s0 (firstn n samples), skipn n samples with
              | Done s, smp :: _ =>
                  match try_sample o_ex 60 f s smp with
                  | Done s' => Some (set_c_matlas (s_ma s) (set_c_mpeaks (s_mp s') (loop_start c2 a_session x size)))
                  | _ => None
                  end
              | _, _ => None
              end
          | Raise _ => None
          end
        else None
    | _, _ => None
    end
  | (_, Raise _) => None
  end.
Lemma cut_interrupted c n d : cut c n = Some d -> interrupted o_ex c a_session d.
Proof.
  unfold cut. destruct (fit_prepare o_ex (fst (fit_begin c a_session)) a_session) as [c2 [[]|e]] eqn:H1; [|discriminate].
  destruct (ransac_xy o_ex (set_c_deg (Some 1%nat) c2) (fa_ctol a_session)) as [[x y]|] eqn:H2; [|discriminate].
  destruct (r_sample (c_rp c2)) as [size|] eqn:H3; [|discriminate].
  destruct (Nat.ltb_spec 1 (List.length (np_unique x))) as [H4|]; [|discriminate].
  destruct (ransac_setup o_ex (set_c_deg (Some 1%nat) c2) x y 1 size 3 (c_coeff c2) false) as [[[f samples] s0]|] eqn:H5; [|discriminate].
  destruct (run_samples o_ex 60 f s0 (firstn n samples)) as [s| |] eqn:H7; try discriminate.
  destruct (skipn n samples) as [|smp rest] eqn:H6; [discriminate|].
  destruct (try_sample o_ex 60 f s smp) as [s'| |] eqn:H8; try discriminate. intros E.
  match type of E with Some ?z = _ => assert (Ed : z = d) by congruence end. rewrite <- Ed.
  eapply I_search; [reflexivity|exact H1|].
  eapply (SM_peaks o_ex c2 a_session x y size f samples s0 60 (firstn n samples) smp rest).
  - exact H2.
  - exact H3.
  - exact H4.
  - exact H5.
  - rewrite <- H6, firstn_skipn. reflexivity.
  - exact H7.
  - left. exact H8.
Qed.

Lemma use_some {T} (y : option T) (P : T -> Prop) :
  match y with Some d => P d | None => False end -> exists d, y = Some d /\ P d.
Proof. destruct y as [d|]; [eauto|contradiction]. Qed.
Lemma use_answer {C V} (x : option (C * res V)) (P : C -> V -> Prop) :
  match x with Some (c, Ok v) => P c v | _ => False end -> exists c v, x = Some (c, Ok v) /\ P c v.
Proof. destruct x as [[c [v|e]]|]; try contradiction. eauto. Qed.

(** A brute-force session, and the state in which its loop over the samples begins. *)
Definition c_brute : calib f64 :=
  after ex_peaks (session 2 (fz 1) [fz 4002; fz 4897; fz 6101; fz 7302; fz 7987] ++
    [ORansac (mkRA None None None None None None None None None (Some (fz 0)))]).
Definition a_brute : fit_args f64 := mkFA 9 1 None (fz 5) (Some FitPoly) (fz 30) true.
Definition cut_brute (c : calib f64) : option (calib f64) :=
  match fit_prepare o_ex (fst (fit_begin c a_brute)) a_brute with
  | (c2, Ok tt) =>
    match ransac_xy o_ex (set_c_deg (Some 1%nat) c2) (fa_ctol a_brute), r_sample (c_rp c2) with
    | Ok (x, y), Some size =>
        if Nat.ltb 1 (List.length (np_unique x)) then Some (loop_start c2 a_brute x size) else None
    | _, _ => None
    end
  | (_, Raise _) => None
  end.
Lemma cut_brute_interrupted c d : cut_brute c = Some d -> interrupted o_ex c a_brute d.
Proof.
  unfold cut_brute. destruct (fit_prepare o_ex (fst (fit_begin c a_brute)) a_brute) as [c2 [[]|e]] eqn:H1; [|discriminate].
  destruct (ransac_xy o_ex (set_c_deg (Some 1%nat) c2) (fa_ctol a_brute)) as [[x y]|] eqn:H2; [|discriminate].
  destruct (r_sample (c_rp c2)) as [size|] eqn:H3; [|discriminate].
  destruct (Nat.ltb_spec 1 (List.length (np_unique x))) as [H4|]; [|discriminate]. intros E.
  assert (Ed : loop_start c2 a_brute x size = d) by congruence. rewrite <- Ed.
  eapply I_search; [reflexivity|exact H1|]. exact (SM_size o_ex c2 a_brute x y size H2 H3 H4).
Qed.

(** What is not guaranteed.  Without fit_coeff, the first assignments of fit discard the
    earlier solution, while the pairs and figures that belong to it stay.  And during the
    search the two lists of matched pairs can belong to different solutions: here a
    calibrator with a finished fit of five pairs is left with three peaks and five lines.
    Nor does fitting again always give the same: after a brute-force fit interrupted in its
    loop, sample_size is 5 instead of 2, and three peaks are matched instead of four. *)
Lemma interrupted_fit_refuted_main :
  (forall (A : Type) (N : Num A) (o : oracle A) (c : calib A) (a : fit_args A) p,
     c_coeff c = Some p -> fa_coeff a = None ->
     exists d, interrupted o c a d /\ c_coeff d = None /\ same_figures c d /\
       c_mpeaks d = c_mpeaks c /\ c_matlas d = c_matlas c) /\
  (exists c v d,
    fit o_ex 60 c_session a_session = Some (c, Ok v) /\ interrupted o_ex c a_session d /\
    List.length (mseq_vals (fv_mpeaks v)) = 5%nat /\
    List.length (mseq_vals (c_mpeaks d)) = 3%nat /\ List.length (mseq_vals (c_matlas d)) = 5%nat) /\
  (exists d c' v d' w,
    interrupted o_ex c_brute a_brute d /\
    fit o_ex 60 c_brute a_brute = Some (c', Ok v) /\ fit o_ex 60 d a_brute = Some (d', Ok w) /\
    r_sample (c_rp c_brute) = Some 2%nat /\ r_sample (c_rp d) = Some 5%nat /\
    List.length (mseq_vals (fv_mpeaks v)) = 4%nat /\ List.length (mseq_vals (fv_mpeaks w)) = 3%nat).
Proof.
  split; [|split].
  - intros A N o c a p _ E. exists (set_c_coeff (fa_coeff a) (set_c_deg (Some (fa_deg a)) c)).
    split; [apply I_early, IE_begin; unfold begin_moments; cbn; auto|]. split; [exact E|]. repeat split.
  - pose (P := fun (c : calib f64) (v : fit_value f64) => match cut c 0 with
        | Some d => List.length (mseq_vals (fv_mpeaks v)) = 5%nat /\
            List.length (mseq_vals (c_mpeaks d)) = 3%nat /\ List.length (mseq_vals (c_matlas d)) = 5%nat
        | None => False end).
    assert (X : match fit o_ex 60 c_session a_session with Some (c, Ok v) => P c v | _ => False end) by (vm_compute; repeat split).
    apply use_answer in X. destruct X as (c & v & E & H). unfold P in H.
    apply use_some in H. destruct H as (d & Ed & Hd).
    exists c, v, d. split; [exact E|]. split; [exact (cut_interrupted _ _ _ Ed)|exact Hd].
  - assert (X : match cut_brute c_brute with
      | Some d => match fit o_ex 60 c_brute a_brute, fit o_ex 60 d a_brute with
                  | Some (c', Ok v), Some (d', Ok w) =>
                      r_sample (c_rp c_brute) = Some 2%nat /\ r_sample (c_rp d) = Some 5%nat /\
                      List.length (mseq_vals (fv_mpeaks v)) = 4%nat /\ List.length (mseq_vals (fv_mpeaks w)) = 3%nat
                  | _, _ => False
                  end
      | None => False end) by (vm_compute; repeat split).
    destruct (cut_brute c_brute) as [d|] eqn:Ed; [|contradiction]. apply cut_brute_interrupted in Ed.
    destruct (fit o_ex 60 c_brute a_brute) as [[c' [v|]]|]; try contradiction.
    destruct (fit o_ex 60 d a_brute) as [[d' [w|]]|] eqn:Ew; try contradiction.
    exists d, c', v, d', w. split; [exact Ed|]. split; [reflexivity|]. split; [exact Ew|]. exact X.
Qed.

(** The same session, interrupted in its first fit after one sample: five peaks and three
    lines are matched, sample_size is untouched, and the fit done again succeeds with the
    answer of a fit that is not interrupted. *)
Example interrupted_fit_retry_example_main :
  exists d v, interrupted o_ex c_session a_session d /\ sample_size_kept a_session c_session d /\
    (c_points c_session = None -> c_lines c_session = None) /\
    List.length (mseq_vals (c_mpeaks d)) = 5%nat /\ List.length (mseq_vals (c_matlas d)) = 3%nat /\
    match fit o_ex 60 d a_session with Some (_, Ok w) => w = v | _ => False end /\
    match fit o_ex 60 c_session a_session with Some (_, Ok w) => w = v | _ => False end.
Proof.
  destruct session_answer as (c & v & E & _).
  assert (Y : match cut c_session 1 with Some d => List.length (mseq_vals (c_mpeaks d)) = 5%nat /\
      List.length (mseq_vals (c_matlas d)) = 3%nat /\ r_sample (c_rp d) = r_sample (c_rp c_session) | None => False end)
    by (vm_compute; repeat split).
  apply use_some in Y. destruct Y as (d & E2 & L1 & L2 & L3).
  assert (Hp : c_points c_session = None -> c_lines c_session = None) by (vm_compute; reflexivity).
  assert (Hs : sample_size_kept a_session c_session d) by (left; exact L3).
  pose proof (cut_interrupted _ _ _ E2) as Hi.
  pose proof (interrupted_fit_retry_partial_main f64 _ _ o_ex 60%nat c_session d a_session Hp (or_intror (conj Hi Hs))) as R.
  exists d, v. split; [exact Hi|]. split; [exact Hs|]. split; [exact Hp|]. split; [exact L1|]. split; [exact L2|].
  rewrite E in R |- *. unfold same_answer in R. destruct (fit o_ex 60 d a_session) as [[d' [w|e]]|]; try contradiction.
  destruct R as (R & _). split; [symmetry; exact R|reflexivity].
Qed.

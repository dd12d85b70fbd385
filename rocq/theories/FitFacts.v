(** * FitFacts: lemmas about fit. *)

From Coq Require Import ZArith Bool List Lia Sorted Permutation.
From Verif Require Import Num Py Np NpFacts Util Models Atlas Hough PolyEval Calib Cand SpecCand CandFacts Ransac SpecRansac RansacFacts Fit SpecFit.
Import ListNotations.
Local Open Scope num_scope.

Section Frame.
  Context {A : Type} {N : Num A}.

  Ltac same := unfold same_input, same_figures, same_ransac; cbn; repeat split; auto.

  Lemma same_input_refl (c : calib A) : same_input c c. Proof. same. Qed.
  Lemma same_input_trans (a b c : calib A) : same_input a b -> same_input b c -> same_input a c.
  Proof.
    unfold same_input. intros (H1 & H2 & H3 & H4 & H5 & H6 & H7 & H8 & H9) (G1 & G2 & G3 & G4 & G5 & G6 & G7 & G8 & G9).
    repeat split; congruence.
  Qed.
  Lemma same_figures_trans (a b c : calib A) : same_figures a b -> same_figures b c -> same_figures a c.
  Proof. unfold same_figures. intros (H1 & H2 & H3 & H4 & H5) (G1 & G2 & G3 & G4 & G5). repeat split; congruence. Qed.
  Lemma same_ransac_trans (a b c : calib A) : same_ransac a b -> same_ransac b c -> same_ransac a c.
  Proof.
    unfold same_ransac. intros (H1 & H2 & H3 & H4 & H5 & H6 & H7 & H8) (G1 & G2 & G3 & G4 & G5 & G6 & G7 & G8).
    repeat split; congruence.
  Qed.

  (** A record of everything fit leaves alone in its first stages. *)
  Definition frame (c c' : calib A) : Prop := same_input c c' /\ same_figures c c' /\ same_ransac c c'.
  Lemma frame_refl c : frame c c. Proof. repeat split. Qed.
  Lemma frame_trans a b c : frame a b -> frame b c -> frame a c.
  Proof.
    intros (H1 & H2 & H3) (G1 & G2 & G3).
    repeat split; first [eapply same_input_trans|eapply same_figures_trans|eapply same_ransac_trans]; eauto.
  Qed.

  (** The Hough transform changes nothing but the Hough state. *)
  Lemma transform_frame argsort c brute :
    let c' := fst (do_hough_transform argsort c brute) in
    frame c c' /\ c_rp c' = c_rp c /\ c_coeff c' = c_coeff c /\ c_kind c' = c_kind c /\ c_deg c' = c_deg c /\
    c_mpeaks c' = c_mpeaks c /\ c_matlas c' = c_matlas c.
  Proof.
    unfold do_hough_transform. destruct (c_pairs c); cbv zeta;
      try destruct (set_constraints _ _ _ _ _) as [t1 [u|e]]; try (repeat split; fail).
    destruct brute.
    - destruct (generate_hough_points_brute_force _ _ _ _) as [t2 [u2|e2]]; [|repeat split].
      destruct (h_xbins (c_hp c)); [destruct (h_ybins (c_hp c))|]; try (repeat split; fail).
      destruct (bin_hough_points _ _ _ _) as [t3 [u3|e3]]; repeat split.
    - destruct (h_num_slopes (c_hp c)) as [[|p|p]|].
      1,2: destruct (generate_hough_points _ _ _ _) as [t2 [u2|e2]]; [|repeat split];
        (destruct (h_xbins (c_hp c)); [destruct (h_ybins (c_hp c))|]; try (repeat split; fail);
         destruct (bin_hough_points _ _ _ _) as [t3 [u3|e3]]; repeat split).
      all: repeat split.
  Qed.

  Lemma fit_hough_frame argsort c :
    let c' := fst (fit_hough argsort c) in
    frame c c' /\ c_rp c' = c_rp c /\ c_coeff c' = c_coeff c /\ c_kind c' = c_kind c /\ c_deg c' = c_deg c /\
    c_mpeaks c' = c_mpeaks c /\ c_matlas c' = c_matlas c.
  Proof.
    unfold fit_hough. destruct (c_lines c), (c_points c); try apply transform_frame. repeat split.
  Qed.

  Lemma fit_begin_spec c a :
    frame c (fst (fit_begin c a)) /\ c_coeff (fst (fit_begin c a)) = fa_coeff a /\
    c_rp (fst (fit_begin c a)) = c_rp c /\
    c_mpeaks (fst (fit_begin c a)) = c_mpeaks c /\ c_matlas (fst (fit_begin c a)) = c_matlas c /\
    (snd (fit_begin c a) = Ok tt -> c_kind (fst (fit_begin c a)) = fa_type a).
  Proof. unfold fit_begin. destruct (fa_type a); cbn; repeat split; auto; discriminate. Qed.

  Lemma fit_prepare_spec o c a :
    let c' := fst (fit_prepare o c a) in
    frame c c' /\ c_coeff c' = c_coeff c /\ c_kind c' = c_kind c /\
    c_mpeaks c' = c_mpeaks c /\ c_matlas c' = c_matlas c /\
    (snd (fit_prepare o c a) = Ok tt ->
     exists at_ size m, c_atlas c = Some at_ /\ r_sample (c_rp c) = Some size /\ r_matches (c_rp c) = Some m /\
       r_sample (c_rp c') = Some (adjusted_size a (atlas_len at_) size) /\
       r_matches (c_rp c') = Some (adjusted_matches (atlas_len at_) (length (c_peaks c)) m)).
  Proof.
    cbv zeta. unfold fit_prepare.
    destruct (c_atlas c) as [at_|] eqn:Ea; [|cbn; repeat split; try discriminate].
    destruct (r_sample (c_rp c)) as [size|] eqn:Es; [|cbn; repeat split; try discriminate].
    set (c1 := set_sample (adjusted_size a (atlas_len at_) size) c).
    pose proof (fit_hough_frame (o_argsort o) c1) as F. cbv zeta in F.
    destruct (fit_hough (o_argsort o) c1) as [c2 r2]. cbn [fst] in F.
    destruct F as (F1 & F2 & F3 & F4 & F5 & F6 & F7).
    assert (F0 : frame c c1) by (repeat split).
    destruct r2 as [u|e].
    - destruct (r_matches (c_rp c2)) as [m|] eqn:Em.
      + cbn [fst snd]. split; [eapply frame_trans; [exact F0|]; eapply frame_trans; [exact F1|]; repeat split|].
        split; [exact F3|]. split; [exact F4|]. split; [exact F6|]. split; [exact F7|].
        intros _. exists at_, size, m. split; auto. split; auto.
        destruct F1 as (F1 & _). destruct F1 as (Fp & _). 
        split; [rewrite F2 in Em; exact Em|]. split; [cbn; rewrite F2; reflexivity|].
        cbn. rewrite Fp. reflexivity.
      + cbn [fst snd]. split; [eapply frame_trans; eauto|]. do 4 (split; [assumption|]). discriminate.
    - cbn [fst snd]. split; [eapply frame_trans; eauto|]. do 4 (split; [assumption|]). discriminate.
  Qed.

  Lemma solve_frame o fuel c deg tries coeff ctol brute c' r :
    solve_ransac o fuel c deg tries coeff ctol brute = Some (c', r) ->
    frame c c' /\ c_coeff c' = c_coeff c /\ c_kind c' = c_kind c /\ r_matches (c_rp c') = r_matches (c_rp c) /\
    c_lines c' = c_lines c /\
    (r_sample (c_rp c') = r_sample (c_rp c) \/
     exists x y, ransac_xy o c ctol = Ok (x, y) /\ r_sample (c_rp c') = Some (length (np_unique x)) /\
       (deg < length (np_unique x))%nat).
  Proof.
    unfold solve_ransac. destruct (ransac_candidates o c ctol) as [q0|e0];
      [|intros E; injection E as <- <-; repeat split; auto].
    cbv zeta. change (ransac_xy o (set_c_deg (Some deg) c) ctol) with (ransac_xy o c ctol).
    change (r_sample (c_rp (set_c_deg (Some deg) c))) with (r_sample (c_rp c)).
    set (c1 := set_c_deg (Some deg) c).
    destruct (ransac_xy o c ctol) as [[x y]|]; [|intros E; injection E as <- <-; repeat split; auto].
    destruct (Nat.leb_spec (length (np_unique x)) deg) as [L|L]; [intros E; injection E as <- <-; repeat split; auto|].
    destruct (r_sample (c_rp c)) as [size|] eqn:Es; [|intros E; injection E as <- <-; repeat split; auto].
    set (c2 := if brute || _ then _ else _).
    assert (F2 : frame c c2 /\ c_coeff c2 = c_coeff c /\ c_kind c2 = c_kind c /\ r_matches (c_rp c2) = r_matches (c_rp c) /\
      c_lines c2 = c_lines c /\ (r_sample (c_rp c2) = Some size \/ r_sample (c_rp c2) = Some (length (np_unique x)))).
    { unfold c2. destruct (brute || _); repeat split; auto. }
    clearbody c2.
    assert (F3 : forall mp ma, let c3 := set_c_matlas ma (set_c_mpeaks mp c2) in
       frame c c3 /\ c_coeff c3 = c_coeff c /\ c_kind c3 = c_kind c /\ r_matches (c_rp c3) = r_matches (c_rp c) /\
       c_lines c3 = c_lines c /\ 
       (r_sample (c_rp c3) = Some size \/ exists x0 y0, Ok (x, y) = Ok (x0, y0) /\ r_sample (c_rp c3) = Some (length (np_unique x0)) /\
          (deg < length (np_unique x0))%nat)).
    { intros mp ma c3. destruct F2 as (F2 & G1 & G2 & G3 & G4 & G5).
      split; [eapply frame_trans; [exact F2|]; repeat split|]. do 4 (split; [assumption|]).
      destruct G5; [left; auto|right; exists x, y; auto]. }
    destruct (ransac_setup o c1 x y deg size tries coeff brute) as [[[f samples] s0]|].
    - destruct (run_samples o fuel f s0 samples); [| |discriminate]; intros E.
      all: match type of E with Some (?a, _) = _ => assert (Ec : a = c') by congruence end; rewrite <- Ec; apply F3.
    - intros E. assert (Ec : c2 = c') by congruence. rewrite <- Ec.
      specialize (F3 (c_mpeaks c2) (c_matlas c2)). exact F3.
  Qed.
End Frame.

Section Provenance.
  Context {A : Type} {N : Num A} {O : NumOrder A}.

  (** Pairwise different values, each equal to one of l, are no more than l has. *)
  Lemma pigeonhole (xs : list A) : forall l, pairwise_different xs ->
    (forall x, In x xs -> exists y, In y l /\ y ==' x = true) -> (length xs <= length l)%nat.
  Proof.
    induction xs as [|x r IH]; intros l' S H; cbn; [lia|].
    inversion S as [|? ? S1 F]; subst.
    destruct (H x (or_introl eq_refl)) as (y & Hy & Ey).
    apply in_split in Hy. destruct Hy as (l1 & l2 & ->).
    rewrite app_length. cbn. specialize (IH (l1 ++ l2) S1). rewrite app_length in IH.
    enough (length r <= length l1 + length l2)%nat by lia. apply IH.
    intros z Hz. destruct (H z (or_intror Hz)) as (w & Hw & Ew).
    exists w. split; auto. apply in_app_iff in Hw. apply in_app_iff.
    destruct Hw as [Hw|[<-|Hw]]; auto. exfalso.
    rewrite Forall_forall in F. specialize (F z Hz).
    rewrite eqb_sym in Ey. pose proof (eqb_trans _ _ _ Ey Ew) as E. congruence.
  Qed.

  Lemma rows_linear c tol cs a b w : candidates_linear c tol = Ok cs -> In (a, b, w) (concat cs) ->
    exists lines pairs, c_lines c = Some lines /\ c_pairs c = PArr pairs /\ In (a, b) pairs /\ near_line lines tol a b.
  Proof.
    unfold candidates_linear. intros H Hin.
    destruct (c_lines c) as [[|l0 ls]|]; [injection H as <-; destruct Hin| |discriminate].
    destruct (h_rt (c_hp c)) as [rt|]; [|discriminate]. destruct (h_lt (c_hp c)) as [lt|]; [|discriminate].
    destruct (c_pairs c) as [| |pairs]; try discriminate.
    assert (E : cs = map (line_candidates rt lt tol pairs) (l0 :: ls)) by congruence. subst cs. clear H.
    exists (l0 :: ls), pairs. split; auto. split; auto.
    apply in_concat in Hin. destruct Hin as (rows & Hr & Hin). apply in_map_iff in Hr. destruct Hr as ([m k] & <- & Hl).
    unfold line_candidates in Hin. apply in_map_iff in Hin. destruct Hin as ([a' b'] & E & Hf).
    apply filter_In in Hf. destruct Hf as (Hp & Hf). cbn [fst snd] in E, Hf.
    injection E as <- <- _. split; auto. exists m, k. auto.
  Qed.

  Lemma rows_poly rnd c tol cs a b w : candidates_poly rnd c tol = Ok cs -> In (a, b, w) (concat cs) ->
    exists at_, c_atlas c = Some at_ /\ In a (c_peaks c) /\ In b (get_lines at_).
  Proof.
    unfold candidates_poly. intros H Hin.
    destruct (c_coeff c) as [co|]; [|discriminate]. destruct (c_atlas c) as [at_|]; [|discriminate].
    destruct (c_lines c) as [lines|]; [|discriminate]. destruct (h_rt (c_hp c)) as [rt|]; [|discriminate].
    destruct (c_kind c) as [k|]; [|discriminate]. exists at_. split; auto.
    cbv zeta in H. revert H. generalize (map (fun u => u *' rt *' nZ 2 -' rt) (rnd (length lines))). intros ds.
    revert cs Hin. induction ds as [|d r IH]; intros cs Hin H; [injection H as <-; destruct Hin|].
    apply bind_Ok in H. destruct H as (o & Ho & H). apply bind_Ok in H. destruct H as (cs' & Hc & H).
    destruct o as [x|].
    - assert (E : cs = x :: cs') by congruence. subst cs. cbn in Hin. apply in_app_iff in Hin.
      destruct Hin as [Hin|Hin]; [|apply (IH cs'); auto].
      clear IH Hc H. unfold offset_candidates in Ho. apply bind_Ok in Ho. destruct Ho as (df & _ & Ho).
      destruct (existsb _ _); [|discriminate].
      apply bind_Ok in Ho. destruct Ho as (ma & Hma & Ho). apply bind_Ok in Ho. destruct Ho as (mp & Hmp & Ho).
      apply bind_Ok in Ho. destruct Ho as (mx & Hmx & Ho).
      assert (Ex : x = map (fun q => (fst q, fst (snd q), gauss (fst (snd q)) (nZ 1) (snd (snd q)) rt)) (combine mx (combine ma mp)))
        by congruence.
      subst x. apply in_map_iff in Hin. destruct Hin as ([u [v t]] & E & Hin). cbn [fst snd] in E. injection E as <- <- _.
      split.
      + apply in_combine_l in Hin. unfold mask_index in Hmx.
        destruct (Nat.eqb _ _); [|discriminate]. injection Hmx as <-. eapply mask_select_incl; eauto.
      + apply in_combine_r in Hin. apply in_combine_l in Hin. unfold mask_index in Hma.
        destruct (Nat.eqb _ _); [|discriminate]. injection Hma as <-. eapply mask_select_incl; eauto.
    - assert (E : cs = cs') by congruence. subst cs. apply (IH cs'); auto.
  Qed.

  (** A candidate pair comes from a row of the candidates. *)
  Lemma mask_combine {T U} (m : list bool) : forall (l1 : list T) (l2 : list U),
    incl (combine (mask_select m l1) (mask_select m l2)) (combine l1 l2) \/ length l1 <> length l2.
  Proof.
    induction m as [|b m IH]; intros l1 l2; [left; rewrite !mask_select_nil_l; intros ? []|].
    destruct l1 as [|x l1], l2 as [|y l2]; try (right; discriminate).
    - left. rewrite !mask_select_nil_r. intros ? [].
    - rewrite !mask_select_cons. destruct (IH l1 l2) as [H|H]; [left|right; cbn; lia].
      destruct b; cbn [combine]; intros q Hq; [destruct Hq as [->|Hq]; [left; auto|right; auto]|right; auto].
  Qed.

  Variable o : oracle A.
  Hypothesis Hargsort : forall l, is_argsort l (o_argsort o l).

  Lemma xy_rows c ctol x y p w : ransac_xy o c ctol = Ok (x, y) -> In (p, w) (combine x y) ->
    exists linear cs r, r_linear (c_rp c) = Some linear /\
      (if linear : bool then candidates_linear c ctol else candidates_poly (o_random o) c ctol) = Ok cs /\
      In r (concat cs) /\ row_x r ==' p = true /\ row_y r = w /\ In p (map row_x (concat cs)).
  Proof.
    unfold ransac_xy. intros H Hin.
    apply bind_Ok in H. destruct H as (q & Hq & H). apply bind_Ok in H. destruct H as (close & _ & H).
    apply bind_Ok in H. destruct H as (tol & _ & H).
    assert (Hin' : In (p, w) (combine (fst q) (snd q))).
    { destruct close; [|injection H as ->; exact Hin].
      assert (E : filter_close tol (fst q) (snd q) = (x, y)) by congruence.
      unfold filter_close in E. injection E as E1 E2.
      destruct (mask_combine (map (fun v => negb (existsb (fun b => v ==' b) (close_lower tol (np_unique (snd q))))) (snd q))
                  (fst q) (snd q)) as [K|K].
      - apply K. rewrite E1, E2. exact Hin.
      - apply (ransac_candidates_length o Hargsort) in Hq. contradiction. }
    unfold ransac_candidates in Hq.
    apply bind_Ok in Hq. destruct Hq as (linear & Hl & Hq). apply bind_Ok in Hq. destruct Hq as (top & _ & Hq).
    apply bind_Ok in Hq. destruct Hq as (weighted & _ & Hq). apply bind_Ok in Hq. destruct Hq as (cs & Hcs & Hq).
    injection Hq as <-. apply need_Ok in Hl. apply (pairs_kept_In _ Hargsort) in Hin'. destruct Hin' as (Hp & Hw).
    apply common_for_incl in Hw. apply in_map_iff in Hw. destruct Hw as (r & Er & Hr).
    apply filter_In in Hr. destruct Hr as (Hr & Ex).
    exists linear, cs, r. split; auto. split; auto. split; auto. split; auto. split; auto.
    apply np_unique_incl. exact Hp.
  Qed.

  Lemma xy_linear c ctol x y p w : ransac_xy o c ctol = Ok (x, y) -> In (p, w) (combine x y) ->
    r_linear (c_rp c) = Some true ->
    exists lines pairs p', c_lines c = Some lines /\ c_pairs c = PArr pairs /\ In (p', w) pairs /\ p' ==' p = true /\
      near_line lines ctol p' w.
  Proof.
    intros H Hin Hl. destruct (xy_rows _ _ _ _ _ _ H Hin) as (linear & cs & [[a b] g] & Hl' & Hcs & Hr & Ex & Ew & _).
    assert (linear = true) as -> by congruence.
    destruct (rows_linear _ _ _ _ _ _ Hcs Hr) as (lines & pairs & H1 & H2 & H3 & H4).
    cbn in Ex, Ew. subst b. exists lines, pairs, a. auto.
  Qed.

  Lemma xy_current c ctol x y p w : pairs_current c ->
    ransac_xy o c ctol = Ok (x, y) -> In (p, w) (combine x y) ->
    exists at_, c_atlas c = Some at_ /\ In p (c_peaks c) /\ In w (get_lines at_).
  Proof.
    intros (at_ & Ha & Hc) H Hin.
    destruct (xy_rows _ _ _ _ _ _ H Hin) as (linear & cs & [[a b] g] & Hl' & Hcs & Hr & Ex & Ew & Hp).
    cbn in Ex, Ew. subst b. exists at_. split; auto.
    assert (K : forall a b w, In (a, b, w) (concat cs) -> In a (c_peaks c) /\ In b (get_lines at_)).
    { clear -Hcs Ha Hc. intros a b w Hr. destruct linear.
      - destruct (rows_linear _ _ _ _ _ _ Hcs Hr) as (lines & pairs & _ & H2 & H3 & _).
        rewrite H2 in Hc. apply Hc; auto.
      - destruct (rows_poly _ _ _ _ _ _ _ Hcs Hr) as (at' & E & H1 & H2).
        assert (at' = at_) as -> by congruence. auto. }
    split.
    - apply in_map_iff in Hp. destruct Hp as ([[a' b'] g'] & E & Hr'). cbn in E. subst a'.
      apply (K _ _ _ Hr').
    - apply (K _ _ _ Hr).
  Qed.

  Lemma xy_no_nan c ctol x y at_ : pairs_current c -> c_atlas c = Some at_ ->
    no_nan (c_peaks c) -> no_nan (get_lines at_) ->
    ransac_xy o c ctol = Ok (x, y) -> no_nan x /\ no_nan y.
  Proof.
    intros Hc Ha Np Na H. pose proof (ransac_xy_length o Hargsort _ _ _ _ H) as L.
    split; intros v Hv; apply In_nth_error in Hv; destruct Hv as (i & Hi).
    - destruct (nth_error y i) as [w|] eqn:E; [|apply nth_error_None in E; assert (i < length x)%nat by (apply nth_error_Some; congruence); lia].
      assert (Hin : In (v, w) (combine x y)).
      { clear -Hi E. revert y i Hi E. induction x as [|a x IH]; intros [|b y] [|i] Hi E; cbn in *; try discriminate.
        - left; congruence. - right; eapply IH; eauto. }
      destruct (xy_current _ _ _ _ _ _ Hc H Hin) as (at' & E' & H1 & H2). auto.
    - destruct (nth_error x i) as [w|] eqn:E; [|apply nth_error_None in E; assert (i < length y)%nat by (apply nth_error_Some; congruence); lia].
      assert (Hin : In (w, v) (combine x y)).
      { clear -Hi E. revert y i Hi E. induction x as [|a x IH]; intros [|b y] [|i] Hi E; cbn in *; try discriminate.
        - left; congruence. - right; eapply IH; eauto. }
      destruct (xy_current _ _ _ _ _ _ Hc H Hin) as (at' & E' & H1 & H2). 
      assert (at' = at_) as -> by congruence. auto.
  Qed.

  Lemma generate_pairs_current hull c : snd (generate_pairs hull c) = Ok tt -> pairs_current (fst (generate_pairs hull c)).
  Proof.
    unfold generate_pairs. destruct (c_atlas c) as [at_|] eqn:Ea; [|discriminate].
    assert (P : forall a b, In (a, b) (product_pairs (c_peaks c) (get_lines at_)) -> In a (c_peaks c) /\ In b (get_lines at_)).
    { intros a b. unfold product_pairs. apply in_prod_iff. }
    destruct (c_constrain c).
    - destruct (bind _ _) as [mask|e]; [|discriminate]. intros _. exists at_. split; [exact Ea|].
      cbn. intros a b H. apply mask_select_incl in H. auto.
    - intros _. exists at_. split; [exact Ea|]. cbn. destruct (product_pairs _ _) eqn:E; auto.
  Qed.
End Provenance.

Section Inv.
  Context {A : Type} {N : Num A} {O : NumOrder A}.

  Lemma solve_sample (o : oracle A) fuel c deg tries coeff ctol c' r co x y size :
    solve_ransac o fuel c deg tries coeff ctol false = Some (c', Ok r) -> rr_p r = Some co ->
    ransac_xy o c ctol = Ok (x, y) -> r_sample (c_rp c) = Some size ->
    (deg < length (np_unique x))%nat /\ r_sample (c_rp c') = Some (Nat.min size (length (np_unique x))).
  Proof.
    unfold solve_ransac. intros H Hp Hxy Hs.
    destruct (ransac_candidates o c ctol); [|discriminate].
    change (ransac_xy o (set_c_deg (Some deg) c) ctol) with (ransac_xy o c ctol) in H. rewrite Hxy in H.
    cbv zeta in H.
    destruct (Nat.leb_spec (length (np_unique x)) deg) as [L|L].
    { assert (E : r = mkRR None (nlit 1 50) None 0 false) by congruence. subst r. discriminate. }
    split; auto.
    change (r_sample (c_rp (set_c_deg (Some deg) c))) with (r_sample (c_rp c)) in H. rewrite Hs in H.
    destruct (ransac_setup _ _ _ _ _ _ _ _ _) as [[[f samples] s0]|]; [|discriminate].
    destruct (run_samples _ _ _ _ _) as [s|s e|s]; [|discriminate|discriminate].
    match type of H with Some (?a, _) = _ => assert (Ec : c' = a) by congruence end. subst c'.
    cbn [orb]. destruct (Nat.leb_spec (length (np_unique x)) size); cbn.
    - f_equal. lia.
    - rewrite Hs. f_equal. lia.
  Qed.

  (** A fit that succeeds, taken apart. *)
  Lemma fit_inv (o : oracle A) fuel c a c' v :
    fit o fuel c a = Some (c', Ok v) ->
    exists c2 c3 r co at_ size m,
      frame c c2 /\ c_atlas c = Some at_ /\ r_sample (c_rp c) = Some size /\ r_matches (c_rp c) = Some m /\
      c_coeff c2 = fa_coeff a /\ c_kind c2 = fa_type a /\
      r_sample (c_rp c2) = Some (adjusted_size a (atlas_len at_) size) /\
      r_matches (c_rp c2) = Some (adjusted_matches (atlas_len at_) (length (c_peaks c)) m) /\
      solve_ransac o fuel c2 (degree_used a) (fa_tries a) (fa_coeff a) (fa_ctol a) (fa_brute a) = Some (c3, Ok r) /\
      rr_p r = Some co /\
      utilisation (rr_inl r) (length (c_peaks c)) = Ok (fv_putil v) /\
      utilisation (rr_inl r) (atlas_len at_) = Ok (fv_autil v) /\
      c' = set_c_autil (Some (fv_autil v)) (set_c_putil (Some (fv_putil v)) (set_c_resid (rr_resid r)
                                (set_c_rms (Some (rr_err r)) (set_c_coeff (Some co) c3)))) /\
      fv_coeff v = co /\ fv_mpeaks v = c_mpeaks c3 /\ fv_matlas v = c_matlas c3 /\ fv_rms v = rr_err r /\
      fv_resid v = rr_resid r.
  Proof.
    unfold fit. intros H.
    assert (H' : match fit_begin c a with
        | (c1, Raise e) => Some (c1, Raise e)
        | (c1, Ok _) =>
            match fit_prepare o c1 a with
            | (c2, Raise e) => Some (c2, Raise e)
            | (c2, Ok _) =>
                match solve_ransac o fuel c2 (degree_used a) (fa_tries a) (c_coeff c2) (fa_ctol a) (fa_brute a) with
                | None => None
                | Some (c3, Raise e) => Some (c3, Raise e)
                | Some (c3, Ok r) => Some (fit_end c3 r)
                end
            end
        end = Some (c', Ok v)).
    { destruct (fa_coeff a) as [[|]|]; [discriminate|exact H|exact H]. }
    clear H. rename H' into H.
    pose proof (fit_begin_spec c a) as B. destruct (fit_begin c a) as [c1 [u|e]]; [|discriminate].
    cbn [fst snd] in B. destruct B as (B1 & B2 & B3 & B4 & B5 & B6). specialize (B6 ltac:(destruct u; auto)).
    pose proof (fit_prepare_spec o c1 a) as P. cbv zeta in P.
    destruct (fit_prepare o c1 a) as [c2 [u2|e]]; [|discriminate].
    cbn [fst snd] in P. destruct P as (P1 & P2 & P3 & P4 & P5 & P6). specialize (P6 ltac:(destruct u2; auto)).
    destruct P6 as (at_ & size & m & Q1 & Q2 & Q3 & Q4 & Q5).
    rewrite P2, B2 in H.
    destruct (solve_ransac o fuel c2 (degree_used a) (fa_tries a) (fa_coeff a) (fa_ctol a) (fa_brute a))
      as [[c3 [r|e]]|] eqn:Es; [|discriminate|discriminate].
    pose proof (solve_frame _ _ _ _ _ _ _ _ _ _ Es) as (S1 & _).
    assert (F2 : frame c c2) by (eapply frame_trans; eauto).
    assert (F3 : frame c c3) by (eapply frame_trans; eauto).
    destruct F3 as ((I1 & _ & I3 & _) & _).
    assert (Ep : c_peaks c1 = c_peaks c) by (destruct B1 as ((J & _) & _); exact J).
    assert (Ea : c_atlas c = Some at_) by (destruct B1 as ((_ & _ & J & _) & _); congruence).
    assert (He : fit_end c3 r = (c', Ok v)) by congruence. clear H.
    unfold fit_end in He. rewrite I3, Ea, I1 in He.
    destruct (utilisation (rr_inl r) (length (c_peaks c))) as [pu|] eqn:Eu; [|discriminate].
    destruct (utilisation (rr_inl r) (atlas_len at_)) as [au|] eqn:Eu'; [|discriminate].
    destruct (rr_p r) as [co|] eqn:Er; [|discriminate].
    injection He as <- <-.
    exists c2, c3, r, co, at_, size, m.
    rewrite Ep in Q5. rewrite B3 in Q2, Q3. 
    repeat (split; [first [assumption|congruence|reflexivity]|]). reflexivity.
  Qed.
End Inv.

(** * Main_Work: how much a fit does and how good its result is, with proofs.  The
    statements are repeated, without proofs, in Props_Work.v. *)

From Coq Require Import ZArith Bool List String Lia Reals Lra Sorted Permutation.
From Verif Require Import Num F64 XReal Py Np NpFacts ArgsortFacts Util Models Atlas Hough PolyEval Calib SpecCalib Main_Calib Cand SpecCand CandFacts Ransac SpecRansac RansacFacts Main_Ransac Fit SpecFit FitFacts Main_Fit SpecBrute Main_Brute Calls SpecCalls Main_Calls.
Import ListNotations.
Local Open Scope num_scope.

(** C62: max_tries has no influence at all with brute_force, or if sample_size and the
    number of lines are not below the number of peaks. *)
Lemma max_tries_ignored_refuted_main :
  forall (A : Type) (N : Num A) (O : NumOrder A) (o : oracle A) fuel c at_ size n m deg coeff ftol ty ctol brute,
    (forall l, is_argsort l (o_argsort o l)) -> pairs_current c -> c_atlas c = Some at_ ->
    no_nan (c_peaks c) -> no_nan (get_lines at_) -> r_sample (c_rp c) = Some size ->
    brute = true \/
      (List.length (c_peaks c) <= size /\ List.length (c_peaks c) <= List.length (get_lines at_))%nat ->
    fit o fuel c (mkFA n deg coeff ftol ty ctol brute) = fit o fuel c (mkFA m deg coeff ftol ty ctol brute) /\
    fit_calls o fuel c (mkFA n deg coeff ftol ty ctol brute) = fit_calls o fuel c (mkFA m deg coeff ftol ty ctol brute).
Proof.
  intros A N O o fuel c at_ size n m deg coeff ftol ty ctol brute Harg Hc Ha Np Na Hs Hb.
  set (a1 := mkFA n deg coeff ftol ty ctol brute). set (a2 := mkFA m deg coeff ftol ty ctol brute).
  assert (G : forall c2, frame c c2 -> r_sample (c_rp c2) = Some (adjusted_size a1 (atlas_len at_) size) ->
    solve_ransac o fuel c2 (degree_used a1) n (c_coeff c2) ctol brute =
    solve_ransac o fuel c2 (degree_used a1) m (c_coeff c2) ctol brute /\
    solve_calls o fuel c2 (degree_used a1) n (c_coeff c2) ctol brute =
    solve_calls o fuel c2 (degree_used a1) m (c_coeff c2) ctol brute).
  { intros c2 F2 Hs2. unfold solve_ransac, solve_calls.
    destruct (ransac_candidates o c2 ctol) as [rows|]; [|auto].
    change (ransac_xy o (set_c_deg (Some (degree_used a1)) c2) ctol) with (ransac_xy o c2 ctol).
    destruct (ransac_xy o c2 ctol) as [[x y]|e] eqn:Hxy; [|auto].
    match goal with |- context[Nat.leb ?u ?w] => destruct (Nat.leb u w) end; [auto|].
    change (r_sample (c_rp (set_c_deg (Some (degree_used a1)) c2))) with (r_sample (c_rp c2)). rewrite Hs2.
    assert (E : ransac_setup o (set_c_deg (Some (degree_used a1)) c2) x y (degree_used a1)
                  (adjusted_size a1 (atlas_len at_) size) n (c_coeff c2) brute =
                ransac_setup o (set_c_deg (Some (degree_used a1)) c2) x y (degree_used a1)
                  (adjusted_size a1 (atlas_len at_) size) m (c_coeff c2) brute); [|rewrite E; auto].
    assert (B : brute || Nat.leb (List.length (np_unique x)) (adjusted_size a1 (atlas_len at_) size) = true).
    { destruct Hb as [->|(H1 & H2)]; [reflexivity|]. apply orb_true_iff. right. apply Nat.leb_le.
      pose proof (pairs_current_frame _ _ F2 Hc) as Hc2.
      assert (Nx : no_nan x).
      { destruct F2 as ((E1 & _ & E3 & _) & _).
        refine (proj1 (xy_no_nan o Harg c2 ctol x y at_ Hc2 _ _ Na Hxy)); [rewrite E3; auto|rewrite E1; auto]. }
      destruct (search_candidates o c c2 ctol x y Harg Hc F2 Hxy) as (_ & Hx & _).
      assert (L : (List.length (np_unique x) <= List.length (c_peaks c))%nat).
      { apply pigeonhole; [apply unique_different; auto|]. intros p Hp. exists p.
        assert (Hp' : In p x) by (apply np_unique_incl; auto). split; [auto|]. apply eqb_refl. apply Nx; auto. }
      unfold adjusted_size. replace (List.length (get_lines at_)) with (atlas_len at_) in H2
        by (unfold get_lines, atlas_len; symmetry; apply map_length).
      destruct (Nat.ltb_spec (atlas_len at_) size);
        match goal with |- context[Nat.leb ?u ?w] => destruct (Nat.leb_spec u w) end; lia. }
    unfold ransac_setup. rewrite B. reflexivity. }
  assert (Gc : match fit_begin c a1 with (c1, Ok _) =>
                 match fit_prepare o c1 a1 with
                 | (c2, Ok _) => frame c c2 /\ r_sample (c_rp c2) = Some (adjusted_size a1 (atlas_len at_) size)
                 | _ => True end
               | _ => True end).
  { pose proof (fit_begin_spec c a1) as B. destruct (fit_begin c a1) as [c1 [u|e]]; auto.
    cbn [fst snd] in B. destruct B as (B1 & B2 & B3 & _).
    pose proof (fit_prepare_spec o c1 a1) as P. cbv zeta in P.
    destruct (fit_prepare o c1 a1) as [c2 [u2|e]]; auto.
    cbn [fst snd] in P. destruct P as (P1 & _ & _ & _ & _ & P6). specialize (P6 ltac:(destruct u2; auto)).
    destruct P6 as (at2 & size2 & m2 & Q1 & Q2 & Q3 & Q4 & Q5).
    assert (at2 = at_) as -> by (destruct B1 as ((_ & _ & J & _) & _); congruence).
    assert (size2 = size) as -> by (rewrite B3 in Q2; congruence).
    split; [eapply frame_trans; eauto|auto]. }
  assert (E1 : fit_begin c a2 = fit_begin c a1) by reflexivity.
  assert (E2 : forall c1, fit_prepare o c1 a2 = fit_prepare o c1 a1) by reflexivity.
  unfold fit, fit_calls. rewrite E1. destruct (fit_begin c a1) as [c1 [u|e]]; [|auto].
  rewrite E2. destruct (fit_prepare o c1 a1) as [c2 [u2|e]]; [|auto]. destruct Gc as (F2 & Hs2).
  destruct (G c2 F2 Hs2) as (G1 & G2).
  change (degree_used a2) with (degree_used a1). change (fa_tries a1) with n. change (fa_tries a2) with m.
  change (fa_ctol a1) with ctol. change (fa_ctol a2) with ctol. change (fa_brute a1) with brute.
  change (fa_brute a2) with brute. change (fa_coeff a2) with (fa_coeff a1). rewrite G1, G2. auto.
Qed.

(** C62: of the trial fits made by a fit that returns, those that meet all limits of the
    calibrator are at most max_tries, or as many as there are choices of candidate pairs. *)
Lemma fit_work_partial_main :
  forall (A : Type) (N : Num A) (O : NumOrder A) (o : oracle A) fuel c a c' v at_ size,
    (forall l, is_argsort l (o_argsort o l)) -> pairs_current c -> c_atlas c = Some at_ ->
    no_nan (c_peaks c) -> no_nan (get_lines at_) -> r_sample (c_rp c) = Some size ->
    fit o fuel c a = Some (c', Ok v) ->
    let m := Nat.max (fa_deg a + 1) (Nat.min size (List.length (get_lines at_))) in
    exists x y f below rest,
      candidates_of c x y /\ rated_by o c' (degree_used a) x y f /\
      Permutation (fit_calls o fuel c a) (below ++ rest) /\
      (forall d cost, In d below -> ~ good_trial o f d cost) /\
      ((List.length rest <= fa_tries a)%nat \/
       (exists choices, NoDup choices /\ (forall smp, In smp choices <-> choice_of (List.length x) m smp) /\
          (List.length rest <= List.length choices)%nat)).
Proof.
  intros A N O o fuel c a c' v at_ size Harg Hc Ha Np Na Hsz H m.
  destruct (fit_search o fuel c a c' v Harg H) as
    (c2 & x & y & f & samples & s0 & s & co & size' & F2 & Hs & (at2 & Ha2 & Hs2 & Hset) & Hxy & Hd & Hrun & Hcalls & Hp & Hco & Hmp & Hma & Hr).
  assert (size' = size) as -> by congruence. assert (at2 = at_) as -> by congruence.
  assert (Em : adjusted_size a (atlas_len at_) size = m).
  { unfold adjusted_size, m. replace (List.length (get_lines at_)) with (atlas_len at_) by (unfold get_lines, atlas_len; symmetry; apply map_length).
    destruct (Nat.ltb_spec (atlas_len at_) size) as [L1|L1];
      match goal with |- context[Nat.leb ?u ?w] => destruct (Nat.leb_spec u w) end; lia. }
  rewrite Em in Hset.
  pose proof (ransac_work_partial_main A N o fuel _ x y _ _ _ _ _ f samples s0 Hset) as (W & _). rewrite Hrun in W.
  destruct W as (rej & ok & P & L & W).
  pose proof (pairs_current_frame _ _ F2 Hc) as Hc2.
  assert (Nx : no_nan x).
  { destruct F2 as ((E1 & _ & E3 & _) & _). 
    refine (proj1 (xy_no_nan o Harg c2 _ x y at_ Hc2 _ _ Na Hxy)); [rewrite E3; auto|rewrite E1; auto]. }
  pose proof (ransac_setup_Ok _ _ _ _ _ _ _ _ _ _ _ _ Hset) as
    (Hk & Fd & Fx & Fy & Fp & Fdi & Ft & Filo & Fihi & Fpix & Fhw & Fsp & Fme & Fmm & Fmu & Fnp & Fkn & Fb & Fs & Fsm & Fpr & S0 & S0i & S0l & S0m & S0a & S0c).
  exists x, y, f, rej, ok. split; [eapply search_candidates; eauto|]. split; auto.
  split; [rewrite Hcalls, <- Permutation_rev; exact P|]. split.
  - intros d cost Hin Hg. destruct (W d Hin) as (s' & Hs').
    assert (Hne : f_peaks f <> []) by (rewrite Fp; intros E; rewrite E in Hd; cbn in Hd; lia).
    pose proof (good_trial_stored o f s' d cost Hg Hne) as K. rewrite Hs' in K. tauto.
  - destruct (fa_brute a || Nat.leb (List.length (np_unique x)) m).
    + right. exists samples. rewrite Fsm. destruct (brute_force_combinations_main (List.length x) m) as [ND In_l].
      split; auto. split; auto. rewrite Fsm in L. exact L.
    + left. rewrite Fsm, map_length, seq_length in L. exact L.
Qed.

(** C60: the limits that hold for whatever fit returns, and what its figures are. *)
Lemma fit_quality_partial_main :
  forall (A : Type) (N : Num A) (O : NumOrder A) (o : oracle A) fuel c a c' v at_,
    (forall l, is_argsort l (o_argsort o l)) -> pairs_current c -> c_atlas c = Some at_ ->
    no_nan (c_peaks c) -> no_nan (get_lines at_) ->
    fit o fuel c a = Some (c', Ok v) ->
    exists xs ys k tol m u e,
      fv_mpeaks v = MList xs /\ fv_matlas v = MList ys /\ fa_type a = Some k /\
      r_tol (c_rp c) = Some tol /\ r_matches (c_rp c') = Some m /\ r_util (c_rp c) = Some u /\
      r_fit_error (c_rp c) = Some e /\
      (degree_used a < List.length xs)%nat /\ nnat (List.length xs) <' m = false /\
      nnat (List.length xs) <' u *' nnat (List.length (c_peaks c)) = false /\
      fv_rms v <' e = false /\
      fv_resid v = Some (map (fun q => let d := eval_kind k (fst q) (fv_coeff v) -' snd q in
                                       if tol <' nabs d then tol else d) (combine xs ys)) /\
      (forall res, fv_resid v = Some res -> fv_rms v = nsqrt (np_sum (map (fun r => r *' r) res) /' nnat (List.length res))).
Proof.
  intros A N O o fuel c a c' v at_ Harg Hc Ha Np Na H.
  destruct (fit_inv _ _ _ _ _ _ H) as (c2 & c3 & r & co & at' & size & m & F2 & Ha' & Hs & Hm & Hco & Hk & Hs2 & Hm2 &
    Hsol & Hp & Hpu & Hau & Ec' & Ev & Emp & Ema & Erms & Eres).
  pose proof (pairs_current_frame _ _ F2 Hc) as Hc2.
  destruct (solve_ransac_inv o Harg _ _ _ _ _ _ _ _ _ Hsol) as [(K & _)|(x & y & size2 & f & samples & s0 & s & Hxy & Hrest)];
    [congruence|].
  assert (G2 := F2). destruct G2 as ((E1 & E2 & E3 & E4 & E5 & E6 & E7 & E8 & E9) & _ & (R1 & R2 & R3 & R4 & R5 & R6 & R7 & R8)).
  assert (NN : no_nan x /\ no_nan y).
  { eapply xy_no_nan; eauto; [rewrite E3; eauto|rewrite E1; auto]. }
  destruct NN as (Nx & Ny).
  destruct (ransac_valid_matching_main A N O o fuel c2 _ _ _ _ _ c3 r co x y Harg Hxy Nx Ny Hsol Hp) as
    (xs0 & ys0 & M1 & M2 & _ & Hl & _).
  destruct (ransac_quality_partial_main A N O o fuel c2 _ _ _ _ _ c3 r co x y Harg Hxy Nx Ny Hsol Hp) as
    (Hdeg & _ & (mm & Q1 & Q1') & (u & Q2 & Q2') & (e & Q3 & Q3') & (k & tol & xs & ys & tf & T1 & T2 & T3 & T4 & _ & T5 & T6)).
  assert (xs0 = xs) as -> by congruence. assert (ys0 = ys) as -> by congruence.
  pose proof (solve_frame _ _ _ _ _ _ _ _ _ _ Hsol) as (_ & _ & _ & Hmm & _).
  assert (Er' : r_matches (c_rp c') = r_matches (c_rp c3)) by (rewrite Ec'; reflexivity).
  exists xs, ys, k, tol, mm, u, e.
  rewrite <- Hl in Hdeg, Q1', Q2'. rewrite E1 in Q2'.
  split; [congruence|]. split; [congruence|]. split; [congruence|]. split; [congruence|]. split; [congruence|].
  split; [congruence|]. split; [congruence|]. split; auto. split; auto. split; auto. split; [congruence|].
  split; [rewrite Eres, T5, Ev; reflexivity|]. intros res Hres. rewrite Erms, (T6 res) by congruence. unfold np_mean. rewrite map_length. reflexivity.
Qed.

(** C64: what fit returns costs no more than the errors of the coefficients supplied. *)
Lemma supplied_fit_partial_main :
  forall (A : Type) (N : Num A) (O : NumOrder A) (o : oracle A) fuel c a c' v at_ co0,
    (forall l, is_argsort l (o_argsort o l)) -> pairs_current c -> c_atlas c = Some at_ ->
    no_nan (c_peaks c) -> no_nan (get_lines at_) -> fa_coeff a = Some co0 ->
    fit o fuel c a = Some (c', Ok v) ->
    exists x y f d cost xs ys err mx my,
      candidates_of c x y /\ rated_by o c' (degree_used a) x y f /\
      In d (fit_calls o fuel c a) /\ trial_result o f d cost xs ys (fv_coeff v) /\
      match_bijective (fun p => eval_kind (f_kind f) p co0) (f_dict f) (f_peaks f) = Ok (err, mx, my) /\
      (nisnan (np_sum err) = false -> cost <=' np_sum err = true).
Proof.
  intros A N O o fuel c a c' v at_ co0 Harg Hc Ha Np Na Hf H.
  destruct (fit_search o fuel c a c' v Harg H) as
    (c2 & x & y & f & samples & s0 & s & co & size & F2 & Hs & (at2 & Ha2 & Hs2 & Hset) & Hxy & Hd & Hrun & Hcalls & Hp & Hco & Hmp & Hma & Hr).
  pose proof (ransac_setup_Ok _ _ _ _ _ _ _ _ _ _ _ _ Hset) as
    (Hk & Fd & Fx & Fy & Fp & Fdi & Ft & Filo & Fihi & Fpix & Fhw & Fsp & Fme & Fmm & Fmu & Fnp & Fkn & Fb & Fs & Fsm & Fpr & S0 & S0i & S0l & S0m & S0a & S0c).
  assert (St0 : stored o f s0) by (intros z Hz; congruence).
  destruct (run_stored o f fuel samples s0 s St0 Hrun co Hp) as (d & xs & ys & Hin & Ht & M1 & M2).
  rewrite Hf in S0c. destruct S0c as (err & mx & my & Hb & Ec).
  exists x, y, f, d, (s_cost s), xs, ys, err, mx, my. split; [eapply search_candidates; eauto|]. split; auto.
  split; [rewrite Hcalls, <- in_rev; auto|]. split; [congruence|]. split; [rewrite Fdi, Fp; exact Hb|].
  intros Hn. pose proof (run_samples_cost o f fuel samples s0) as K. rewrite Hrun, Ec in K. apply K. exact Hn.
Qed.

(** Five peaks and five lines, hough_weight 0. *)
Definition c_supplied : calib f64 :=
  after ex_peaks
    [OGeneral None (Some [fz 0; fz 150; fz 300; fz 450; fz 600]) None;
     OHough (mkHA (Some (fz 9)) (Some 5%nat) (Some 5%nat) None None (Some (fz 100)) (Some (fz 20)));
     ORansac (mkRA (Some 2%nat) None None None (Some (fz 5)) None (Some (fz 0)) (Some (fz 1)) None None);
     OAddUser (user_lines ex_waves) (fz 10) false].

(** C64: fit succeeds without initial coefficients; supplied with coefficients nearer than
    ransac_tolerance to every line it raises an exception. *)
Lemma supplied_fit_refuted_main :
  let supplied := [fz 3000; fz 10] in
  forallb (fun q => nabs (eval_kind FitPoly (fst q) supplied -' snd q) <' fz 5) (combine ex_peaks ex_waves) = true /\
  r_tol (c_rp c_supplied) = Some (fz 5) /\
  match fit o_ex 60 c_supplied (mkFA 3 1 None (fz 5) (Some FitPoly) (fz 50) false) with
  | Some (_, Ok v) => fv_mpeaks v = MList ex_peaks /\ fv_matlas v = MList ex_waves
  | _ => False
  end /\
  match fit o_ex 60 c_supplied (mkFA 3 1 (Some supplied) (fz 5) (Some FitPoly) (fz 50) false) with
  | Some (_, Raise AssertionError) => True
  | _ => False
  end.
Proof.
  cbv zeta. split; [vm_compute; reflexivity|]. split; [vm_compute; reflexivity|].
  split; vm_compute; auto.
Qed.

(** With hough_weight 1 the fit with the same coefficients returns. *)
Example supplied_fit_example_main :
  pairs_current c_session /\
  match fit o_ex 60 c_session (mkFA 3 1 (Some [fz 3000; fz 10]) (fz 5) (Some FitPoly) (fz 50) false) with
  | Some (_, Ok v) => fv_mpeaks v = MList ex_peaks
  | _ => False
  end.
Proof. split; [exact (proj1 (proj2 fit_session_example_main))|]. vm_compute. reflexivity. Qed.

(** sample_size 5 with five peaks: one trial fit is made although max_tries is 0. *)
Example max_tries_ignored_example_main :
  let c := after ex_peaks (session 5 (fz 1) ex_waves) in
  let a := mkFA 0 1 None (fz 5) (Some FitPoly) (fz 50) false in
  r_sample (c_rp c) = Some 5%nat /\ List.length (c_peaks c) = 5%nat /\
  match c_atlas c with Some at_ => get_lines at_ = ex_waves | None => False end /\
  List.length (fit_calls o_ex 60 c a) = 1%nat /\
  match fit o_ex 60 c a with Some (_, Ok v) => fv_mpeaks v = MList ex_peaks | _ => False end.
Proof.
  cbv zeta. split; [vm_compute; reflexivity|]. split; [vm_compute; reflexivity|].
  split; [vm_compute; reflexivity|]. split; vm_compute; reflexivity.
Qed.

(** In the session of Main_Fit two of the five trial fits are rejected. *)
Example fit_work_example_main :
  pairs_current c_session /\ r_sample (c_rp c_session) = Some 2%nat /\ fa_tries a_session = 3%nat /\
  List.length (fit_calls o_ex 60 c_session a_session) = 5%nat /\
  match fit o_ex 60 c_session a_session with
  | Some (c', Ok v) =>
      fv_mpeaks v = MList ex_peaks /\ r_matches (c_rp c') = Some (fz 1) /\ fv_rms v <' fz 2 = true
  | _ => False
  end.
Proof.
  split; [exact (proj1 (proj2 fit_session_example_main))|]. split; [vm_compute; reflexivity|]. split; [reflexivity|].
  split; [exact session_calls|]. destruct session_answer as (c & v & E & H1 & _ & _ & _ & H2 & H3). rewrite E. auto.
Qed.

(** * Main_Calls: the trial fits made by Calibrator.fit, with proofs.  The statements are
    repeated, without proofs, in Props_Calls.v. *)

From Coq Require Import ZArith Bool List String Lia Reals Lra Sorted Permutation.
From Verif Require Import Num F64 XReal Py Np NpFacts ArgsortFacts Util Models Atlas Hough PolyEval Calib SpecCalib Main_Calib Cand SpecCand CandFacts Ransac SpecRansac RansacFacts Main_Ransac Fit SpecFit FitFacts Main_Fit SpecBrute Main_Brute Calls SpecCalls.
Import ListNotations.
Local Open Scope num_scope.

Section Stored.
  Context {A : Type} {N : Num A} {O : NumOrder A}.
  Variable o : oracle A.

  (** The solution kept comes from one of the trials. *)
  Definition stored (f : cfg A) (s : rstate A) : Prop :=
    forall co, s_p s = Some co ->
      exists d xs ys, In d (s_log s) /\ trial_result o f d (s_cost s) xs ys co /\
        s_mp s = MList xs /\ s_ma s = MList ys.

  Lemma trial_stored f s xh yh :
    match trial o f s xh yh with
    | TNext s' =>
        s_log s' = s_log s /\
        (s' = s \/
         exists co xs ys, s_p s' = Some co /\ s_mp s' = MList xs /\ s_ma s' = MList ys /\
           trial_result o f (xh, yh) (s_cost s') xs ys co)
    | _ => True
    end.
  Proof.
    unfold trial.
    destruct (o_polyfit o (f_kind f) xh yh (f_deg f)) as [[|c0 tf]|e] eqn:Ef; auto.
    destruct (f_peaks f) as [|p0 pr] eqn:Ep; auto.
    match goal with |- context[if ?b then TContinue else _] => destruct b eqn:Eb end; auto.
    apply orb_false_iff in Eb. destruct Eb as [Eb1 Eb2].
    match goal with |- context[match np_ptp ?v with _ => _ end] => destruct (np_ptp v) as [w|] eqn:Ew end; auto.
    match goal with |- context[match nceil ?v with _ => _ end] => destruct (nceil v) eqn:Ec end; auto.
    match goal with |- context[if ?b then TContinue else _] => destruct b eqn:Em end; auto.
    apply negb_false_iff in Em.
    match goal with |- context[match match_bijective ?a ?b ?c with _ => _ end] =>
      destruct (match_bijective a b c) as [[[err mx] my]|] eqn:Eq end; auto.
    match goal with |- context[if ?b then TContinue else _] => destruct b end; auto.
    destruct (hough_bonus f (c0 :: tf)) as [wt|] eqn:Eh; auto.
    match goal with |- context[if ?b then consider _ _ _ _ _ _ _ else _] => destruct b; [|auto] end.
    unfold consider. 
    match goal with |- context[Nat.leb ?a ?b] => destruct (Nat.leb_spec a b) as [|Hd] end; auto.
    match goal with |- context[robust_polyfit ?l ?a ?b ?d ?q] => destruct (robust_polyfit l a b d q) as [co|[]] eqn:Er end; auto.
    match goal with |- context[if ?b then TContinue else _] => destruct b eqn:E1 end; auto.
    match goal with |- context[if ?b then TContinue else _] => destruct b eqn:E2 end; auto.
    match goal with |- context[if ?b then TContinue else _] => destruct b eqn:E3 end; auto.
    match goal with |- context[if ?b then _ else _] => destruct b end; auto.
    cbn [s_log s_p s_mp s_ma s_cost]. split; auto. right.
    eexists _, _, _. split; [reflexivity|]. split; [reflexivity|]. split; [reflexivity|].
    exists (c0 :: tf), wt, err, mx, my, w. cbn [fst snd hd]. rewrite Ep. cbn [hd].
    split; auto. split; [discriminate|]. split; auto. split; auto. split; auto.
    split. { rewrite (last_cons_default pr p0 (nZ 0) p0). split; [congruence|apply each_above_positive; exact Em]. }
    split; auto. split; auto. cbv zeta.
    split. { unfold trial_cost, clip_err. rewrite map_length. reflexivity. }
    split; [reflexivity|]. split; [reflexivity|]. split; [exact Hd|]. split; [exact Er|].
    split; [exact E1|]. split; [exact E2|exact E3].
  Qed.

  Lemma stored_step f s s1 xh yh : stored f s -> s_log s1 = (xh, yh) :: s_log s ->
    s_p s1 = s_p s -> s_cost s1 = s_cost s -> s_mp s1 = s_mp s -> s_ma s1 = s_ma s -> stored f s1.
  Proof.
    intros H E1 E2 E3 E4 E5 co Hc. rewrite E2 in Hc. destruct (H co Hc) as (d & xs & ys & H1 & H2 & H3 & H4).
    exists d, xs, ys. rewrite E1, E3, E4, E5. cbn. auto.
  Qed.

  Lemma try_stored f fuel : forall s smp s', stored f s -> try_sample o fuel f s smp = Done s' -> stored f s'.
  Proof.
    induction fuel as [|n IH]; intros s smp s' Hs; [discriminate|]. cbn [try_sample].
    destruct (draw o n f (s_rng s) smp) as [|t|e|t xh0 yh0]; try discriminate.
    { intros H. injection H as <-. exact Hs. }
    destruct (add_known f xh0 yh0) as [xh yh]. set (s1 := log_fit (xh, yh) (set_rng t s)).
    assert (H1 : stored f s1) by (apply (stored_step f s s1 xh yh Hs); reflexivity).
    pose proof (trial_stored f s1 xh yh) as T. destruct (trial o f s1 xh yh) as [|s2|s2 e]; try discriminate.
    - apply IH; auto.
    - intros H. injection H as <-. destruct T as (T1 & [->|(co & xs & ys & T2 & T3 & T4 & T5)]); auto.
      intros co' Hc. rewrite T2 in Hc. injection Hc as <-. exists (xh, yh), xs, ys. rewrite T1.
      split; [left; reflexivity|]. auto.
  Qed.

  Lemma run_stored f fuel l : forall s s', stored f s -> run_samples o fuel f s l = Done s' -> stored f s'.
  Proof.
    induction l as [|smp r IH]; intros s s' Hs; cbn [run_samples]; [intros H; injection H as <-; auto|].
    destruct (try_sample o fuel f s smp) as [s1|s1 e|s1] eqn:E; try discriminate.
    apply IH. eapply try_stored; eauto.
  Qed.

  Lemma fit_calls_unfold fuel c a : fa_coeff a <> Some [] ->
    fit_calls o fuel c a =
      match fit_begin c a with
      | (_, Raise _) => []
      | (c1, Ok _) =>
          match fit_prepare o c1 a with
          | (_, Raise _) => []
          | (c2, Ok _) =>
              solve_calls o fuel c2 (degree_used a) (fa_tries a) (c_coeff c2) (fa_ctol a) (fa_brute a)
          end
      end.
  Proof. intros H. unfold fit_calls. destruct (fa_coeff a) as [[|]|]; [congruence|reflexivity|reflexivity]. Qed.

  (** The search behind a fit that returns. *)
  Lemma fit_search_at fuel c a c' v :
    (forall l, is_argsort l (o_argsort o l)) ->
    fit o fuel c a = Some (c', Ok v) ->
    exists c2 x y f samples s0 s co size,
      (exists c1, fit_begin c a = (c1, Ok tt) /\ fit_prepare o c1 a = (c2, Ok tt)) /\
      frame c c2 /\ r_sample (c_rp c) = Some size /\
      (exists at_, c_atlas c = Some at_ /\ r_sample (c_rp c2) = Some (adjusted_size a (atlas_len at_) size) /\
         ransac_setup o (set_c_deg (Some (degree_used a)) c2) x y (degree_used a)
           (adjusted_size a (atlas_len at_) size) (fa_tries a) (fa_coeff a) (fa_brute a) = Ok (f, samples, s0)) /\
      ransac_xy o c2 (fa_ctol a) = Ok (x, y) /\
      (degree_used a < List.length (np_unique x))%nat /\
      run_samples o fuel f s0 samples = Done s /\
      fit_calls o fuel c a = rev (s_log s) /\
      s_p s = Some co /\ fv_coeff v = co /\ fv_mpeaks v = s_mp s /\ fv_matlas v = s_ma s /\
      rated_by o c' (degree_used a) x y f.
  Proof.
    intros Harg. unfold fit. intros H.
    assert (H' : match fit_begin c a with
        | (c1, Raise e) => Some (c1, Raise e)
        | (c1, Ok _) =>
            match fit_prepare o c1 a with
            | (c2, Raise e) => Some (c2, Raise e)
            | (c2, Ok _) =>
                match solve_ransac o fuel c2 (degree_used a) (fa_tries a) (c_coeff c2) (fa_ctol a) (fa_brute a) with
                | None => None
                | Some (c3, Raise e) => Some (c3, Raise e)
                | Some (c3, Ok r) => Some (fit_end c3 r)
                end
            end
        end = Some (c', Ok v)).
    { destruct (fa_coeff a) as [[|]|]; [discriminate|exact H|exact H]. }
    assert (Hco : fa_coeff a <> Some []) by (intros E; rewrite E in H; discriminate).
    rewrite (fit_calls_unfold fuel c a Hco).
    clear H. rename H' into H.
    pose proof (fit_begin_spec c a) as B. destruct (fit_begin c a) as [c1 [u|e]] eqn:Eb; [|discriminate].
    cbn [fst snd] in B. destruct B as (B1 & B2 & B3 & B4 & B5 & B6). specialize (B6 ltac:(destruct u; auto)).
    pose proof (fit_prepare_spec o c1 a) as P. cbv zeta in P.
    destruct (fit_prepare o c1 a) as [c2 [u2|e]] eqn:Ep2; [|discriminate].
    cbn [fst snd] in P. destruct P as (P1 & P2 & P3 & P4 & P5 & P6). specialize (P6 ltac:(destruct u2; auto)).
    destruct P6 as (at_ & size & m & Q1 & Q2 & Q3 & Q4 & Q5).
    assert (F2 : frame c c2) by (eapply frame_trans; eauto).
    assert (Ea : c_atlas c = Some at_) by (destruct B1 as ((_ & _ & J & _) & _); congruence).
    rewrite P2, B2 in H |- *. unfold solve_ransac in H. unfold solve_calls.
    destruct (ransac_candidates o c2 (fa_ctol a)) as [q|e]; [|discriminate].
    change (ransac_xy o (set_c_deg (Some (degree_used a)) c2) (fa_ctol a)) with (ransac_xy o c2 (fa_ctol a)) in H |- *.
    destruct (ransac_xy o c2 (fa_ctol a)) as [[x y]|e] eqn:Exy; [|discriminate].
    assert (Hend : forall c3 r, fit_end c3 r = (c', Ok v) ->
      exists co, rr_p r = Some co /\ fv_coeff v = co /\ fv_mpeaks v = c_mpeaks c3 /\ fv_matlas v = c_matlas c3 /\
        c_kind c' = c_kind c3 /\ c_rp c' = c_rp c3 /\ c_hp c' = c_hp c3 /\ c_gp c' = c_gp c3 /\ c_ht c' = c_ht c3 /\
        c_peaks c' = c_peaks c3).
    { intros c3 r He. unfold fit_end in He. destruct (c_atlas c3); [|discriminate].
      destruct (utilisation _ _); [|discriminate]. destruct (utilisation _ _); [|discriminate].
      destruct (rr_p r) as [co|]; [|discriminate]. injection He as <- <-. exists co. cbn. tauto. }
    destruct (Nat.leb_spec (List.length (np_unique x)) (degree_used a)) as [L|L].
    { exfalso. injection H as H. apply Hend in H. destruct H as (co & H & _). discriminate. }
    change (r_sample (c_rp (set_c_deg (Some (degree_used a)) c2))) with (r_sample (c_rp c2)) in H |- *.
    rewrite Q4 in H |- *.
    destruct (ransac_setup o _ x y _ _ _ _ _) as [[[f samples] s0]|e] eqn:Eset; [|discriminate].
    destruct (run_samples o fuel f s0 samples) as [s|s e|s] eqn:Erun; [|discriminate|discriminate].
    destruct (ransac_result (degree_used a) s) as [r|e] eqn:Er; [|discriminate].
    injection H as H. apply Hend in H. destruct H as (co & H1 & H2 & H3 & H4 & H5 & H6 & H7 & H8 & H9 & H10).
    assert (Ep : rr_p r = s_p s).
    { unfold ransac_result in Er. destruct (mseq_len (s_mp s)); [|discriminate]. destruct (mseq_len (s_ma s)); [|discriminate].
      match type of Er with (if ?b then _ else _) = _ => destruct b end; [|discriminate]. injection Er as <-. reflexivity. }
    pose proof (ransac_setup_Ok _ _ _ _ _ _ _ _ _ _ _ _ Eset) as
    (Hk & Fd & Fx & Fy & Fp & Fdi & Ft & Filo & Fihi & Fpix & Fhw & Fsp & Fme & Fmm & Fmu & Fnp & Fkn & Fb & Fs & Fsm & Fpr & S0 & S0i & S0l & S0m & S0a & S0c).
    exists c2, x, y, f, samples, s0, s, co, size.
    split; [exists c1; destruct u, u2; auto|].
    split; auto. split; [congruence|]. split; [exists at_; auto|]. split; auto. split; auto. split; auto.
    split; auto. split; [congruence|]. split; auto.
    split; [rewrite H3; reflexivity|]. split; [rewrite H4; reflexivity|].
    unfold rated_by. rewrite H5, H6, H7, H8, H9, H10.
    destruct (fa_brute a || Nat.leb (List.length (np_unique x)) _); cbn in Hk, Ft, Filo, Fihi, Fpix, Fhw, Fsp, Fme, Fmm, Fmu, Fnp |- *;
      repeat (split; [assumption|]); assumption.
  Qed.
  Lemma fit_search fuel c a c' v :
    (forall l, is_argsort l (o_argsort o l)) ->
    fit o fuel c a = Some (c', Ok v) ->
    exists c2 x y f samples s0 s co size,
      frame c c2 /\ r_sample (c_rp c) = Some size /\
      (exists at_, c_atlas c = Some at_ /\ r_sample (c_rp c2) = Some (adjusted_size a (atlas_len at_) size) /\
         ransac_setup o (set_c_deg (Some (degree_used a)) c2) x y (degree_used a)
           (adjusted_size a (atlas_len at_) size) (fa_tries a) (fa_coeff a) (fa_brute a) = Ok (f, samples, s0)) /\
      ransac_xy o c2 (fa_ctol a) = Ok (x, y) /\
      (degree_used a < List.length (np_unique x))%nat /\
      run_samples o fuel f s0 samples = Done s /\
      fit_calls o fuel c a = rev (s_log s) /\
      s_p s = Some co /\ fv_coeff v = co /\ fv_mpeaks v = s_mp s /\ fv_matlas v = s_ma s /\
      rated_by o c' (degree_used a) x y f.
  Proof.
    intros Harg H. destruct (fit_search_at fuel c a c' v Harg H) as (c2 & x & y & f & samples & s0 & s & co & size & _ & K).
    exists c2, x, y, f, samples, s0, s, co, size. exact K.
  Qed.
End Stored.

Lemma combine_at {S T} : forall (a : list S) (b : list T) k x y,
  nth_error a k = Some x -> nth_error b k = Some y -> In (x, y) (combine a b).
Proof.
  induction a as [|u a IH]; intros [|v b] [|k] x y H1 H2; try discriminate; cbn in *.
  - injection H1 as ->. injection H2 as ->. auto.
  - right. eauto.
Qed.

(** The candidates of a search are peaks and lines. *)
Lemma search_candidates {A} {N : Num A} (o : oracle A) c c2 ctol x y :
  (forall l, is_argsort l (o_argsort o l)) -> pairs_current c -> frame c c2 ->
  ransac_xy o c2 ctol = Ok (x, y) -> candidates_of c x y.
Proof.
  intros Harg Hc F Hxy. pose proof (pairs_current_frame _ _ F Hc) as Hc2.
  assert (L : List.length x = List.length y) by (eapply ransac_xy_length; eauto).
  destruct F as ((E1 & _ & E3 & _) & _).
  destruct Hc as (at_ & Ha & _).
  split; auto. split.
  - intros p Hp. apply In_nth_error in Hp. destruct Hp as (i & Ei).
    destruct (nth_error y i) as [w|] eqn:Ew; [|apply nth_error_None in Ew; assert (i < List.length x)%nat by (apply nth_error_Some; congruence); lia].
    assert (Hin : In (p, w) (combine x y)) by (eapply combine_at; eauto).
    destruct (xy_current o Harg _ _ _ _ _ _ Hc2 Hxy Hin) as (at2 & _ & Q1 & _). congruence.
  - exists at_. split; auto. intros w Hw. apply In_nth_error in Hw. destruct Hw as (i & Ei).
    destruct (nth_error x i) as [p|] eqn:Ew; [|apply nth_error_None in Ew; assert (i < List.length y)%nat by (apply nth_error_Some; congruence); lia].
    assert (Hin : In (p, w) (combine x y)) by (eapply combine_at; eauto).
    destruct (xy_current o Harg _ _ _ _ _ _ Hc2 Hxy Hin) as (at2 & Q0 & _ & Q1).
    assert (at2 = at_) as -> by congruence. auto.
Qed.

Lemma try_log {A} {N : Num A} {O : NumOrder A} (o : oracle A) f fuel : forall s sample,
  match try_sample o fuel f s sample with
  | Done s' | Fail s' _ | Out s' => exists l, s_log s' = (l ++ s_log s)%list
  end.
Proof.
  induction fuel as [|n IH]; intros s sample; cbn [try_sample]; [exists []; auto|].
  destruct (draw o n f (s_rng s) sample) as [|t|e|t xh0 yh0]; try (exists []; auto; fail).
  destruct (add_known f xh0 yh0) as [xh yh]. set (s1 := log_fit (xh, yh) (set_rng t s)).
  pose proof (trial_cost_le o f s1 xh yh) as H. destruct (trial o f s1 xh yh) as [|s'|s' e].
  - specialize (IH s1 sample). destruct (try_sample o n f s1 sample); destruct IH as (l & I2);
      exists (l ++ [(xh, yh)])%list; rewrite <- app_assoc; exact I2.
  - exists [(xh, yh)]. exact (proj2 H).
  - exists [(xh, yh)]. exact (proj2 H).
Qed.

Lemma run_log {A} {N : Num A} {O : NumOrder A} (o : oracle A) f fuel samples : forall s,
  match run_samples o fuel f s samples with
  | Done s' | Fail s' _ | Out s' => exists l, s_log s' = (l ++ s_log s)%list
  end.
Proof.
  induction samples as [|smp r IH]; intros s; cbn [run_samples]; [exists []; auto|].
  pose proof (try_log o f fuel s smp) as H. destruct (try_sample o fuel f s smp) as [s1|s1 e|s1]; auto.
  destruct H as (l1 & H2). specialize (IH s1). destruct (run_samples o fuel f s1 r); destruct IH as (l & I2);
    exists (l ++ l1)%list; rewrite <- app_assoc, <- H2; exact I2.
Qed.

(** C61: two calls of fit in the same state that differ in max_tries only.  The one with
    more tries makes the trial fits of the other first, and the trial it returns is not
    more expensive than the one the other returns. *)
Lemma fit_more_tries_main :
  forall (A : Type) (N : Num A) (O : NumOrder A) (o : oracle A) fuel c n m deg coeff ftol kind ctol brute c1 v1 c2 v2 at_,
    (forall l, is_argsort l (o_argsort o l)) -> pairs_current c -> c_atlas c = Some at_ ->
    no_nan (c_peaks c) -> no_nan (get_lines at_) -> (n <= m)%nat ->
    let a := mkFA n deg coeff ftol kind ctol brute in
    let b := mkFA m deg coeff ftol kind ctol brute in
    fit o fuel c a = Some (c1, Ok v1) -> fit o fuel c b = Some (c2, Ok v2) ->
    exists x y f d1 d2 cost1 cost2 xs1 ys1 xs2 ys2 more,
      candidates_of c x y /\ rated_by o c1 (degree_used a) x y f /\ rated_by o c2 (degree_used a) x y f /\
      (fit_calls o fuel c b = fit_calls o fuel c a ++ more)%list /\
      In d1 (fit_calls o fuel c a) /\ trial_result o f d1 cost1 xs1 ys1 (fv_coeff v1) /\
      fv_mpeaks v1 = MList xs1 /\ fv_matlas v1 = MList ys1 /\
      In d2 (fit_calls o fuel c b) /\ trial_result o f d2 cost2 xs2 ys2 (fv_coeff v2) /\
      fv_mpeaks v2 = MList xs2 /\ fv_matlas v2 = MList ys2 /\
      cost1 <' cost2 = false.
Proof.
  intros A N O o fuel c n m deg coeff ftol kind ctol brute c1 v1 c2 v2 at_ Harg Hc Ha Np Na Hnm a b H1 H2.
  destruct (fit_search_at o fuel c a c1 v1 Harg H1) as
    (e1 & x & y & f & samples & s0 & s & co & size & (i1 & Ib1 & Ip1) & F & Hs & (at1 & Ha1 & Hs1 & Hset) & Hxy & Hd & Hrun & Hcalls & Hp & Hco & Hmp & Hma & Hr).
  destruct (fit_search_at o fuel c b c2 v2 Harg H2) as
    (e2 & x' & y' & f' & samples' & s0' & s' & co' & size' & (i2 & Ib2 & Ip2) & F' & Hs' & (at2 & Ha2 & Hs2 & Hset') & Hxy' & Hd' & Hrun' & Hcalls' & Hp' & Hco' & Hmp' & Hma' & Hr').
  change (fit_begin c b) with (fit_begin c a) in Ib2. assert (i2 = i1) as -> by congruence.
  change (fit_prepare o i1 b) with (fit_prepare o i1 a) in Ip2. assert (e2 = e1) as -> by congruence.
  change (fa_ctol b) with (fa_ctol a) in Hxy'. rewrite Hxy in Hxy'. injection Hxy' as <- <-.
  assert (size' = size) as -> by congruence. assert (at2 = at1) as -> by congruence.
  change (degree_used b) with (degree_used a) in *. change (adjusted_size b) with (adjusted_size a) in *.
  change (fa_coeff b) with (fa_coeff a) in *. change (fa_brute b) with brute in *. change (fa_brute a) with brute in *.
  change (fa_tries a) with n in *. change (fa_tries b) with m in *.
  set (sz := adjusted_size a (atlas_len at1) size) in *.
  assert (Hset2 : exists l2, ransac_setup o (set_c_deg (Some (degree_used a)) e1) x y (degree_used a) sz m (fa_coeff a) (brute) = Ok (f, samples ++ l2, s0)%list).
  { exists (if brute || Nat.leb (List.length (np_unique x)) sz then [] else map (fun i => [i]) (seq n (m - n))).
    clear -Hset Hnm. unfold ransac_setup in *.
    repeat match type of Hset with
    | bind ?r _ = Ok _ => destruct r; [|discriminate]; cbn [bind] in *
    end.
    injection Hset as <- <- <-. do 3 f_equal.
    destruct (brute || Nat.leb (List.length (np_unique x)) sz); [rewrite app_nil_r; auto|].
    rewrite <- map_app. f_equal. replace m with (n + (m - n))%nat at 1 by lia. rewrite seq_app. auto. }
  destruct Hset2 as (l2 & Hset2). rewrite Hset2 in Hset'. injection Hset' as <- <- <-.
  rewrite run_samples_app, Hrun in Hrun'.
  pose proof (run_log o f fuel l2 s) as Hl. rewrite Hrun' in Hl. destruct Hl as (l & Hl).
  pose proof (pairs_current_frame _ _ F Hc) as Hce.
  assert (NN : no_nan x /\ no_nan y).
  { destruct F as ((E1 & _ & E3 & _) & _). eapply xy_no_nan; eauto; [rewrite E3; eauto|rewrite E1; auto]. }
  destruct NN as (Nx & Ny).
  assert (Hx : x <> []) by (intros ->; cbn in Hd; lia).
  pose proof (ransac_setup_Ok _ _ _ _ _ _ _ _ _ _ _ _ Hset) as
    (Hk & Fd & Fx & Fy & Fp & Fdi & Ft & Filo & Fihi & Fpix & Fhw & Fsp & Fme & Fmm & Fmu & Fnp & Fkn & Fb & Fs & Fsm & Fpr & S0 & S0i & S0l & S0m & S0a & S0c).
  assert (St0 : stored o f s0) by (intros z Hz; congruence).
  destruct (run_stored o f fuel samples s0 s St0 Hrun co Hp) as (d & xs & ys & Hin & Ht & M1 & M2).
  assert (Hrun2 : run_samples o fuel f s0 (samples ++ l2) = Done s') by (rewrite run_samples_app, Hrun; exact Hrun').
  destruct (run_stored o f fuel (samples ++ l2) s0 s' St0 Hrun2 co' Hp') as (d' & xs' & ys' & Hin' & Ht' & M1' & M2').
  pose proof (ransac_keeps_best_main A N O o fuel _ x y _ _ _ _ _ f _ s0 s' Hx Nx Hset2 Hrun2) as Hb.
  exists x, y, f, d, d', (s_cost s), (s_cost s'), xs, ys, xs', ys', (rev l).
  split; [eapply search_candidates; eauto|]. split; [exact Hr|]. split; [exact Hr'|].
  split; [rewrite Hcalls, Hcalls', Hl, rev_app_distr; reflexivity|].
  rewrite Hcalls, Hcalls'. split; [rewrite <- in_rev; exact Hin|]. split; [congruence|]. split; [congruence|]. split; [congruence|].
  split; [rewrite <- in_rev; exact Hin'|]. split; [congruence|]. split; [congruence|]. split; [congruence|].
  apply (Hb d); [rewrite Hl; apply in_or_app; right; exact Hin|]. exists xs, ys, co. congruence.
Qed.

(** C141: what fit returns is the robust refit of the matches of one of the trial fits it
    made, and no acceptable trial fit was cheaper. *)
Lemma fit_best_of_trials_main :
  forall (A : Type) (N : Num A) (O : NumOrder A) (o : oracle A) fuel c a c' v at_,
    (forall l, is_argsort l (o_argsort o l)) -> pairs_current c -> c_atlas c = Some at_ ->
    no_nan (c_peaks c) -> no_nan (get_lines at_) ->
    fit o fuel c a = Some (c', Ok v) ->
    exists x y f d cost xs ys,
      candidates_of c x y /\ rated_by o c' (degree_used a) x y f /\
      In d (fit_calls o fuel c a) /\ trial_result o f d cost xs ys (fv_coeff v) /\
      fv_mpeaks v = MList xs /\ fv_matlas v = MList ys /\
      forall d' cost', In d' (fit_calls o fuel c a) -> good_trial o f d' cost' -> cost' <' cost = false.
Proof.
  intros A N O o fuel c a c' v at_ Harg Hc Ha Np Na H.
  destruct (fit_search o fuel c a c' v Harg H) as
    (c2 & x & y & f & samples & s0 & s & co & size & F2 & Hs & (at2 & Ha2 & Hs2 & Hset) & Hxy & Hd & Hrun & Hcalls & Hp & Hco & Hmp & Hma & Hr).
  pose proof (pairs_current_frame _ _ F2 Hc) as Hc2.
  assert (NN : no_nan x /\ no_nan y).
  { destruct F2 as ((E1 & _ & E3 & _) & _). eapply xy_no_nan; eauto; [rewrite E3; eauto|rewrite E1; auto]. }
  destruct NN as (Nx & Ny).
  assert (Hx : x <> []) by (intros ->; cbn in Hd; lia).
  pose proof (ransac_keeps_best_main A N O o fuel _ x y _ _ _ _ _ f samples s0 s Hx Nx Hset Hrun) as Hb.
  pose proof (ransac_setup_Ok _ _ _ _ _ _ _ _ _ _ _ _ Hset) as
    (Hk & Fd & Fx & Fy & Fp & Fdi & Ft & Filo & Fihi & Fpix & Fhw & Fsp & Fme & Fmm & Fmu & Fnp & Fkn & Fb & Fs & Fsm & Fpr & S0 & S0i & S0l & S0m & S0a & S0c).
  assert (St0 : stored o f s0) by (intros z Hz; congruence).
  destruct (run_stored o f fuel samples s0 s St0 Hrun co Hp) as (d & xs & ys & Hin & Ht & M1 & M2).
  exists x, y, f, d, (s_cost s), xs, ys. split; [eapply search_candidates; eauto|]. split; auto.
  rewrite Hcalls. split; [rewrite <- in_rev; auto|]. split; [congruence|]. split; [congruence|]. split; [congruence|].
  intros d' cost' Hin'. rewrite <- in_rev in Hin'. apply Hb; auto.
Qed.

(** C122, C141: with brute force the trial fits are made for all choices of candidate
    pairs, each once; so what fit returns is the best over all choices. *)
Lemma fit_brute_best_main :
  forall (A : Type) (N : Num A) (O : NumOrder A) (o : oracle A) fuel c a c' v at_ size,
    (forall l, is_argsort l (o_argsort o l)) -> pairs_current c -> c_atlas c = Some at_ ->
    no_nan (c_peaks c) -> no_nan (get_lines at_) ->
    r_sample (c_rp c) = Some size -> fa_brute a = true ->
    fit o fuel c a = Some (c', Ok v) ->
    let m := Nat.max (fa_deg a + 1) (Nat.min size (List.length (get_lines at_))) in
    exists x y f d cost xs ys choices,
      candidates_of c x y /\ rated_by o c' (degree_used a) x y f /\
      NoDup choices /\ (forall smp, In smp choices <-> choice_of (List.length x) m smp) /\
      Forall2 (chosen (c_known c) x y) choices (fit_calls o fuel c a) /\
      In d (fit_calls o fuel c a) /\ trial_result o f d cost xs ys (fv_coeff v) /\
      fv_mpeaks v = MList xs /\ fv_matlas v = MList ys /\
      forall smp d' cost', choice_of (List.length x) m smp -> chosen (c_known c) x y smp d' ->
        good_trial o f d' cost' -> cost' <' cost = false.
Proof.
  intros A N O o fuel c a c' v at_ size Harg Hc Ha Np Na Hsz Hbr H m.
  destruct (fit_search o fuel c a c' v Harg H) as
    (c2 & x & y & f & samples & s0 & s & co & size' & F2 & Hs & (at2 & Ha2 & Hs2 & Hset) & Hxy & Hd & Hrun & Hcalls & Hp & Hco & Hmp & Hma & Hr).
  assert (size' = size) as -> by congruence. assert (at2 = at_) as -> by congruence.
  assert (Em : adjusted_size a (atlas_len at_) size = m).
  { unfold adjusted_size, m. replace (List.length (get_lines at_)) with (atlas_len at_) by (unfold get_lines, atlas_len; symmetry; apply map_length).
    destruct (Nat.ltb_spec (atlas_len at_) size) as [L1|L1];
      match goal with |- context[Nat.leb ?u ?w] => destruct (Nat.leb_spec u w) end; lia. }
  rewrite Em, Hbr in Hset.
  pose proof (pairs_current_frame _ _ F2 Hc) as Hc2.
  assert (NN : no_nan x /\ no_nan y).
  { destruct F2 as ((E1 & _ & E3 & _) & _). eapply xy_no_nan; eauto; [rewrite E3; eauto|rewrite E1; auto]. }
  destruct NN as (Nx & Ny).
  assert (Hx : x <> []) by (intros ->; cbn in Hd; lia).
  assert (L : List.length x = List.length y) by (eapply ransac_xy_length; eauto).
  pose proof (brute_force_best_main A N O o fuel _ x y _ _ _ _ f samples s0 s Hx Nx L Hset Hrun) as Hb.
  destruct (brute_force_fits_main A N o fuel _ x y _ _ _ _ f samples s0 s L Hset Hrun) as (ch & ND & Hch & Hfit).
  pose proof (ransac_setup_Ok _ _ _ _ _ _ _ _ _ _ _ _ Hset) as
    (Hk & Fd & Fx & Fy & Fp & Fdi & Ft & Filo & Fihi & Fpix & Fhw & Fsp & Fme & Fmm & Fmu & Fnp & Fkn & Fb & Fs & Fsm & Fpr & S0 & S0i & S0l & S0m & S0a & S0c).
  assert (St0 : stored o f s0) by (intros z Hz; congruence).
  destruct (run_stored o f fuel samples s0 s St0 Hrun co Hp) as (d & xs & ys & Hin & Ht & M1 & M2).
  assert (Ek : c_known (set_c_deg (Some (degree_used a)) c2) = c_known c).
  { destruct F2 as ((_ & _ & _ & E4 & _) & _). exact E4. }
  rewrite Ek in Hfit, Hb.
  exists x, y, f, d, (s_cost s), xs, ys, (rev ch). split; [eapply search_candidates; eauto|]. split; auto.
  split; [apply NoDup_rev; auto|]. split; [intros smp; rewrite <- in_rev; apply Hch|].
  rewrite Hcalls. split.
  { clear -Hfit. induction Hfit as [|u w l l' Hu _ IH]; cbn [rev]; [constructor|]. apply Forall2_app; auto. }
  split; [rewrite <- in_rev; auto|]. split; [congruence|]. split; [congruence|]. split; [congruence|].
  exact Hb.
Qed.

(** C63: whatever comes of it, every trial fit made by fit is made to peaks and lines of
    the calibrator followed by all known pairs, in order; without brute force no line is
    used twice in a sample. *)
Lemma fit_calls_known_main :
  forall (A : Type) (N : Num A) (O : NumOrder A) (o : oracle A) fuel c a at_,
    (forall l, is_argsort l (o_argsort o l)) -> (forall t l, l <> [] -> In (o_pick o t l) l) ->
    pairs_current c -> c_atlas c = Some at_ -> no_nan (c_peaks c) -> no_nan (get_lines at_) ->
    forall d, In d (fit_calls o fuel c a) ->
      exists xs ys,
        d = match c_known c with Some (kx, ky) => (xs ++ kx, ys ++ ky)%list | None => (xs, ys) end /\
        Forall2 (fun p w => (exists q, In q (c_peaks c) /\ q ==' p = true) /\
                            (exists z, In z (get_lines at_) /\ z ==' w = true)) xs ys /\
        (fa_brute a = false -> pairwise_different ys).
Proof.
  intros A N O o fuel c a at_ Harg Hpick Hc Ha Np Na d Hin.
  destruct (list_eq_dec Nat.eq_dec (match fa_coeff a with Some [] => [0%nat] | _ => [] end) []) as [Hn|Hn];
    [|unfold fit_calls in Hin; destruct (fa_coeff a) as [[|]|]; [destruct Hin|congruence|congruence]].
  rewrite fit_calls_unfold in Hin by (intros E; rewrite E in Hn; discriminate). clear Hn.
  pose proof (fit_begin_spec c a) as B. destruct (fit_begin c a) as [c1 [u|e]]; [|destruct Hin].
  cbn [fst snd] in B. destruct B as (B1 & _).
  pose proof (fit_prepare_spec o c1 a) as P. cbv zeta in P.
  destruct (fit_prepare o c1 a) as [c2 [u2|e]]; [|destruct Hin].
  cbn [fst snd] in P. destruct P as (P1 & _).
  assert (F2 : frame c c2) by (eapply frame_trans; eauto). clear P1 B1.
  unfold solve_calls in Hin. destruct (ransac_candidates o c2 (fa_ctol a)) as [q|e]; [|destruct Hin].
  change (ransac_xy o (set_c_deg (Some (degree_used a)) c2) (fa_ctol a)) with (ransac_xy o c2 (fa_ctol a)) in Hin.
  destruct (ransac_xy o c2 (fa_ctol a)) as [[x y]|e] eqn:Hxy; [|destruct Hin].
  destruct (Nat.leb _ _); [destruct Hin|]. destruct (r_sample _) as [size|]; [|destruct Hin].
  destruct (ransac_setup o _ x y _ _ _ _ _) as [[[f samples] s0]|e] eqn:Hset; [|destruct Hin].
  pose proof (pairs_current_frame _ _ F2 Hc) as Hc2.
  assert (NN : no_nan x /\ no_nan y).
  { destruct F2 as ((E1 & _ & E3 & _) & _). eapply xy_no_nan; eauto; [rewrite E3; eauto|rewrite E1; auto]. }
  destruct NN as (Nx & Ny).
  destruct (search_candidates o c c2 _ x y Harg Hc F2 Hxy) as (L & Hx & at2 & Ha2 & Hy).
  assert (at2 = at_) as -> by congruence.
  pose proof (ransac_known_pairs_partial_main A N O o fuel _ x y _ _ _ _ _ f samples s0 Hpick L Nx Ny Hset) as K.
  pose proof (ransac_setup_Ok _ _ _ _ _ _ _ _ _ _ _ _ Hset) as
    (Hk & Fd & Fx & Fy & Fp & Fdi & Ft & Filo & Fihi & Fpix & Fhw & Fsp & Fme & Fmm & Fmu & Fnp & Fkn & Fb & Fs & Fsm & Fpr & S0 & S0i & S0l & S0m & S0a & S0c).
  assert (H0 : Forall (fit_data o f samples) (s_log s0)) by (rewrite S0l; constructor).
  pose proof (run_samples_log o f fuel samples Hpick samples s0 (fun z H => H) H0) as G.
  assert (Ek : c_known (set_c_deg (Some (degree_used a)) c2) = c_known c).
  { destruct F2 as ((_ & _ & _ & E4 & _) & _). exact E4. }
  rewrite Ek in K, Fkn.
  set (lg := match run_samples o fuel f s0 samples with Done s | Fail s _ | Out s => s_log s end).
  assert (Hin' : In d lg) by (unfold lg; destruct (run_samples o fuel f s0 samples); apply in_rev; exact Hin).
  assert (K' : forall d, In d lg -> exists xs ys,
          d = match c_known c with Some (kx, ky) => (xs ++ kx, ys ++ ky)%list | None => (xs, ys) end /\
          Forall2 (candidate_pair x y) xs ys) by (unfold lg; destruct (run_samples o fuel f s0 samples); exact K).
  assert (G' : Forall (fit_data o f samples) lg) by (unfold lg; destruct (run_samples o fuel f s0 samples); exact G).
  rewrite Forall_forall in G'. destruct (K' d Hin') as (xs & ys & Ed & HF). destruct (G' d Hin') as (xs' & ys' & Ed' & HD).
  assert (Ey : ys' = ys).
  { rewrite Fkn in Ed'. rewrite Ed in Ed'. destruct (c_known c) as [[kx ky]|]; [|congruence].
    assert (Q : (ys ++ ky)%list = (ys' ++ ky)%list) by congruence. apply app_inv_tail in Q. auto. }
  subst ys'. exists xs, ys. split; auto. split.
  - clear -HF Hx Hy. induction HF as [|p w xs ys (p' & w' & H1 & H2 & H3) _ IH]; constructor; auto. split.
    + exists p'. split; auto. apply Hx. eapply in_combine_l; eauto.
    + exists w'. split; auto. apply Hy. eapply in_combine_r; eauto.
  - intros Eb. rewrite Fb, Eb in HD. tauto.
Qed.

(** A session without a minimum error, for brute force. *)
Definition c_all : calib f64 :=
  after ex_peaks
    [OGeneral None (Some [fz 0; fz 150; fz 300; fz 450; fz 600]) None;
     OHough (mkHA (Some (fz 9)) (Some 5%nat) (Some 5%nat) None None (Some (fz 100)) (Some (fz 20)));
     ORansac (mkRA (Some 2%nat) None None None (Some (fz 5)) None None (Some (fz 1)) None (Some (fz 0)));
     OAddUser (user_lines ex_waves) (fz 10) false].
Definition a_all : fit_args f64 := mkFA 9 1 None (fz 5) (Some FitPoly) (fz 50) true.

Lemma c_all_current : pairs_current c_all.
Proof.
  destruct (c_atlas c_all) as [at_|] eqn:Ea; [|vm_compute in Ea; discriminate].
  destruct (c_pairs c_all) as [| |l] eqn:Ep; [vm_compute in Ep; discriminate|vm_compute in Ep; discriminate|].
  eapply pairs_current_list; eauto.
  assert (H : match c_atlas c_all, c_pairs c_all with
              | Some at_, PArr l => l = list_prod (c_peaks c_all) (get_lines at_)
              | _, _ => True end) by (vm_compute; reflexivity).
  rewrite Ea, Ep in H. exact H.
Qed.

(** The ten pairs of the five candidates are fitted and all five peaks are matched. *)
Example fit_brute_best_example_main :
  pairs_current c_all /\ r_sample (c_rp c_all) = Some 2%nat /\
  match fit o_ex 10 c_all a_all with
  | Some (_, Ok v) => fv_mpeaks v = MList ex_peaks /\ fv_matlas v = MList ex_waves
  | _ => False
  end /\
  map fst (fit_calls o_ex 10 c_all a_all) =
    [[fz 100; fz 190]; [fz 100; fz 310]; [fz 100; fz 430]; [fz 100; fz 500]; [fz 190; fz 310];
     [fz 190; fz 430]; [fz 190; fz 500]; [fz 310; fz 430]; [fz 310; fz 500]; [fz 430; fz 500]].
Proof.
  split; [apply c_all_current|]. split; [vm_compute; reflexivity|]. split; [vm_compute; split; reflexivity|].
  vm_compute. reflexivity.
Qed.

Lemma session_peaks : match fit o_ex 60 c_session a_session with Some (_, Ok v) => fv_mpeaks v = MList ex_peaks | _ => False end.
Proof.
  destruct session_answer as (c & v & E & H & _). rewrite E. exact H.
Qed.
Lemma session_calls : List.length (fit_calls o_ex 60 c_session a_session) = 5%nat.
Proof. vm_compute. reflexivity. Qed.

(** The session of Main_Fit: five trial fits are made for three tries. *)
Example fit_best_of_trials_example_main :
  pairs_current c_session /\
  match fit o_ex 60 c_session a_session with
  | Some (_, Ok v) => fv_mpeaks v = MList ex_peaks
  | _ => False
  end /\ List.length (fit_calls o_ex 60 c_session a_session) = 5%nat.
Proof.
  split; [exact (proj1 (proj2 fit_session_example_main))|]. split; [exact session_peaks|exact session_calls].
Qed.

(** The session of Main_Fit with two and with three tries. *)
Example fit_more_tries_example_main :
  let a n := mkFA n (fa_deg a_session) (fa_coeff a_session) (fa_ftol a_session) (fa_type a_session) (fa_ctol a_session) (fa_brute a_session) in
  pairs_current c_session /\
  match fit o_ex 60 c_session (a 2%nat) with Some (_, Ok v) => fv_mpeaks v = MList ex_peaks | _ => False end /\
  match fit o_ex 60 c_session (a 3%nat) with Some (_, Ok v) => fv_mpeaks v = MList ex_peaks | _ => False end /\
  (List.length (fit_calls o_ex 60 c_session (a 2%nat)) < List.length (fit_calls o_ex 60 c_session (a 3%nat)))%nat.
Proof.
  cbv zeta. split; [exact (proj1 (proj2 fit_session_example_main))|]. split; [vm_compute; reflexivity|]. split; [exact session_peaks|].
  match goal with |- (_ < List.length (fit_calls _ _ _ ?x))%nat => change x with a_session end.
  rewrite session_calls. apply Nat.ltb_lt. vm_compute. reflexivity.
Qed.

Lemma known_current (c : calib f64) k : pairs_current c -> pairs_current (set_c_known k c).
Proof. intros (at_ & H1 & H2). exists at_. split; [exact H1|exact H2]. Qed.

(** The same session with one known pair: it is the last point of every trial fit. *)
Example fit_calls_known_example_main :
  let c := set_c_known (Some ([fz 600], [fz 9004])) c_session in
  pairs_current c /\
  map (fun d => (last (fst d) (fz 0), last (snd d) (fz 0))) (firstn 2 (fit_calls o_ex 60 c a_session)) =
    [(fz 600, fz 9004); (fz 600, fz 9004)].
Proof.
  cbv zeta. split; [|vm_compute; reflexivity].
  apply known_current. exact (proj1 (proj2 fit_session_example_main)).
Qed.

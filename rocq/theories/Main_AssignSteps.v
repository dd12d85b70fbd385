(** * Main_AssignSteps: interrupting match_peaks, manual_refit and the editing of pairs. *)

From Coq Require Import ZArith Bool List Lia Reals Lra.
From Verif Require Import Num F64 XReal Py Np NpFacts Util Models Atlas AtlasFacts SpecAtlas Hough PolyEval Calib SpecCalib CalibFacts Main_Calib Cand Ransac Main_Ransac Fit SpecFit FitFacts Main_Fit MatchPeaks SpecMatch Main_Match RansacFacts AssignSteps SpecAssign.
Import ListNotations.
Local Open Scope num_scope.

Section Steps.
  Context {A : Type} {N : Num A}.

  (** All the assignments of a call amount to the call. *)
  Lemma store_steps_all o (c : calib A) deg robust refined xs cand na :
    do_assigns (store_steps o c deg robust refined xs cand na) c = fst (match_store o c deg robust refined xs cand na).
  Proof.
    unfold store_steps, match_store. cbv zeta.
    destruct (bind (polyfit_of o (c_kind c) xs cand deg) _) as [[co resid]|e]; [|reflexivity].
    destruct (negb _); [reflexivity|]. destruct (Nat.eqb (length (c_peaks c)) 0); [reflexivity|].
    destruct (Nat.eqb na 0); [reflexivity|]. destruct robust.
    - destruct (robust_polyfit _ _ _ _ _) as [co'|e]; [|reflexivity]. destruct (existsb _ _); [reflexivity|].
      destruct (polyvals_of _ _ _); reflexivity.
    - destruct refined; reflexivity.
  Qed.
  Lemma match_steps_all o mini (c : calib A) a : do_assigns (match_steps o mini c a) c = fst (match_peaks o mini c a).
  Proof.
    unfold match_steps, match_peaks.
    destruct (match ma_coeff a, c_coeff c with MNone, None => _ | MNone, Some l => _ | m, _ => _ end) as [co|e]; [|reflexivity].
    destruct (mseq_vals co) as [|v l]; [reflexivity|]. cbv zeta.
    destruct (if ma_refine a then _ else _) as [[[new|]|]|e]; try reflexivity.
    all: destruct (c_atlas c) as [at_|]; [|reflexivity];
      destruct (bind (lines_within _ _ _ _ _) _) as [[xs cand]|e]; [|reflexivity]; apply store_steps_all.
  Qed.
  Lemma refit_steps_all o (c : calib A) a : do_assigns (refit_steps o c a) c = fst (manual_refit o c a).
  Proof.
    unfold refit_steps, manual_refit. cbv zeta. destruct (refit_start c a) as [[x0 d]|e]; [|reflexivity].
    set (mp := match rf_peaks a with MNone => _ | m => m end). set (ma := match rf_atlas a with MNone => _ | m => m end).
    destruct mp as [p|p|]; destruct ma as [w|w|]; try reflexivity.
    all: destruct (negb _); [reflexivity|]; destruct (robust_polyfit _ _ _ _ _) as [co|e]; [|reflexivity];
      destruct (polyvals_of _ _ _); reflexivity.
  Qed.
  Lemma add_steps_all (c : calib A) pix wave : do_assigns (add_steps c pix wave) c = fst (add_pix_wave_pair c pix wave).
  Proof.
    unfold add_steps. assert (X : forall c', add_pix_wave_pair c pix wave = (c', Ok tt) -> exists p w, c' = set_c_matlas w (set_c_mpeaks p c)).
    { unfold add_pix_wave_pair. intros c'. destruct (c_mpeaks c) as [|p|]; try discriminate. destruct (np_where _ p); [discriminate|].
      destruct (c_matlas c) as [m|m|]; try discriminate; destruct (Nat.ltb _ _); try discriminate; intros E;
        (match type of E with (?z, _) = _ => assert (Ez : c' = z) by congruence end); rewrite Ez; eauto. }
    assert (Y : forall e, snd (add_pix_wave_pair c pix wave) = Raise e -> fst (add_pix_wave_pair c pix wave) = c).
    { unfold add_pix_wave_pair. intros e. destruct (c_mpeaks c) as [|p|]; try reflexivity. destruct (np_where _ p); [reflexivity|].
      destruct (c_matlas c) as [m|m|]; try reflexivity; destruct (Nat.ltb _ _); try reflexivity; discriminate. }
    destruct (add_pix_wave_pair c pix wave) as [c' [[]|e]].
    - destruct (X c' eq_refl) as (p & w & ->). reflexivity.
    - symmetry. apply (Y e eq_refl).
  Qed.
  Lemma remove_steps_all (c : calib A) arg : do_assigns (remove_steps c arg) c = fst (remove_pix_wave_pair c arg).
  Proof.
    unfold remove_steps. assert (X : forall c', remove_pix_wave_pair c arg = (c', Ok tt) -> exists p w, c' = set_c_matlas w (set_c_mpeaks p c)).
    { unfold remove_pix_wave_pair. intros c'. destruct (c_mpeaks c) as [p|p|]; destruct (c_matlas c) as [m|m|]; try discriminate;
        destruct (bind _ _) as [[p' w']|]; try discriminate; intros E;
        (match type of E with (?z, _) = _ => assert (Ez : c' = z) by congruence end); rewrite Ez; eauto. }
    assert (Y : forall e, snd (remove_pix_wave_pair c arg) = Raise e -> fst (remove_pix_wave_pair c arg) = c).
    { unfold remove_pix_wave_pair. intros e. destruct (c_mpeaks c) as [p|p|]; destruct (c_matlas c) as [m|m|]; try reflexivity;
        destruct (bind _ _) as [[p' w']|]; try reflexivity; discriminate. }
    destruct (remove_pix_wave_pair c arg) as [c' [[]|e]].
    - destruct (X c' eq_refl) as (p & w & ->). reflexivity.
    - symmetry. apply (Y e eq_refl).
  Qed.

  (** The last value given to an attribute. *)
  Definition last_of {T} (f : assign A -> option T) (l : list (assign A)) (d : T) : T :=
    fold_left (fun d s => match f s with Some v => v | None => d end) l d.
  Definition fPeaks (s : assign A) := match s with SPeaks v => Some v | _ => None end.
  Definition fAtlas (s : assign A) := match s with SAtlas v => Some v | _ => None end.
  Definition fResiduals (s : assign A) := match s with SResiduals v => Some v | _ => None end.
  Definition fRms (s : assign A) := match s with SRms v => Some v | _ => None end.
  Definition fPutil (s : assign A) := match s with SPutil v => Some v | _ => None end.
  Definition fAutil (s : assign A) := match s with SAutil v => Some v | _ => None end.
  Definition fCoeff (s : assign A) := match s with SCoeff v => Some v | _ => None end.

  Lemma do_assigns_eq l (c : calib A) : do_assigns l c =
    mkCal (c_peaks c) (c_spectrum c) (c_atlas c) (c_known c) (c_gp c) (c_hp c) (c_rp c) (c_cand_tol c) (c_constrain c)
      (c_pairs c) (c_ht c) (c_lines c) (c_points c) (last_of fPeaks l (c_mpeaks c)) (last_of fAtlas l (c_matlas c))
      (last_of fCoeff l (c_coeff c)) (c_kind c) (c_deg c) (last_of fRms l (c_rms c)) (c_resid c)
      (last_of fPutil l (c_putil c)) (last_of fAutil l (c_autil c)) (last_of fResiduals l (c_residuals c)).
  Proof.
    revert c. induction l as [|s l IH]; intros c; [destruct c; reflexivity|].
    change (do_assigns (s :: l) c) with (do_assigns l (do_assign c s)). rewrite IH. destruct s; reflexivity.
  Qed.

  Lemma last_of_prefix {T} (f : assign A -> option T) l n d : last_of f l (last_of f (firstn n l) d) = last_of f l d.
  Proof.
    assert (X : (forall s, In s l -> f s = None) \/ forall d d', last_of f l d = last_of f l d').
    { induction l as [|s l IH]; [left; intros s []|].
      destruct IH as [IH|IH]; [|right; intros; apply IH].
      destruct (f s) as [v|] eqn:E.
      - right. intros d1 d2. unfold last_of. cbn [fold_left]. rewrite E. reflexivity.
      - left. intros s' [<-|H]; auto. }
    assert (Y : forall l', (forall s, In s l' -> f s = None) -> forall d, last_of f l' d = d).
    { induction l' as [|s l' IH]; intros H e; [reflexivity|]. unfold last_of. cbn [fold_left]. rewrite (H s (or_introl eq_refl)).
      apply IH. intros s' Hs. apply H. right. exact Hs. }
    destruct X as [X|X]; [|apply X]. rewrite (Y (firstn n l)); [reflexivity|].
    intros s Hs. apply X. rewrite <- (firstn_skipn n l). apply in_or_app. auto.
  Qed.
  Lemma do_again l n (c : calib A) : do_assigns l (do_assigns (firstn n l) c) = do_assigns l c.
  Proof. rewrite !do_assigns_eq. cbn. rewrite !last_of_prefix. reflexivity. Qed.

  (** Calibrators that differ in results only. *)
  Definition same_but_results (c d : calib A) : Prop :=
    c_peaks d = c_peaks c /\ c_atlas d = c_atlas c /\ c_gp d = c_gp c /\ c_kind d = c_kind c.

  Lemma steps_same l (c : calib A) : same_but_results c (do_assigns l c).
  Proof. rewrite do_assigns_eq. repeat split. Qed.

  Ltac same := match goal with H : same_but_results _ _ |- _ => destruct H as (H1 & H2 & H3 & H4) end.

  Lemma refine_same (c d : calib A) mini co nd tol fr :
    same_but_results c d -> refine_coeff mini d co nd tol fr = refine_coeff mini c co nd tol fr.
  Proof. intros H. same. unfold refine_coeff, adjust_polyfit. rewrite ?H1, ?H2, ?H3, ?H4. reflexivity. Qed.

  Lemma store_steps_same (c d : calib A) o deg robust refined xs cand na : same_but_results c d ->
    store_steps o d deg robust refined xs cand na = store_steps o c deg robust refined xs cand na.
  Proof. intros H. same. unfold store_steps. rewrite H1, H4. reflexivity. Qed.
  Lemma store_value_same (c d : calib A) o deg robust refined xs cand na : same_but_results c d ->
    snd (match_store o d deg robust refined xs cand na) = snd (match_store o c deg robust refined xs cand na).
  Proof.
    intros H. same. unfold match_store. cbv zeta. rewrite H1, H4.
    destruct (bind (polyfit_of o (c_kind c) xs cand deg) _) as [[co resid]|e]; [|reflexivity].
    destruct (negb _); [reflexivity|]. destruct (Nat.eqb (length (c_peaks c)) 0); [reflexivity|].
    destruct (Nat.eqb na 0); [reflexivity|]. destruct robust.
    - destruct (robust_polyfit _ _ _ _ _) as [co'|e]; [|reflexivity]. destruct (existsb _ _); [reflexivity|].
      destruct (polyvals_of _ _ _); reflexivity.
    - destruct refined; reflexivity.
  Qed.

  (** match_peaks reads the peaks, the atlas, the range, the kind and the coefficients. *)
  Lemma match_reads o mini (c d : calib A) a : same_but_results c d -> (ma_coeff a <> MNone \/ c_coeff d = c_coeff c) ->
    match_steps o mini d a = match_steps o mini c a /\ snd (match_peaks o mini d a) = snd (match_peaks o mini c a).
  Proof.
    intros H HC. unfold match_steps, match_peaks.
    assert (E : match ma_coeff a, c_coeff d with MNone, None => Raise AttributeError | MNone, Some l => Ok (MArr l) | m, _ => Ok m end =
                match ma_coeff a, c_coeff c with MNone, None => Raise AttributeError | MNone, Some l => Ok (MArr l) | m, _ => Ok m end).
    { destruct HC as [HC| ->]; [|reflexivity]. destruct (ma_coeff a); try reflexivity. congruence. }
    rewrite E. clear E.
    destruct (match ma_coeff a, c_coeff c with MNone, None => _ | MNone, Some l => _ | m, _ => _ end) as [co|e]; [|split; reflexivity].
    destruct (mseq_vals co) as [|v l]; [split; reflexivity|]. cbv zeta. rewrite (refine_same c d) by exact H.
    assert (H' := H). destruct H' as (H1 & H2 & H3 & H4). rewrite H1, H2, H4.
    destruct (if ma_refine a then _ else _) as [[[new|]|]|e]; try (split; reflexivity).
    all: destruct (c_atlas c) as [at_|]; [|split; reflexivity];
      destruct (bind (lines_within _ _ _ _ _) _) as [[xs cand]|e]; [|split; reflexivity];
      split; [apply store_steps_same|apply store_value_same]; exact H.
  Qed.

  Lemma refit_reads o (c d : calib A) a : c_kind d = c_kind c ->
    (rf_peaks a <> MNone \/ c_mpeaks d = c_mpeaks c) -> (rf_atlas a <> MNone \/ c_matlas d = c_matlas c) ->
    (rf_x0 a <> MNone \/ rf_deg a <> None \/ c_coeff d = c_coeff c) ->
    refit_steps o d a = refit_steps o c a /\ snd (manual_refit o d a) = snd (manual_refit o c a).
  Proof.
    intros HK HP HA HC. unfold refit_steps, manual_refit. cbv zeta.
    assert (E : refit_start d a = refit_start c a).
    { unfold refit_start. destruct HC as [HC|[HC| ->]]; [| |reflexivity].
      - destruct (rf_x0 a); try reflexivity. congruence.
      - destruct (rf_x0 a); destruct (rf_deg a); try reflexivity; congruence. }
    rewrite E, HK. clear E. destruct (refit_start c a) as [[x0 dg]|e]; [|split; reflexivity].
    assert (E1 : match rf_peaks a with MNone => c_mpeaks d | m => m end = match rf_peaks a with MNone => c_mpeaks c | m => m end).
    { destruct HP as [HP| ->]; [|reflexivity]. destruct (rf_peaks a); try reflexivity. congruence. }
    assert (E2 : match rf_atlas a with MNone => c_matlas d | m => m end = match rf_atlas a with MNone => c_matlas c | m => m end).
    { destruct HA as [HA| ->]; [|reflexivity]. destruct (rf_atlas a); try reflexivity. congruence. }
    rewrite E1, E2. clear E1 E2.
    set (mp := match rf_peaks a with MNone => _ | m => m end). set (ma := match rf_atlas a with MNone => _ | m => m end).
    destruct mp as [p|p|]; destruct ma as [w|w|]; try (split; reflexivity).
    all: destruct (negb _); [split; reflexivity|]; destruct (robust_polyfit _ _ _ _ _) as [co|e]; [|split; reflexivity];
      destruct (polyvals_of _ _ _); split; reflexivity.
  Qed.

  Lemma refit_keeps_given o (c : calib A) a n : let d := do_assigns (firstn n (refit_steps o c a)) c in
    (rf_peaks a <> MNone \/ c_mpeaks d = c_mpeaks c) /\ (rf_atlas a <> MNone \/ c_matlas d = c_matlas c).
  Proof.
    cbv zeta. rewrite do_assigns_eq. cbn [c_mpeaks c_matlas].
    assert (P : rf_peaks a = MNone -> forall s, In s (refit_steps o c a) -> forall v, fPeaks s = Some v -> v = c_mpeaks c).
    { intros Ep s. unfold refit_steps. cbv zeta. rewrite Ep. destruct (refit_start c a) as [[x0 dg]|e]; [|intros []].
      set (ma := match rf_atlas a with MNone => c_matlas c | m => m end). clearbody ma. destruct (c_mpeaks c) as [p|p|]; destruct ma as [w|w|]; try (intros []; fail).
      all: destruct (negb _); [intros []|]; destruct (robust_polyfit _ _ _ _ _) as [co|e]; [|intros []];
        destruct (polyvals_of _ _ _); cbn [app In]; intros HI v; intuition (subst s; cbn in *; congruence). }
    assert (Q : rf_atlas a = MNone -> forall s, In s (refit_steps o c a) -> forall v, fAtlas s = Some v -> v = c_matlas c).
    { intros Ep s. unfold refit_steps. cbv zeta. rewrite Ep. destruct (refit_start c a) as [[x0 dg]|e]; [|intros []].
      set (mp := match rf_peaks a with MNone => c_mpeaks c | m => m end). clearbody mp. destruct mp as [w|w|]; destruct (c_matlas c) as [p|p|]; try (intros []; fail).
      all: destruct (negb _); [intros []|]; destruct (robust_polyfit _ _ _ _ _) as [co|e]; [|intros []];
        destruct (polyvals_of _ _ _); cbn [app In]; intros HI v; intuition (subst s; cbn in *; congruence). }
    assert (L : forall (f : assign A -> option (mseq A)) l d, (forall s, In s l -> forall v, f s = Some v -> v = d) -> last_of f l d = d).
    { intros f. induction l as [|s l IH]; intros d H; [reflexivity|]. unfold last_of. cbn [fold_left].
      destruct (f s) as [v|] eqn:E.
      - rewrite (H s (or_introl eq_refl) v E). apply IH. intros s' Hs. apply H. right. exact Hs.
      - apply IH. intros s' Hs. apply H. right. exact Hs. }
    assert (F : forall (s : assign A) l, In s (firstn n l) -> In s l).
    { intros s l Hs. rewrite <- (firstn_skipn n l). apply in_or_app. auto. }
    split.
    - destruct (rf_peaks a) eqn:Ep; try (left; discriminate). right. apply L. intros s Hs. apply P; auto.
    - destruct (rf_atlas a) eqn:Ep; try (left; discriminate). right. apply L. intros s Hs. apply Q; auto.
  Qed.
End Steps.

(** The assignments of each call, carried out one after the other, leave the calibrator as the
    call does; so an interruption after n of them is an interruption of the call. *)
Lemma assign_steps_are_the_calls_main :
  forall (A : Type) (N : Num A) (o : oracle A) (mini : minimiser A) (c : calib A) (k : result_call A),
    stopped o mini c k 0 = c /\
    stopped o mini c k (List.length (call_steps o mini c k)) = call_state o mini c k.
Proof.
  intros A N o mini c k. unfold stopped. rewrite firstn_all. split; [reflexivity|].
  destruct k as [a|a|[p w|i]]; cbn [call_steps call_state edit_step].
  - apply match_steps_all.
  - apply refit_steps_all.
  - apply add_steps_all.
  - apply remove_steps_all.
Qed.

(** Wherever match_peaks, manual_refit, add_pix_wave_pair or remove_pix_wave_pair is
    interrupted, only the solution can have changed; match_peaks called again with the same
    coefficients, and manual_refit called again with a degree or x0, leave the calibrator and
    answer exactly as if there had been no interruption.  Called without coefficients, they
    do so as long as the interruption came before the new coefficients were stored. *)
Lemma interrupted_calls_retry_partial_main :
  forall (A : Type) (N : Num A) (o : oracle A) (mini : minimiser A) (c : calib A) (n : nat),
    (forall k, all_but_solution_kept c (stopped o mini c k n)) /\
    (forall a, let d := stopped o mini c (CMatch a) n in
       ma_coeff a <> MNone \/ c_coeff d = c_coeff c ->
       match_peaks o mini d a = match_peaks o mini c a) /\
    (forall a, let d := stopped o mini c (CRefit a) n in
       rf_x0 a <> MNone \/ rf_deg a <> None \/ c_coeff d = c_coeff c ->
       manual_refit o d a = manual_refit o c a).
Proof.
  intros A N o mini c n. split; [|split].
  - intros k. unfold stopped. rewrite do_assigns_eq. repeat split.
  - intros a d HC. subst d. unfold stopped, call_steps in *.
    destruct (match_reads o mini c (do_assigns (firstn n (match_steps o mini c a)) c) a (steps_same _ _) HC) as [E1 E2].
    rewrite (surjective_pairing (match_peaks o mini c a)), <- E2.
    rewrite (surjective_pairing (match_peaks o mini (do_assigns _ c) a)) at 1. f_equal.
    rewrite <- !match_steps_all, E1. apply do_again.
  - intros a d HC. subst d. unfold stopped, call_steps in *.
    destruct (refit_keeps_given o c a n) as [KP KA]. cbv zeta in KP, KA.
    destruct (steps_same (firstn n (refit_steps o c a)) c) as (_ & _ & _ & HK).
    destruct (refit_reads o c (do_assigns (firstn n (refit_steps o c a)) c) a HK KP KA HC) as [E1 E2].
    rewrite (surjective_pairing (manual_refit o c a)), <- E2.
    rewrite (surjective_pairing (manual_refit o (do_assigns _ c) a)) at 1. f_equal.
    rewrite <- !refit_steps_all, E1. apply do_again.
Qed.

Section Stored.
  Context {A : Type} {N : Num A}.

  Lemma store_pairs o (c : calib A) deg robust refined xs cand na v :
    snd (match_store o c deg robust refined xs cand na) = Ok v ->
    c_mpeaks (fst (match_store o c deg robust refined xs cand na)) = MArr xs /\
    c_matlas (fst (match_store o c deg robust refined xs cand na)) = MArr cand /\
    mv_peaks v = MArr xs /\ mv_atlas v = MArr cand /\ List.length xs = List.length cand /\
    exists l, store_steps o c deg robust refined xs cand na = SPeaks (MArr xs) :: SAtlas MNone :: l.
  Proof.
    unfold match_store, store_steps. cbv zeta.
    destruct (bind (polyfit_of o (c_kind c) xs cand deg) _) as [[co resid]|e] eqn:EB; [|discriminate].
    assert (L : List.length xs = List.length cand).
    { apply bind_Ok in EB. destruct EB as (co1 & EP & _). unfold polyfit_of in EP. destruct (c_kind c); [|discriminate].
      destruct xs; [discriminate|]. destruct (Nat.eqb _ _) eqn:EN; [apply Nat.eqb_eq in EN; exact EN|discriminate]. }
    destruct (negb _); [discriminate|]. destruct (Nat.eqb (length (c_peaks c)) 0); [discriminate|].
    destruct (Nat.eqb na 0); [discriminate|]. destruct robust.
    - destruct (robust_polyfit _ _ _ _ _) as [co'|e]; [|discriminate]. destruct (existsb _ _).
      + cbn [fst snd]. intros E. injection E as <-. repeat split; auto. eexists; reflexivity.
      + destruct (polyvals_of _ _ _); [|discriminate]. cbn [fst snd]. intros E. injection E as <-. repeat split; auto. eexists; reflexivity.
    - destruct refined; [|discriminate]. cbn [fst snd]. intros E. injection E as <-. repeat split; auto. eexists; reflexivity.
  Qed.

  Lemma match_pairs o mini (c : calib A) a v : snd (match_peaks o mini c a) = Ok v -> mv_peaks v <> MNone ->
    exists xs cand, c_mpeaks (fst (match_peaks o mini c a)) = MArr xs /\ c_matlas (fst (match_peaks o mini c a)) = MArr cand /\
      mv_peaks v = MArr xs /\ mv_atlas v = MArr cand /\ List.length xs = List.length cand /\
      exists l, match_steps o mini c a = SPeaks (MArr xs) :: SAtlas MNone :: l.
  Proof.
    unfold match_steps, match_peaks.
    destruct (match ma_coeff a, c_coeff c with MNone, None => _ | MNone, Some l => _ | m, _ => _ end) as [co|e]; [|discriminate].
    destruct (mseq_vals co) as [|u l]; [discriminate|]. cbv zeta.
    destruct (if ma_refine a then _ else _) as [[[new|]|]|e]; try discriminate.
    2: { cbn [snd]. intros E. injection E as <-. cbn. congruence. }
    all: destruct (c_atlas c) as [at_|]; [|discriminate];
      destruct (bind (lines_within _ _ _ _ _) _) as [[xs cand]|e]; [|discriminate];
      intros E _; exists xs, cand; apply store_pairs; exact E.
  Qed.

  Lemma np_delete_len {T} (l l' : list T) arg : delete_at l arg = Ok l' -> List.length l = Datatypes.S (List.length l').
  Proof.
    unfold delete_at. cbv zeta. destruct (_ || _)%bool eqn:E; [discriminate|]. apply orb_false_iff in E. destruct E as [E1 E2].
    apply Z.ltb_ge in E1. apply Z.leb_gt in E2. intros H.
    assert (X : l' = np_delete l (Z.to_nat (if (arg <? 0)%Z then arg + Z.of_nat (List.length l) else arg))) by congruence.
    subst l'. unfold np_delete. rewrite app_length, firstn_length, skipn_length.
    destruct (arg <? 0)%Z eqn:EZ; [apply Z.ltb_lt in EZ|apply Z.ltb_ge in EZ]; lia.
  Qed.

  (** How many more matched peaks than matched lines there are. *)
  Definition surplus (c : calib A) : Z :=
    (Z.of_nat (List.length (mseq_vals (c_mpeaks c))) - Z.of_nat (List.length (mseq_vals (c_matlas c))))%Z.

  Lemma insert_len {T} (l : list T) k v : List.length (np_insert l k v) = Datatypes.S (List.length l).
  Proof. unfold np_insert. rewrite app_length. cbn [List.length]. rewrite <- plus_n_Sm, <- app_length, firstn_skipn. reflexivity. Qed.

  Lemma edit_surplus (c : calib A) e : surplus (fst (edit_step c e)) = surplus c.
  Proof.
    destruct e as [p w|i]; cbn [edit_step].
    - unfold add_pix_wave_pair. destruct (c_mpeaks c) as [|q|] eqn:EP; try reflexivity. destruct (np_where _ q) as [|k r]; [reflexivity|].
      destruct (c_matlas c) as [m|m|] eqn:EA; try reflexivity; (destruct (Nat.ltb _ _); [reflexivity|]);
        unfold surplus; cbn [fst]; rewrite EP, EA; unfold set_c_matlas, set_c_mpeaks; cbn [c_mpeaks c_matlas mseq_vals];
        rewrite !insert_len; lia.
    - unfold remove_pix_wave_pair. destruct (c_mpeaks c) as [p|p|] eqn:EP; destruct (c_matlas c) as [m|m|] eqn:EA; try reflexivity;
        (destruct (bind _ _) as [[p' w']|] eqn:EB; [|reflexivity]);
        (apply bind_Ok in EB; destruct EB as (p1 & D1 & EB); apply bind_Ok in EB; destruct EB as (w1 & D2 & EB);
         assert (p1 = p' /\ w1 = w') as [-> ->] by (split; congruence));
        apply np_delete_len in D1; apply np_delete_len in D2; unfold surplus; cbn [fst]; rewrite EP, EA;
        unfold set_c_matlas, set_c_mpeaks; cbn [c_mpeaks c_matlas mseq_vals] in *; lia.
  Qed.
  Lemma edits_surplus h : forall c : calib A, surplus (edit_run c h) = surplus c.
  Proof.
    induction h as [|e h IH]; intros c; [reflexivity|]. change (edit_run c (e :: h)) with (edit_run (fst (edit_step c e)) h).
    rewrite IH. apply edit_surplus.
  Qed.

  Lemma torn_surplus o mini (c : calib A) e : aligned c -> snd (edit_step c e) = Ok tt ->
    surplus (stopped o mini c (CEdit e) 1) <> 0%Z.
  Proof.
    intros (NP & NA & L) H. assert (S0 := edit_surplus c e). unfold stopped.
    destruct e as [p w|i]; cbn [edit_step call_steps] in *.
    - unfold add_steps. destruct (add_pix_wave_pair c p w) as [c' [u|ex]] eqn:E; [|discriminate].
      assert (X : List.length (mseq_vals (c_mpeaks c')) = Datatypes.S (List.length (mseq_vals (c_mpeaks c)))).
      { unfold add_pix_wave_pair in E. destruct (c_mpeaks c) as [|q|] eqn:EP; try discriminate. destruct (np_where _ q) as [|k r]; [discriminate|].
        destruct (c_matlas c) as [m|m|] eqn:EA; try discriminate; (destruct (Nat.ltb _ _); [discriminate|]);
        (match type of E with (?z, _) = _ => assert (Ez : c' = z) by congruence end); rewrite Ez; cbn; apply insert_len. }
      cbn [firstn do_assigns fold_left do_assign]. unfold surplus. unfold set_c_mpeaks. cbn [c_mpeaks c_matlas]. lia.
    - unfold remove_steps. destruct (remove_pix_wave_pair c i) as [c' [u|ex]] eqn:E; [|discriminate].
      assert (X : List.length (mseq_vals (c_mpeaks c)) = Datatypes.S (List.length (mseq_vals (c_mpeaks c')))).
      { unfold remove_pix_wave_pair in E. destruct (c_mpeaks c) as [q|q|]; destruct (c_matlas c) as [m|m|]; try discriminate;
          (destruct (bind _ _) as [[p' w']|] eqn:EB; [|discriminate]);
          (apply bind_Ok in EB; destruct EB as (p1 & D1 & EB); apply bind_Ok in EB; destruct EB as (w1 & D2 & EB);
           assert (p1 = p' /\ w1 = w') as [-> ->] by (split; congruence));
          apply np_delete_len in D1; (match type of E with (?z, _) = _ => assert (Ez : c' = z) by congruence end); rewrite Ez; exact D1. }
      cbn [firstn do_assigns fold_left do_assign]. unfold surplus. unfold set_c_mpeaks. cbn [c_mpeaks c_matlas]. lia.
  Qed.
End Stored.

(** After any interruption of any of these calls, match_peaks with coefficients given answers
    as it would have done before; if it answers with pairs, these are what the calibrator
    holds. *)
Lemma interrupted_calls_repair_main :
  forall (A : Type) (N : Num A) (o : oracle A) (mini : minimiser A) (c : calib A) (k : result_call A) (n : nat) (a : match_args A),
    ma_coeff a <> MNone ->
    snd (match_peaks o mini (stopped o mini c k n) a) = snd (match_peaks o mini c a) /\
    (forall v, snd (match_peaks o mini c a) = Ok v -> mv_peaks v <> MNone ->
       let d := fst (match_peaks o mini (stopped o mini c k n) a) in
       aligned d /\ c_mpeaks d = mv_peaks v /\ c_matlas d = mv_atlas v).
Proof.
  intros A N o mini c k n a HC. unfold stopped.
  destruct (match_reads o mini c (do_assigns (firstn n (call_steps o mini c k)) c) a (steps_same _ _) (or_introl HC)) as [_ E2].
  split; [exact E2|]. intros v Hv Hp. rewrite <- E2 in Hv.
  destruct (match_pairs _ _ _ _ _ Hv Hp) as (xs & cand & M1 & M2 & V1 & V2 & L & _). cbv zeta.
  unfold aligned. rewrite M1, M2, V1, V2. repeat split; try discriminate. exact L.
Qed.

(** Interrupting them does not keep the pairs together.  add_pix_wave_pair and
    remove_pix_wave_pair interrupted after their first assignment leave lists of different
    lengths; no history of adding and removing pairs, the interrupted call included, makes
    them fit again, and manual_refit then raises unless it is given both lists.  match_peaks
    interrupted after its second assignment leaves the new peaks with no lines: the pairs can
    be neither listed nor edited.  manual_refit interrupted after its first assignment leaves
    the new coefficients with the pairs, residuals and rms of before. *)
Lemma interrupted_calls_refuted_main :
  forall (A : Type) (N : Num A) (o : oracle A) (mini : minimiser A) (c : calib A),
    (forall e, aligned c -> snd (edit_step c e) = Ok tt ->
       forall h, let d := edit_run (stopped o mini c (CEdit e) 1) h in
         ~ aligned d /\
         (forall a, rf_peaks a = MNone -> rf_atlas a = MNone -> exists ex, snd (manual_refit o d a) = Raise ex)) /\
    (forall a v, snd (match_peaks o mini c a) = Ok v -> mv_peaks v <> MNone ->
       let d := stopped o mini c (CMatch a) 2 in
       c_mpeaks d = mv_peaks v /\ c_matlas d = MNone /\ get_pix_wave_pairs d = Raise TypeError /\
       forall e, exists ex, snd (edit_step d e) = Raise ex) /\
    (forall a co mp ma rms r, snd (manual_refit o c a) = Ok (co, mp, ma, rms, r) ->
       let d := stopped o mini c (CRefit a) 1 in
       c_coeff d = Some co /\ c_mpeaks d = c_mpeaks c /\ c_matlas d = c_matlas c /\
       c_residuals d = c_residuals c /\ c_rms d = c_rms c).
Proof.
  intros A N o mini c. split; [|split].
  - intros e HA HE h d. assert (SD : surplus d <> 0%Z).
    { subst d. rewrite edits_surplus. apply torn_surplus; assumption. }
    clearbody d. split.
    + intros (_ & _ & L). apply SD. unfold surplus. rewrite L. lia.
    + intros a E1 E2. unfold manual_refit. cbv zeta. rewrite E1, E2. destruct (refit_start d a) as [[x0 dg]|ex]; [|eexists; reflexivity].
      assert (EN : Nat.eqb (List.length (mseq_vals (c_mpeaks d))) (List.length (mseq_vals (c_matlas d))) = false).
      { apply Nat.eqb_neq. intros L. apply SD. unfold surplus. rewrite L. lia. }
      destruct (c_mpeaks d) as [p|p|]; destruct (c_matlas d) as [w|w|]; try (eexists; reflexivity);
        rewrite EN; eexists; reflexivity.
  - intros a v Hv Hp d. destruct (match_pairs _ _ _ _ _ Hv Hp) as (xs & cand & _ & _ & V1 & _ & _ & l & EL).
    assert (D1 : c_mpeaks d = MArr xs) by (subst d; unfold stopped, call_steps; rewrite EL; reflexivity).
    assert (D2 : c_matlas d = MNone) by (subst d; unfold stopped, call_steps; rewrite EL; reflexivity).
    clearbody d. rewrite V1. split; [exact D1|]. split; [exact D2|]. split.
    + unfold get_pix_wave_pairs. rewrite D1, D2. reflexivity.
    + intros [p w|i]; cbn [edit_step].
      * unfold add_pix_wave_pair. rewrite D1, D2. destruct (np_where _ _); eexists; reflexivity.
      * unfold remove_pix_wave_pair. rewrite D1, D2. eexists; reflexivity.
  - intros a co mp ma rms r H. unfold stopped, call_steps.
    assert (X : exists l, refit_steps o c a = SCoeff (Some co) :: l).
    { revert H. unfold manual_refit, refit_steps. cbv zeta. destruct (refit_start c a) as [[x0 dg]|ex]; [|discriminate].
      set (mp' := match rf_peaks a with MNone => c_mpeaks c | m => m end). set (ma' := match rf_atlas a with MNone => c_matlas c | m => m end).
      destruct mp' as [p|p|]; destruct ma' as [w|w|]; try discriminate.
      all: destruct (negb _); [discriminate|]; destruct (robust_polyfit _ _ _ _ _) as [co'|e]; [|discriminate];
        destruct (polyvals_of _ _ _); [|discriminate]; cbn [snd]; intros E; assert (co' = co) by congruence; subst; eexists; reflexivity. }
    destruct X as (l & ->). repeat split.
Qed.

(** In binary64: a fitted calibrator matches its peaks; the pairs it holds are aligned, and
    one can be added. *)
Example interrupted_calls_example_main :
  exists v, let a := ma_plain (fz 20) false true in
    let c := fst (match_peaks o_ex no_mini c_fitted a) in
    snd (match_peaks o_ex no_mini c_fitted a) = Ok v /\ mv_peaks v <> MNone /\ aligned c /\
    snd (edit_step c (EAdd (fz 600) (fz 9000))) = Ok tt /\
    List.length (call_steps o_ex no_mini c_fitted (CMatch a)) = 11%nat.
Proof.
  assert (X : match snd (match_peaks o_ex no_mini c_fitted (ma_plain (fz 20) false true)) with
              | Ok v => match mv_peaks v with MNone => False | _ => True end | _ => False end) by (vm_compute; exact I).
  destruct (snd (match_peaks o_ex no_mini c_fitted (ma_plain (fz 20) false true))) as [v|e] eqn:E; [|contradiction].
  exists v. cbv zeta.
  split; [exact E|]. assert (P : mv_peaks v <> MNone) by (destruct (mv_peaks v); congruence). split; [exact P|].
  split.
  { destruct (match_pairs _ _ _ _ _ E P) as (xs & cand & M1 & M2 & _ & _ & L & _). unfold aligned. rewrite M1, M2.
    split; [discriminate|]. split; [discriminate|]. exact L. }
  split; [vm_compute; reflexivity|]. vm_compute. reflexivity.
Qed.

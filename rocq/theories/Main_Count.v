(** * Main_Count: the number of coefficients of a solution, with proofs.  The statements
    are repeated, without proofs, in Props_Count.v. *)

From Coq Require Import ZArith Bool List String Lia Reals Lra Sorted Permutation.
From Verif Require Import Num F64 XReal Py Np NpFacts ArgsortFacts Util Models Atlas Hough SpecHough HoughFacts PolyEval Calib SpecCalib CalibFacts Main_Calib Cand SpecCand CandFacts Ransac SpecRansac RansacFacts Main_Ransac Fit SpecFit FitFacts Main_Fit MatchPeaks SpecMatch MatchFacts Main_Match Main_Edit SpecCount.
Import ListNotations.
Local Open Scope num_scope.

Section Count.
  Context {A : Type} {N : Num A}.
  Variable o : oracle A.
  Hypothesis Ho : counting o.

  Lemma robust_count xs ys d x0 co : robust_polyfit (o_ls o) xs ys d x0 = Ok co -> List.length co = (d + 1)%nat.
  Proof.
    unfold robust_polyfit. destruct (normalise_input xs ys) as [xn yn]. intros H.
    apply bind_Ok in H. destruct H as (p0 & _ & H).
    destruct (Nat.eqb_spec (List.length p0) (d + 1)) as [E|E]; [|discriminate]. cbn [negb] in H.
    apply bind_Ok in H. destruct H as (p & Hp & H). assert (co = rev (denormalise (np_std xs) (np_std ys) d p)) by congruence.
    subst co. rewrite rev_length, denormalise_length. destruct Ho as (H1 & _). rewrite (H1 _ _ _ _ _ Hp). exact E.
  Qed.

  Definition counted (f : cfg A) (s : rstate A) : Prop :=
    forall co, s_p s = Some co -> List.length co = (f_deg f + 1)%nat.

  Lemma trial_counted f s xh yh : counted f s ->
    match trial o f s xh yh with TContinue => True | TNext s' | TRaise s' _ => counted f s' end.
  Proof.
    intros Hs. unfold trial.
    repeat match goal with
    | |- match (match ?r with _ => _ end) with _ => _ end => destruct r; auto
    end.
    unfold consider.
    destruct (Nat.leb _ _); auto.
    destruct (robust_polyfit _ _ _ _ _) as [co|e] eqn:E.
    - repeat match goal with
      | |- match (if ?r then _ else _) with _ => _ end => destruct r; auto
      end; intros co'; cbn [s_p]; intros H; injection H as <-; exact (robust_count _ _ _ _ _ E).
    - destruct e; auto.
  Qed.

  Lemma try_counted f smp fuel : forall s, counted f s ->
    match try_sample o fuel f s smp with Done s' | Fail s' _ | Out s' => counted f s' end.
  Proof.
    induction fuel as [|n IH]; intros s Hs; cbn [try_sample]; auto.
    destruct (draw o n f (s_rng s) smp) as [|t|e|t xh0 yh0]; auto.
    destruct (add_known f xh0 yh0) as [xh yh].
    pose proof (trial_counted f (log_fit (xh, yh) (set_rng t s)) xh yh Hs) as H.
    destruct (trial o f (log_fit (xh, yh) (set_rng t s)) xh yh); [apply IH; exact Hs|exact H|exact H].
  Qed.

  Lemma run_counted f fuel l : forall s, counted f s ->
    match run_samples o fuel f s l with Done s' | Fail s' _ | Out s' => counted f s' end.
  Proof.
    induction l as [|smp r IH]; intros s Hs; cbn [run_samples]; auto.
    pose proof (try_counted f smp fuel s Hs) as H.
    destruct (try_sample o fuel f s smp); [apply IH; exact H|exact H|exact H].
  Qed.
End Count.

(** C124: a solution has one coefficient more than the degree asked for. *)
Lemma fit_coefficient_count_main :
  forall (A : Type) (N : Num A) (O : NumOrder A) (o : oracle A) fuel c a c' v,
    (forall l, is_argsort l (o_argsort o l)) -> counting o -> fit o fuel c a = Some (c', Ok v) ->
    List.length (fv_coeff v) = (degree_wanted (fa_coeff a) (fa_deg a) + 1)%nat /\ c_coeff c' = Some (fv_coeff v).
Proof.
  intros A N O o fuel c a c' v Ha Ho H. apply fit_inv in H.
  destruct H as (c2 & c3 & r & co & at_ & size & m & _ & _ & _ & _ & _ & _ & _ & _ & Hs & Hp & _ & _ & -> & -> & _).
  split; [|reflexivity]. apply (solve_ransac_inv o Ha) in Hs.
  destruct Hs as [(E & _)|(x & y & sz & f & l & s0 & s & _ & _ & _ & Hset & Hrun & _ & _ & Er & _)]; [congruence|].
  pose proof (ransac_setup_Ok _ _ _ _ _ _ _ _ _ _ _ _ Hset) as
    (Hk & Fd & Fx & Fy & Fp & Fdi & Ft & Filo & Fihi & Fpix & Fhw & Fsp & Fme & Fmm & Fmu & Fnp & Fkn & Fb & Fs & Fsm & Fpr & S0 & _).
  assert (C0 : counted f s0) by (intros co'; rewrite S0; discriminate).
  pose proof (run_counted o Ho f fuel l s0 C0) as C. rewrite Hrun in C.
  change (degree_wanted (fa_coeff a) (fa_deg a)) with (degree_used a). rewrite <- Fd. apply C. congruence.
Qed.

(** C124: so does that of match_peaks, with robust_refit. *)
Lemma match_coefficient_count_main :
  forall (A : Type) (N : Num A) (o : oracle A) mini c a c' v co,
    counting o -> input_coeff c a co -> ma_robust a = true -> ma_refine a = false ->
    match_peaks o mini c a = (c', Ok v) ->
    let n := (match ma_deg a with Some d => d | None => List.length co - 1 end + 1)%nat in
    List.length (mv_coeff v) = n /\ exists co', c_coeff c' = Some co' /\ List.length co' = n.
Proof.
  intros A N o mini c a c' v co Ho Hco Hr Hf H. cbn zeta. apply match_peaks_inv in H.
  destruct H as (co1 & H1 & _ & [(H2 & _)|(at_ & k & xs & cand & refined & _ & _ & _ & _ & _ & H)]); [congruence|].
  assert (co1 = co) as ->.
  { unfold input_coeff in *. destruct (ma_coeff a); congruence. }
  rewrite Hr in H. change (oget (List.length co - 1)%nat (ma_deg a)) with (match ma_deg a with Some d => d | None => (List.length co - 1)%nat end) in H.
  set (d := match ma_deg a with Some d => d | None => (List.length co - 1)%nat end) in *. clearbody d.
  unfold match_store in H. destruct (bind _ _) as [[co2 resid]|e] eqn:E; [|discriminate].
  destruct (negb _); [discriminate|]. destruct (Nat.eqb _ _); [discriminate|]. destruct (Nat.eqb _ _); [discriminate|].
  destruct (robust_polyfit _ _ _ _ _) as [co3|] eqn:E3; [|discriminate].
  pose proof (robust_count o Ho _ _ _ _ _ E3) as L3.
  destruct (existsb nisnan co3).
  - injection H as <- <-. cbn. split; [|eauto].
    apply bind_Ok in E. destruct E as (co4 & Hfit & E). apply bind_Ok in E. destruct E as (vs & _ & E).
    assert (co4 = co2) as -> by congruence. unfold polyfit_of in Hfit. destruct (c_kind c) as [k'|]; [|discriminate].
    destruct xs; [discriminate|]. destruct (Nat.eqb _ _); [|discriminate]. destruct Ho as (_ & H2). exact (H2 _ _ _ _ _ Hfit).
  - destruct (polyvals_of (c_kind c) xs co3); [|discriminate]. injection H as <- <-. cbn. split; [auto|eauto].
Qed.

(** C124: and that of manual_refit; without arguments the number stays. *)
Lemma refit_coefficient_count_main :
  forall (A : Type) (N : Num A) (o : oracle A) c a c' co mp ma rms res,
    counting o -> manual_refit o c a = (c', Ok (co, mp, ma, rms, res)) ->
    c_coeff c' = Some co /\
    (forall d, rf_deg a = Some d -> Z.of_nat (List.length co) = (d + 1)%Z) /\
    (forall x0, rf_deg a = None -> rf_x0 a = MList x0 -> List.length co = List.length x0) /\
    (rf_deg a = None -> rf_x0 a = MNone -> exists old, c_coeff c = Some old /\ List.length co = List.length old).
Proof.
  intros A N o c a c' co mp ma rms res Ho H. unfold manual_refit in H.
  destruct (refit_start c a) as [[x0 d]|e] eqn:Es; [|discriminate].
  set (mp' := match rf_peaks a with MNone => c_mpeaks c | m => m end) in *.
  set (ma' := match rf_atlas a with MNone => c_matlas c | m => m end) in *. clearbody mp' ma'.
  assert (K : (0 <? d)%Z = true /\ Z.of_nat (List.length co) = (d + 1)%Z /\ c_coeff c' = Some co).
  { destruct mp' as [lp|lp|]; destruct ma' as [la|la|]; try discriminate; cbn zeta in H;
      (destruct (negb _) eqn:En; [discriminate|]; apply negb_false_iff in En; rewrite !andb_true_iff in En;
       destruct En as ((_ & Hd) & _);
       destruct (robust_polyfit _ _ _ _ _) as [co1|] eqn:Er; [|discriminate];
       pose proof (robust_count o Ho _ _ _ _ _ Er) as L;
       destruct (polyvals_of _ _ _) as [vs|]; [|discriminate];
       assert (co1 = co) as -> by congruence; split; [auto|]; apply Z.ltb_lt in Hd; split; [lia|];
       injection H as <- _ _ _ _; reflexivity). }
  destruct K as (Hd & L & Hc). apply Z.ltb_lt in Hd. split; auto.
  unfold refit_start in Es.
  destruct (rf_x0 a) as [l|l|]; destruct (rf_deg a) as [dd|]; try discriminate.
  - destruct (Z.eqb _ _); [|discriminate]. assert (dd = d) by congruence. subst dd.
    split; [intros d' E; congruence|]. split; discriminate.
  - assert (d = Z.of_nat (List.length l) - 1)%Z by congruence. split; [discriminate|]. split; [|discriminate].
    intros x1 _ E. assert (x1 = l) by congruence. subst. lia.
  - assert (dd = d) by congruence. subst dd. split; [intros d' E; congruence|]. split; discriminate.
  - split; [discriminate|]. split; [discriminate|]. intros _ _. destruct (c_coeff c) as [old|]; [|discriminate].
    exists old. split; auto. assert (d = Z.of_nat (List.length old) - 1)%Z by congruence. lia.
Qed.

(** Libraries that keep the promise, and with which the session of C65 succeeds. *)
Definition o_count : oracle f64 :=
  mkO (o_argsort o_ex) (o_random o_ex)
    (fun _ xs ys d => Ok (firstn (d + 1) (lsq1 xs ys ++ repeat (fz 0) d))%list)
    (fun xs ys d p => let q := firstn (d + 1) (rev (lsq1 xs ys) ++ repeat (fz 0) d)%list in
                      if Nat.eqb (List.length q) (List.length p) then Ok q else Raise ValueError)
    (o_sample o_ex) (o_pick o_ex) (o_spline o_ex) false.
Example coefficient_count_example_main :
  counting o_count /\
  match fit o_count 60 c_session a_session with
  | Some (c', Ok v) => List.length (fv_coeff v) = 2%nat /\
      match match_peaks o_count no_mini c' (ma_plain (fz 20) false true) with
      | (c'', Ok w) => List.length (mv_coeff w) = 2%nat /\ c_coeff c'' = Some (mv_coeff w) /\
          match manual_refit o_count c'' refit_line with
          | (_, Ok (co, _, _, _, _)) => List.length co = 2%nat
          | _ => False
          end
      | _ => False
      end
  | _ => False
  end.
Proof.
  split; [|vm_compute; auto]. split.
  - intros xs ys d p q. unfold o_count, o_ls. destruct (Nat.eqb_spec (List.length (firstn (d + 1) (rev (lsq1 xs ys) ++ repeat (fz 0) d)%list)) (List.length p)) as [E|E]; [|discriminate].
    intros H. revert E. generalize dependent (firstn (d + 1) (rev (lsq1 xs ys) ++ repeat (fz 0) d)%list).
    intros q' H E. congruence.
  - intros k xs ys d q H. unfold o_count, o_polyfit in H.
    assert (Hq : q = firstn (d + 1) (lsq1 xs ys ++ repeat (fz 0) d)%list)
      by (revert H; generalize (firstn (d + 1) (lsq1 xs ys ++ repeat (fz 0) d)%list); intros; congruence).
    rewrite Hq, firstn_length, app_length, repeat_length. cbn [lsq1 List.length]. lia.
Qed.

(** * Main_Refine: the properties of the refinement in match_peaks, with their proofs.
    The statements are repeated, without proofs, in Props_Refine.v. *)

From Coq Require Import ZArith Bool List String Lia Reals Lra Sorted Permutation.
From Verif Require Import Num F64 XReal Py Np NpFacts ArgsortFacts Util Models Atlas Hough PolyEval Calib SpecCalib Main_Calib Cand SpecCand CandFacts Ransac RansacFacts SampleFacts Main_Ransac Fit Main_Fit MatchPeaks SpecMatch MatchFacts Main_Match.
Import ListNotations.
Local Open Scope num_scope.

Lemma add_delta_spec {A} {N : Num A} : forall (delta fit co : list A),
  add_delta fit delta = Ok co <-> shifted fit delta co.
Proof.
  unfold shifted. induction delta as [|d ds IH]; intros fit co.
  - assert (E0 : add_delta fit [] = Ok fit) by (destruct fit; reflexivity). rewrite E0. cbn. rewrite combine_nil. cbn. split; [intros E; injection E as <-; split; [lia|auto]|intros (_ & ->); auto].
  - cbn [add_delta]. destruct fit as [|f fs]; [cbn; split; [discriminate|intros (K & _); lia]|].
    split.
    + intros H. apply bind_Ok in H. destruct H as (r & Hr & H). injection H as <-.
      apply IH in Hr. destruct Hr as (L & ->). cbn. split; [lia|auto].
    + cbn. intros (L & ->). assert (K : add_delta fs ds = Ok (map (fun q => fst q +' snd q) (combine fs ds) ++ skipn (List.length ds) fs)%list).
      { apply IH. split; [lia|auto]. }
      rewrite K. reflexivity.
Qed.

(** The refined coefficients. *)
Lemma refine_inv {A} {N : Num A} (o : oracle A) mini c a c' v :
  match_peaks o mini c a = (c', Ok v) -> mv_peaks v <> MNone -> ma_refine a = true ->
  exists l n delta new xs cand (at_ : atlas A),
    input_coeff c a l /\ n = oget (Z.of_nat (List.length l) - 1)%Z (ma_ndelta a) /\
    mini (fun d => snd (adjust_polyfit c d l (ma_tol a) (ma_frac a))) (map (fun v => v *' nlit 1 (-3)) (slice_to l n)) = Ok delta /\
    shifted l delta new /\ existsb nisnan new = false /\
    match_store o c (oget (List.length l - 1)%nat (ma_deg a)) (ma_robust a) (Some new) xs cand (atlas_len at_) = (c', Ok v).
Proof.
  intros H Hv Hr. unfold match_peaks in H.
  destruct (match ma_coeff a with MNone => _ | _ => _ end) as [co|] eqn:Eco; [|discriminate].
  assert (Hin : input_coeff c a (mseq_vals co)).
  { unfold input_coeff. destruct (ma_coeff a); [injection Eco as <-; auto|injection Eco as <-; auto|].
    destruct (c_coeff c); [|discriminate]. injection Eco as <-. auto. }
  destruct (mseq_vals co) as [|a0 l0] eqn:Ev; [discriminate|]. rewrite <- Ev in *. cbv zeta in H. rewrite Hr in H.
  destruct (bind (refine_coeff _ _ _ _ _ _) _) as [q|e] eqn:Eq; [|discriminate].
  apply bind_Ok in Eq. destruct Eq as (q' & Eq & Eq'). injection Eq' as <-.
  unfold refine_coeff in Eq. destruct co as [l|l|]; try discriminate. cbn [mseq_vals] in *.
  apply bind_Ok in Eq. destruct Eq as (delta & Hd & Eq). apply bind_Ok in Eq. destruct Eq as (new & Hn & Eq).
  destruct (existsb nisnan new) eqn:En; injection Eq as <-.
  - exfalso. apply Hv. injection H as _ <-. reflexivity.
  - destruct (c_atlas c) as [at_|]; [|discriminate]. destruct (bind _ _) as [[xs cand]|]; [|discriminate].
    exists l, (oget (Z.of_nat (List.length l) - 1)%Z (ma_ndelta a)), delta, new, xs, cand, at_.
    split; auto. split; auto. split; auto. split; [apply add_delta_spec; auto|]. split; auto.
Qed.

(** C72 fails for every input: whatever the minimiser returns (and whether or not refine
    is set), the matched peaks, matched lines and utilisations are the same, and with
    robust_refit so is everything else. *)
Lemma refine_used_refuted_main :
  forall (A : Type) (N : Num A) (o : oracle A) mini1 mini2 c a1 a2 c1 c2 v1 v2,
    same_but_refine a1 a2 ->
    match_peaks o mini1 c a1 = (c1, Ok v1) -> match_peaks o mini2 c a2 = (c2, Ok v2) ->
    mv_peaks v1 <> MNone -> mv_peaks v2 <> MNone ->
    mv_peaks v1 = mv_peaks v2 /\ mv_atlas v1 = mv_atlas v2 /\ mv_putil v1 = mv_putil v2 /\ mv_autil v1 = mv_autil v2 /\
    (ma_robust a1 = true -> v1 = v2 /\ c1 = c2).
Proof.
  intros A N o mini1 mini2 c a1 a2 c1 c2 v1 v2 (E1 & E2 & E3 & E4) H1 H2 N1 N2.
  destruct (match_peaks_inv _ _ _ _ _ _ H1) as (co & Hin & _ & [(_ & _ & K & _)|(at_ & k & xs & cand & r1 & Ha & Hk & _ & Ex & Hc & S1)]);
    [congruence|].
  destruct (match_peaks_inv _ _ _ _ _ _ H2) as (co' & Hin' & _ & [(_ & _ & K & _)|(at' & k' & xs' & cand' & r2 & Ha' & Hk' & _ & Ex' & Hc' & S2)]);
    [congruence|].
  assert (co' = co) as -> by (unfold input_coeff in *; rewrite E1 in Hin; destruct (ma_coeff a2); congruence).
  assert (at' = at_) as -> by congruence. assert (k' = k) as -> by congruence.
  rewrite <- E2 in Ex', Hc'. assert (xs' = xs) as -> by congruence. assert (cand' = cand) as -> by congruence.
  rewrite <- E3, <- E4 in S2. clear H1 H2.
  pose proof (match_store_Ok _ _ _ _ _ _ _ _ _ _ S1) as
    (_ & _ & _ & _ & _ & P1 & Q1 & _ & _ & _ & U1 & W1 & _).
  pose proof (match_store_Ok _ _ _ _ _ _ _ _ _ _ S2) as
    (_ & _ & _ & _ & _ & P2 & Q2 & _ & _ & _ & U2 & W2 & _).
  split; [congruence|]. split; [congruence|]. split; [congruence|]. split; [congruence|].
  intros Hr. rewrite Hr in *. change (match_store o c (oget (List.length co - 1)%nat (ma_deg a1)) true r2 xs cand (atlas_len at_))
    with (match_store o c (oget (List.length co - 1)%nat (ma_deg a1)) true r1 xs cand (atlas_len at_)) in S2.
  rewrite S1 in S2. injection S2 as -> ->. auto.
Qed.

Lemma slice_prefix {A} {N : Num A} (l : list A) n : python_prefix l n (slice_to l n).
Proof.
  unfold slice_to. set (k := if (n <? 0)%Z then (List.length l - Z.to_nat (- n))%nat else Z.to_nat n).
  exists (skipn k l). split; [symmetry; apply firstn_skipn|]. rewrite firstn_length. unfold k.
  destruct (Z.ltb_spec n 0); lia.
Qed.

(** C72, the part that holds: with refine and without robust_refit, the coefficients
    returned and stored are the input with the minimiser's result added. *)
Lemma refine_used_partial_main :
  forall (A : Type) (N : Num A) (o : oracle A) mini c a c' v,
    match_peaks o mini c a = (c', Ok v) -> mv_peaks v <> MNone -> ma_refine a = true -> ma_robust a = false ->
    exists l n first delta,
      input_coeff c a l /\ n = oget (Z.of_nat (List.length l) - 1)%Z (ma_ndelta a) /\ python_prefix l n first /\
      mini (fun d => snd (adjust_polyfit c d l (ma_tol a) (ma_frac a))) (map (fun v => v *' nlit 1 (-3)) first) = Ok delta /\
      shifted l delta (mv_coeff v) /\ existsb nisnan (mv_coeff v) = false /\ c_coeff c' = Some (mv_coeff v).
Proof.
  intros A N o mini c a c' v H Hv Hr Hb.
  destruct (refine_inv _ _ _ _ _ _ H Hv Hr) as (l & n & delta & new & xs & cand & at_ & Hin & En & Hd & Hs & Hn & Hst).
  exists l, n, (slice_to l n), delta. split; auto. split; auto. split; [apply slice_prefix|]. split; auto.
  assert (mv_coeff v = new /\ c_coeff c' = Some new) as (-> & Ec).
  { rewrite Hb in Hst. unfold match_store in Hst. destruct (bind _ _) as [[co' r]|]; [|discriminate].
    destruct (negb _); [discriminate|]. cbv zeta in Hst. destruct (Nat.eqb _ 0); [discriminate|].
    destruct (Nat.eqb _ 0); [discriminate|]. injection Hst as <- <-. auto. }
  auto.
Qed.

(** Cases of these theorems: after the fit of the session, two minimisers give the same
    peaks, and different coefficients without robust_refit. *)
Definition mini_up : minimiser f64 := fun _ x0 => Ok (map (fun _ => fz 100) x0).
Example refine_used_example_main :
  match match_peaks o_ex no_mini c_fitted (ma_plain (fz 20) true false), match_peaks o_ex mini_up c_fitted (ma_plain (fz 20) true false),
        match_peaks o_ex mini_up c_fitted (ma_plain (fz 20) true true), c_coeff c_fitted with
  | (_, Ok v1), (_, Ok v2), (_, Ok v3), Some [b; a] =>
      mv_peaks v1 = MArr ex_peaks /\ mv_peaks v2 = MArr ex_peaks /\ mv_coeff v2 = [b +' fz 100; a] /\
      mv_coeff v1 <> mv_coeff v2 /\ mv_peaks v3 = MArr ex_peaks
  | _, _, _, _ => False
  end.
Proof. vm_compute. repeat split. discriminate. Qed.

(** C94, the part that holds: with robust_refit the residuals returned are, possibly up
    to sign, the matched lines minus the returned polynomial at the matched peaks, and
    without sign change if the robust fit has no NaN; without it they are the absolute
    residuals of a plain fit of the matched pairs.  The rms is theirs in either case. *)
Lemma match_peaks_residuals_partial_main :
  forall (A : Type) (N : Num A) (o : oracle A) mini c a c' v xs ys k,
    match_peaks o mini c a = (c', Ok v) -> mv_peaks v = MArr xs -> mv_atlas v = MArr ys -> c_kind c = Some k ->
    let diff co := map (fun q => snd q -' eval_kind k (fst q) co) (combine xs ys) in
    exists l r, input_coeff c a l /\ mv_resid v = Some r /\ mv_rms v = Some (root_mean_square r) /\
      c_residuals c' = mv_resid v /\ c_rms c' = mv_rms v /\
      (ma_robust a = true ->
         (r = diff (mv_coeff v) /\ c_coeff c' = Some (mv_coeff v)) \/
         (r = map nabs (diff (mv_coeff v)) /\ exists bad, c_coeff c' = Some bad /\ existsb nisnan bad = true)) /\
      (ma_robust a = false ->
         exists p, o_polyfit o k xs ys (oget (List.length l - 1)%nat (ma_deg a)) = Ok p /\ r = map nabs (diff p)).
Proof.
  intros A N o mini c a c' v xs ys k H Hx Hy Hk diff.
  destruct (match_peaks_inv _ _ _ _ _ _ H) as (co & Hin & _ & [(_ & _ & K & _)|(at_ & k' & xs' & cand & refined & Ha & Hk' & _ & Ex & Hc & S)]);
    [congruence|].
  destruct (match_store_Ok _ _ _ _ _ _ _ _ _ _ S) as (_ & _ & _ & _ & _ & P1 & Q1 & (r & R1 & _ & R2 & R3 & R4) & _).
  exists co, r. split; [exact Hin|]. split; [exact R1|]. split; [exact R3|]. split; [congruence|]. split; [congruence|].
  assert (xs' = xs) as -> by congruence. assert (cand = ys) as -> by congruence. clear Ex Hc.
  assert (Em : forall f, minus ys (map f xs) = map (fun q => snd q -' f (fst q)) (combine xs ys)).
  { intros f. unfold minus. clear. revert ys. induction xs as [|x xs IH]; intros [|y ys]; auto. cbn. rewrite IH. auto. }
  unfold match_store in S. destruct (bind _ _) as [[co0 r0]|] eqn:Eb; [|discriminate].
  assert (E0 : o_polyfit o k xs ys (oget (List.length co - 1)%nat (ma_deg a)) = Ok co0 /\ r0 = map nabs (diff co0)).
  { apply bind_Ok in Eb. destruct Eb as (c1 & Ep & Eb). apply bind_Ok in Eb. destruct Eb as (vs & Hvs & Eb).
    rewrite Hk in Hvs. apply polyvals_Ok in Hvs. destruct Hvs as (k2 & Ek & ->). injection Ek as <-.
    assert (c1 = co0) as -> by congruence. split.
    - unfold polyfit_of in Ep. rewrite Hk in Ep. destruct xs; [discriminate|]. destruct (Nat.eqb _ _); [exact Ep|discriminate].
    - unfold diff. rewrite <- (Em (fun p => eval_kind k p co0)). congruence. }
  destruct E0 as (E0 & Er0).
  destruct (negb _); [discriminate|]. cbv zeta in S. destruct (Nat.eqb _ 0); [discriminate|].
  destruct (Nat.eqb _ 0); [discriminate|]. destruct (ma_robust a).
  - split; [intros _|discriminate]. destruct (robust_polyfit _ _ _ _ _) as [co'|]; [|discriminate].
    destruct (existsb nisnan co') eqn:En.
    + right. injection S as <- <-. cbn [mv_resid mv_coeff] in *. split; [|exists co'; auto]. congruence.
    + left. rewrite Hk in S. destruct (polyvals_of _ _ _) as [vs|] eqn:Hvs; [|discriminate].
      apply polyvals_Ok in Hvs. destruct Hvs as (k2 & Ek & ->). injection Ek as <-.
      injection S as <- <-. cbn [mv_resid mv_coeff] in *. split; [|reflexivity].
      unfold diff. rewrite <- (Em (fun p => eval_kind k p co')). congruence.
  - split; [discriminate|]. intros _. exists co0. split; [exact E0|].
    destruct refined as [new|]; [|discriminate]. injection S as <- <-. cbn [mv_resid] in R1. congruence.
Qed.

(** C94 fails in binary64 with refine and without robust_refit: the residuals are those
    of another polynomial, the unrefined polyfit of the matches. *)
Lemma match_peaks_residuals_refuted_main :
  match match_peaks o_ex mini_up c_fitted (ma_plain (fz 20) true false) with
  | (c', Ok v) =>
      match mv_peaks v, mv_atlas v, mv_resid v with
      | MArr (x :: _), MArr (y :: _), Some (r :: _) =>
          r <' fz 5 = true /\ fz 50 <' nabs (y -' eval_kind FitPoly x (mv_coeff v)) = true /\ c_kind c_fitted = Some FitPoly
      | _, _, _ => False
      end
  | _ => False
  end.
Proof. vm_compute. repeat split. Qed.

(* ------------------------------------------------------------------ *)
(** ** _adjust_polyfit over exact numbers *)

Lemma xr_positive_diff (a b : xr) : nltb (nZ 0) (nsub b a) = nltb a b.
Proof.
  rewrite (nZ_Fin 0).
  destruct a as [a|[]|], b as [b|[]|]; try reflexivity.
  change (Rltb 0 (b + - a) = Rltb a b). destruct (Rltb_spec 0 (b + - a)), (Rltb_spec a b); auto; lra.
Qed.

Lemma all_positive_sorted (vs : list xr) :
  all_positive (np_diff vs) = true <-> Sorted (fun a b => a <' b = true) vs.
Proof.
  induction vs as [|x r IH]; [cbn; split; auto; constructor|].
  destruct r as [|y r]; [cbn; split; auto; repeat constructor|].
  change (all_positive (np_diff (x :: y :: r))) with ((nZ 0 <' (y -' x)) && all_positive (np_diff (y :: r))).
  rewrite xr_positive_diff, andb_true_iff, IH. split.
  - intros (H1 & H2). constructor; auto.
  - intros H. inversion H as [|? ? H1 H2]; subst. inversion H2; subst. auto.
Qed.

Lemma xr_within_fin (l x t : xr) : nltb (nabs (nsub l x)) t = true ->
  exists a b, l = Fin a /\ x = Fin b.
Proof.
  destruct l as [a|[]|], x as [b|[]|], t as [t|[]|]; cbn; intros H; try discriminate; eauto.
Qed.

Lemma nearest_lines_spec k lines (co : list xr) tol : lines <> [] -> co <> [] -> forall peaks,
  exists m, nearest_lines (Some k) lines co tol peaks = Ok m /\
    Forall (fun q => nearest (fun p => eval_kind k p co) lines (fst q) (snd q) /\
                     within (fun p => eval_kind k p co) tol (fst q) (snd q) = true) m /\
    (no_nan lines ->
     map fst m = filter (fun p => existsb (within (fun p => eval_kind k p co) tol p) lines) peaks).
Proof.
  intros Hl Hco. induction peaks as [|p r IH].
  - exists []. cbn. auto.
  - destruct IH as (m & Hm & Hf & Hn). cbn [nearest_lines]. unfold polyval_of.
    destruct co as [|c0 co']; [contradiction|]. cbn [bind]. set (co := c0 :: co') in *.
    set (x := eval_kind k p co).
    destruct (np_argmin_spec (map (fun l => nabs (l -' x)) lines)) as (i & d & Ei & Ed & Hd).
    { destruct lines; [contradiction|discriminate]. }
    rewrite Ei, Hm. cbn [bind]. rewrite nth_error_map in Ed. destruct (nth_error lines i) as [l|] eqn:El; [|discriminate].
    cbn [option_map] in Ed. assert (Ed' : nabs (l -' x) = d) by congruence. clear Ed. rename Ed' into Ed. pose proof (nth_error_In _ _ El) as Hin.
    assert (Hnear : nearest (fun p => eval_kind k p co) lines p l).
    { split; auto. intros w' Hw. fold x. rewrite Ed. apply Hd. apply in_map_iff. exists w'. auto. }
    eexists. split; [reflexivity|]. destruct (nltb (nabs (l -' x)) tol) eqn:Et.
    + split; [constructor; auto|]. intros Hnn. cbn [map filter fst].
      assert (Ex : existsb (within (fun p => eval_kind k p co) tol p) lines = true).
      { apply existsb_exists. exists l. auto. }
      rewrite Ex, Hn by auto. reflexivity.
    + split; auto. intros Hnn. cbn [filter].
      destruct (existsb (within (fun p => eval_kind k p co) tol p) lines) eqn:Ex; [|auto].
      exfalso. apply existsb_exists in Ex. destruct Ex as (w & Hw & Ww). unfold within in Ww. fold x in Ww.
      destruct Hnear as (_ & Hnear). specialize (Hnear w Hw). fold x in Hnear.
      destruct (xr_within_fin _ _ _ Ww) as (aw & bx & -> & Ebx). rewrite Ebx in *.
      assert (Hnl : nisnan l = false) by (apply Hnn; auto).
      destruct l as [al|[]|]; [| | |discriminate].
      * change (Rltb (Rabs (aw + - bx)) (Rabs (al + - bx)) = false) in Hnear.
        destruct tol as [t|[]|]; [| | |]; try discriminate.
        change (Rltb (Rabs (al + - bx)) t = false) in Et. change (Rltb (Rabs (aw + - bx)) t = true) in Ww.
        destruct (Rltb_spec (Rabs (aw + - bx)) (Rabs (al + - bx))), (Rltb_spec (Rabs (al + - bx)) t), (Rltb_spec (Rabs (aw + - bx)) t); try discriminate; lra.
      * discriminate.
      * discriminate.
Qed.

Lemma sum_squares_Fin (f : xr -> xr) : forall (m : list (xr * xr)) tol,
  Forall (fun q => within f tol (fst q) (snd q) = true) m ->
  exists ds : list R,
    map (fun q => snd q -' f (fst q)) m = map Fin ds /\
    map (fun q => (fst q -' snd q) *' (fst q -' snd q)) (combine (map snd m) (map f (map fst m))) = map Fin (map (fun d => d * d)%R ds).
Proof.
  induction m as [|[p w] m IH]; intros tol H; [exists []; auto|].
  inversion H as [|? ? H1 H2]; subst. destruct (IH _ H2) as (ds & E1 & E2).
  unfold within in H1. cbn [fst snd] in H1. destruct (xr_within_fin _ _ _ H1) as (a & b & -> & Eb).
  exists ((a + - b)%R :: ds). cbn [map combine fst snd]. rewrite E1, E2, Eb. auto.
Qed.

(** C73: the cost is infinite, or a number that is not negative. *)
Lemma adjust_polyfit_nonnegative_main :
  forall (c : calib xr) delta fit tol frac v,
    snd (adjust_polyfit c delta fit tol frac) = Ok v ->
    v = Inf false \/ exists r, v = Fin r /\ (0 <= r)%R.
Proof.
  intros c delta fit tol frac v H. unfold adjust_polyfit in H. cbn [snd] in H.
  destruct (c_atlas c) as [at_|]; [|discriminate].
  apply bind_Ok in H. destruct H as (co & Hco & H). apply bind_Ok in H. destruct H as (m & Hm & H). cbv zeta in H.
  destruct (Z.ltb_spec (Z.of_nat (List.length m) - Z.of_nat (List.length co) - 1) 1) as [|Hd]; [left; injection H as <-; reflexivity|].
  destruct (nltb (nnat _) _); [left; injection H as <-; reflexivity|].
  destruct (g_pixels (c_gp c)); [|discriminate].
  apply bind_Ok in H. destruct H as (vs & _ & H).
  destruct (negb _); [left; injection H as <-; reflexivity|].
  apply bind_Ok in H. destruct H as (fs & Hfs & H). right.
  destruct (polyvals_Ok _ _ _ _ Hfs) as (k & Ek & Efs). rewrite Ek in *.
  assert (Hne : c_peaks c <> [] -> co <> []).
  { intros Hp Hn. subst co. destruct (c_peaks c); [contradiction|discriminate]. }
  destruct (c_peaks c) as [|p0 pr] eqn:Ep.
  { cbn in Hm. injection Hm as <-. cbn in Hd. lia. }
  rewrite <- Ep in *.
  destruct (get_lines at_) as [|l0 lr] eqn:El.
  { exfalso. rewrite Ep in Hm. cbn in Hm. destruct co; discriminate. }
  rewrite <- El in *.
  destruct (nearest_lines_spec k (get_lines at_) co tol) with (peaks := c_peaks c) as (m' & Hm' & HF & _); [congruence|apply Hne; congruence|].
  assert (m' = m) as -> by congruence.
  destruct (sum_squares_Fin (fun p => eval_kind k p co) m tol) as (ds & _ & Es).
  { eapply Forall_impl; [|exact HF]. cbn. tauto. }
  match type of H with Ok ?w = _ => assert (Ev : v = w) by congruence end. rewrite Ev. clear Ev H. rewrite Efs, Es, np_sum_Fin_R, nZ_Fin.
  assert (0 < IZR (Z.of_nat (List.length m) - Z.of_nat (List.length co) - 1))%R by (apply IZR_lt; lia).
  assert (0 <= fold_right Rplus 0 (map (fun d => d * d) ds))%R.
  { clear. induction ds as [|d ds IH]; cbn; [lra|]. pose proof (Rle_0_sqr d) as K. unfold Rsqr in K. lra. }
  change (ndiv (Fin ?a) (Fin ?b)) with (if Reqb b 0 then (if Reqb a 0 then NaN else Inf (Rltb a 0)) else Fin (a / b)).
  destruct (Reqb_spec (IZR (Z.of_nat (List.length m) - Z.of_nat (List.length co) - 1)) 0) as [K|K]; [lra|].
  eexists. split; [reflexivity|]. apply Rmult_le_pos; auto. left. apply Rinv_0_lt_compat. auto.
Qed.

(** C73: the cost is the sum of the squared distances to the nearest lines, over the
    peaks with a line within the tolerance, per degree of freedom; it is infinite
    exactly if there is less than one degree of freedom, less than the fraction of the
    peaks has such a line, or the shifted curve does not increase on the pixels; and the
    caller's coefficients are not changed. *)
Lemma adjust_polyfit_cost_main :
  forall (c : calib xr) delta fit tol frac at_ k px co,
    c_atlas c = Some at_ -> no_nan (get_lines at_) -> get_lines at_ <> [] ->
    c_kind c = Some k -> g_pixels (c_gp c) = Some px ->
    shifted fit delta co -> co <> [] ->
    let f := fun p => eval_kind k p co in
    let matched := filter (fun p => existsb (within f tol p) (get_lines at_)) (c_peaks c) in
    let dof := (Z.of_nat (List.length matched) - Z.of_nat (List.length co) - 1)%Z in
    let enough := nltb (nnat (List.length matched)) (nnat (List.length (c_peaks c)) *' frac) = false in
    let increasing := Sorted (fun u v => u <' v = true) (map f (np_sort px)) in
    let r := adjust_polyfit c delta fit tol frac in
    fst r = fit /\
    (~ ((1 <= dof)%Z /\ enough /\ increasing) -> snd r = Ok (Inf false)) /\
    ((1 <= dof)%Z /\ enough /\ increasing ->
     exists pairs ds,
       map fst pairs = matched /\
       Forall (fun q => nearest f (get_lines at_) (fst q) (snd q)) pairs /\
       map (fun q => snd q -' f (fst q)) pairs = map Fin ds /\
       snd r = Ok (Fin (fold_right Rplus 0 (map (fun d => d * d) ds) / IZR dof)%R)).
Proof.
  intros c delta fit tol frac at_ k px co Ha Hnn Hl Hk Hpx Hsh Hco f matched dof enough increasing r.
  split; [reflexivity|].
  destruct (nearest_lines_spec k (get_lines at_) co tol Hl Hco (c_peaks c)) as (m & Hm & HF & Hfst).
  specialize (Hfst Hnn). fold f matched in Hfst.
  assert (Lm : List.length m = List.length matched) by (rewrite <- Hfst, map_length; auto).
  assert (Er : snd r =
     if (dof <? 1)%Z then Ok ninf else
     if nltb (nnat (List.length matched)) (nnat (List.length (c_peaks c)) *' frac) then Ok ninf else
     if negb (all_positive (np_diff (map f (np_sort px)))) then Ok ninf else
     Ok (np_sum (map (fun q => (fst q -' snd q) *' (fst q -' snd q)) (combine (map snd m) (map f (map fst m)))) /' nZ dof)).
  { unfold r, adjust_polyfit. cbn [snd]. rewrite Ha. apply add_delta_spec in Hsh. rewrite Hsh. cbn [bind].
    rewrite Hk, Hm. cbn [bind]. cbv zeta. rewrite Lm, Hpx. fold dof. rewrite !polyvals_map by auto. cbn [bind]. reflexivity. }
  rewrite Er. clear Er r.
  destruct (Z.ltb_spec dof 1) as [Hd|Hd].
  { split; [reflexivity|]. intros (K & _). lia. }
  unfold enough. destruct (nltb (nnat (List.length matched)) _) eqn:Ee.
  { split; [reflexivity|]. intros (_ & K & _). discriminate. }
  unfold increasing. rewrite <- all_positive_sorted.
  destruct (all_positive (np_diff (map f (np_sort px)))); cbn [negb].
  2: { split; [reflexivity|]. intros (_ & _ & K). discriminate. }
  split; [intros K; exfalso; apply K; auto|].
  intros _. destruct (sum_squares_Fin f m tol) as (ds & E1 & E2).
  { eapply Forall_impl; [|exact HF]. cbn. tauto. }
  exists m, ds. split; auto. split; [eapply Forall_impl; [|exact HF]; cbn; tauto|]. split; auto.
  rewrite E2, np_sum_Fin_R, nZ_Fin.
  change (ndiv (Fin ?a) (Fin ?b)) with (if Reqb b 0 then (if Reqb a 0 then NaN else Inf (Rltb a 0)) else Fin (a / b)).
  destruct (Reqb_spec (IZR dof) 0) as [K|K]; [apply eq_IZR in K; lia|]. reflexivity.
Qed.

(** A case with a finite cost, over exact numbers: the coefficients (2999, 10) shifted by
    (1), four peaks and four lines; and both cases in binary64 after the fit of the
    session: a finite cost, and an infinite one for a shift that matches no line. *)
Definition c_four : calib xr :=
  set_c_gp (mkG None (Some (map Fin [0; 1; 2; 3]%R)) None true false) (set_c_kind (Some FitPoly)
    (set_c_atlas (Some (mkAtlas (map (fun w => mkAL (Fin w) "Ar"%string (Fin 1) None) [3001; 3010; 3020; 3030]%R) (Fin 3000) (Fin 9000) (Fin 500)))
       (calib_blank (map Fin [0; 1; 2; 3]%R) None))).
Ltac rdec1 := repeat match goal with
  | |- context [Rltb ?a ?b] =>
      let E := fresh in
      first [ assert (E : Rltb a b = true) by (clear; destruct (Rltb_spec a b); [reflexivity|exfalso; unfold Rabs in *; destruct (Rcase_abs _); lra])
            | assert (E : Rltb a b = false) by (clear; destruct (Rltb_spec a b); [exfalso; unfold Rabs in *; destruct (Rcase_abs _); lra|reflexivity]) ];
      rewrite E; clear E
  end.
Example adjust_polyfit_example_main :
  let co := map Fin [3000; 10]%R in
  let f := fun p => eval_kind FitPoly p co in
  let matched := filter (fun p => existsb (within f (Fin 5) p) (map Fin [3001; 3010; 3020; 3030]%R)) (c_peaks c_four) in
  shifted (map Fin [2999; 10]%R) [Fin 1] co /\
  matched = map Fin [0; 1; 2; 3]%R /\
  nltb (nnat (List.length matched)) (nnat (List.length (c_peaks c_four)) *' Fin 1) = false /\
  Sorted (fun u v => u <' v = true) (map f (map Fin [0; 1; 2; 3]%R)) /\
  (match snd (adjust_polyfit c_fitted [fz 1] [fz 3000; fz 10] (fz 20) (fd 5 (-1))) return Prop with
   | Ok v => fz 2 <' v = true /\ v <' fz 20 = true | Raise _ => False end) /\
  snd (adjust_polyfit c_fitted [fz 400] [fz 3000; fz 10] (fz 20) (fd 5 (-1))) = Ok ninf.
Proof.
  cbv zeta.
  assert (M : filter (fun p => existsb (within (fun p => eval_kind FitPoly p (map Fin [3000; 10]%R)) (Fin 5) p) (map Fin [3001; 3010; 3020; 3030]%R)) (c_peaks c_four) = map Fin [0; 1; 2; 3]%R).
  { change (c_peaks c_four) with (map Fin [0; 1; 2; 3]%R). cbn [map filter existsb]. rewrite !real_within. rdec1. reflexivity. }
  split; [|split; [exact M|rewrite M; split; [|split]]].
  - split; [cbn; lia|]. cbn [map combine List.length skipn app fst snd].
    change (nadd (Fin 2999) (Fin 1)) with (Fin (2999 + 1)). replace (2999 + 1)%R with 3000%R by lra. reflexivity.
  - change (List.length (map Fin [0; 1; 2; 3]%R)) with 4%nat. change (List.length (c_peaks c_four)) with 4%nat.
    rewrite nnat_Fin. change (Rltb (INR 4) (INR 4 * 1) = false). destruct (Rltb_spec (INR 4) (INR 4 * 1)); auto. lra.
  - rewrite map_map. erewrite map_ext by (intros; apply real_val).
    cbn [map]. repeat constructor; match goal with |- nltb (Fin ?a) (Fin ?b) = true => change (Rltb a b = true); destruct (Rltb_spec a b); auto; lra end.
  - vm_compute. repeat split.
Qed.

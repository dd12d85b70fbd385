(** * Main_WholeMatch: match_peaks with whole-number coefficients (C155). *)

From Coq Require Import ZArith Bool List String Lia Reals Lra Sorted Permutation.
From Verif Require Import Num F64 XReal Py Np NpFacts ArgsortFacts Util Models Atlas Hough PolyEval Calib SpecCalib Main_Calib Cand SpecCand CandFacts Ransac RansacFacts SampleFacts Main_Ransac Fit Main_Fit MatchPeaks SpecMatch MatchFacts Main_Match Main_Refine Whole WholeMatch SpecWholeMatch.
Import ListNotations.
Local Open Scope num_scope.

Lemma trunc_whole r z : ntrunc (Fin r) = Some z -> whole_part r z.
Proof.
  change (xtrunc (Fin r) = Some z -> whole_part r z). unfold xtrunc, whole_part.
  destruct (Rltb_spec r 0) as [H|H]; intros E; injection E as <-.
  - destruct (base_Int_part (- r)) as [H1 H2]. rewrite opp_IZR.
    set (k := Int_part (- r)) in *. assert (0 <= IZR k)%R.
    { assert (-1 < IZR k)%R by lra. apply (lt_IZR (-1)) in H0. apply IZR_le. lia. }
    rewrite Rabs_Ropp. rewrite (Rabs_left r) by lra. rewrite (Rabs_right (IZR k)) by lra.
    split; [lra|]. split; [apply Rabs_def1; lra|]. nra.
  - destruct (base_Int_part r) as [H1 H2]. set (k := Int_part r) in *. assert (0 <= IZR k)%R.
    { assert (-1 < IZR k)%R by lra. apply (lt_IZR (-1)) in H0. apply IZR_le. lia. }
    rewrite (Rabs_right r) by lra. rewrite (Rabs_right (IZR k)) by lra.
    split; [lra|]. split; [apply Rabs_def1; lra|]. nra.
Qed.

Lemma whole_unique r z k : whole_part r z -> whole_part r k -> z = k.
Proof.
  intros (A1 & A2 & A3) (B1 & B2 & B3). apply Rabs_def2 in A2. apply Rabs_def2 in B2.
  assert (IZR z - IZR k < 2)%R by lra. assert (-2 < IZR z - IZR k)%R by lra.
  rewrite <- minus_IZR in *. apply (lt_IZR _ 2) in H. apply (lt_IZR (-2)) in H0.
  assert (D : (z - k = 0 \/ z - k = 1 \/ z - k = -1)%Z) by lia.
  destruct D as [D|[D|D]]; [lia| |]; exfalso.
  - assert (z = k + 1)%Z by lia. subst z. rewrite plus_IZR in *.
    destruct (Z_le_gt_dec 0 k) as [Hk|Hk].
    + apply IZR_le in Hk. rewrite Rabs_right in A1 by lra. unfold Rabs in A1. destruct (Rcase_abs r); nra.
    + assert (k <= -1)%Z by lia. apply IZR_le in H1. rewrite (Rabs_left (IZR k)) in B1 by lra. unfold Rabs in B1. destruct (Rcase_abs r); nra.
  - assert (k = z + 1)%Z by lia. subst k. rewrite plus_IZR in *.
    destruct (Z_le_gt_dec 0 z) as [Hk|Hk].
    + apply IZR_le in Hk. rewrite Rabs_right in B1 by lra. unfold Rabs in B1. destruct (Rcase_abs r); nra.
    + assert (z <= -1)%Z by lia. apply IZR_le in H1. rewrite (Rabs_left (IZR z)) in A1 by lra. unfold Rabs in A1. destruct (Rcase_abs r); nra.
Qed.

Lemma cut_sum z (d : xr) k : cut (nZ z +' d) = Ok k -> exists r, d = Fin r /\ whole_part (IZR z + r) k.
Proof.
  unfold cut. rewrite nZ_Fin. destruct d as [r|b|].
  - change (Fin (IZR z) +' Fin r) with (Fin (IZR z + r)%R). destruct (ntrunc (Fin (IZR z + r)%R)) eqn:E; [|destruct (nisnan _); discriminate].
    intros H. injection H as <-. exists r. split; [reflexivity|apply trunc_whole; exact E].
  - change (Fin (IZR z) +' Inf b) with (Inf b). change (ntrunc (Inf b)) with (@None Z). destruct (nisnan _); discriminate.
  - change (Fin (IZR z) +' NaN) with NaN. change (ntrunc NaN) with (@None Z). destruct (nisnan _); discriminate.
Qed.

Lemma add_ints_whole : forall (d : list xr) fit new, add_delta_ints fit d = Ok new -> shifted_whole fit d new.
Proof.
  unfold shifted_whole. induction d as [|x d IH]; intros fit new H.
  - assert (new = fit) as -> by (destruct fit; cbn [add_delta_ints] in H; congruence).
    split; [reflexivity|]. split; [cbn; lia|]. intros i z Hz. replace (nth_error (@nil xr) i) with (@None xr) by (destruct i; reflexivity). exact Hz.
  - cbn [add_delta_ints] in H. destruct fit as [|f fs]; [discriminate|].
    apply bind_Ok in H. destruct H as (k & Hk & H). apply bind_Ok in H. destruct H as (r & Hr & H). injection H as <-.
    destruct (IH _ _ Hr) as (L1 & L2 & K). cbn [List.length]. split; [lia|]. split; [lia|].
    intros [|i] z Hz; cbn [nth_error] in *.
    + injection Hz as <-. destruct (cut_sum _ _ _ Hk) as (q & -> & Hq). exists q, k. auto.
    + apply K, Hz.
Qed.

(** C155, what holds: match_peaks with refine and without robust_refit, given whole
    numbers, stores and returns them with the correction of the minimiser added and the
    decimals of each sum cut off.  Without refine, or with robust_refit, the result is the
    one for the same numbers as floats. *)
Lemma whole_refine_partial_main :
  (forall (o : oracle xr) mini c fit a c' v,
    match_peaks_ints o mini c fit a = (c', Ok v) -> ma_refine a = true -> ma_robust a = false ->
    exists n first rest delta new,
      n = oget (Z.of_nat (List.length fit) - 1)%Z (ma_ndelta a) /\ fit = first ++ rest /\
      Z.of_nat (List.length first) = Z.min (Z.of_nat (List.length fit)) (Z.max 0 (if (n <? 0)%Z then Z.of_nat (List.length fit) + n else n)) /\
      mini (fun d => adjust_ints c d fit (ma_tol a) (ma_frac a)) (map (fun z => nZ z *' nlit 1 (-3)) first) = Ok delta /\
      shifted_whole fit delta new /\ mv_coeff v = map (fun z => Fin (IZR z)) new /\ c_coeff c' = Some (mv_coeff v)) /\
  (forall (A : Type) (N : Num A) (o : oracle A) mini c fit a,
    ma_refine a = false ->
    match_peaks_ints o mini c fit a =
    match_peaks o mini c (mkMA (MArr (map nZ fit)) (ma_ndelta a) false (ma_tol a) (ma_frac a) (ma_robust a) (ma_deg a))) /\
  (forall (A : Type) (N : Num A) (o : oracle A) mini c fit a c' v,
    ma_robust a = true -> match_peaks_ints o mini c fit a = (c', Ok v) ->
    match_peaks o mini c (mkMA (MArr (map nZ fit)) (ma_ndelta a) false (ma_tol a) (ma_frac a) true (ma_deg a)) = (c', Ok v)).
Proof.
  assert (P2 : forall (A : Type) (N : Num A) (o : oracle A) mini c fit a,
    ma_refine a = false ->
    match_peaks_ints o mini c fit a =
    match_peaks o mini c (mkMA (MArr (map nZ fit)) (ma_ndelta a) false (ma_tol a) (ma_frac a) (ma_robust a) (ma_deg a))).
  { intros A N o mini c fit a Hr. unfold match_peaks_ints, match_peaks. cbn [ma_coeff mseq_vals ma_refine ma_ndelta ma_tol ma_frac ma_robust ma_deg].
    rewrite Hr. destruct fit as [|z fit]; [reflexivity|].
    cbn [map]. cbv zeta. cbn [List.length]. rewrite map_length. reflexivity. }
  split; [|split; [exact P2|]].
  - intros o mini c fit a c' v H Hr Hb. unfold match_peaks_ints in H. destruct fit as [|z0 fit0]; [discriminate|].
    remember (z0 :: fit0) as fit eqn:Ef. cbv zeta in H. rewrite Hr in H.
    destruct (bind (refine_ints _ _ _ _ _ _) _) as [q|e] eqn:Eq; [|discriminate].
    apply bind_Ok in Eq. destruct Eq as (new & Eq & Eq'). injection Eq' as <-.
    unfold refine_ints in Eq. cbv zeta in Eq. apply bind_Ok in Eq. destruct Eq as (delta & Hd & Hn).
    set (n := oget (Z.of_nat (List.length fit) - 1)%Z (ma_ndelta a)) in *.
    set (k := if (n <? 0)%Z then (List.length fit - Z.to_nat (- n))%nat else Z.to_nat n).
    exists n, (slice_to fit n), (skipn k fit), delta, new. split; [reflexivity|].
    split; [symmetry; apply firstn_skipn|].
    split. { unfold slice_to. rewrite firstn_length. destruct (Z.ltb_spec n 0); lia. }
    split; [exact Hd|]. split; [apply add_ints_whole; exact Hn|].
    assert (En : map nZ new = map (fun z => Fin (IZR z)) new) by (apply map_ext; intros; apply nZ_Fin).
    rewrite <- En.
    destruct (c_atlas c) as [at_|]; [|discriminate]. destruct (bind _ _) as [[xs cand]|]; [|discriminate].
    rewrite Hb in H. unfold match_store in H. destruct (bind _ _) as [[co' r]|]; [|discriminate].
    destruct (negb _); [discriminate|]. cbv zeta in H. destruct (Nat.eqb _ 0); [discriminate|].
    destruct (Nat.eqb _ 0); [discriminate|]. injection H as <- <-. auto.
  - intros A N o mini c fit a c' v Hb H.
    pose proof (P2 A N o mini c fit (mkMA (ma_coeff a) (ma_ndelta a) false (ma_tol a) (ma_frac a) (ma_robust a) (ma_deg a)) eq_refl) as E.
    cbn [ma_ndelta ma_tol ma_frac ma_robust ma_deg] in E. rewrite Hb in E. rewrite <- E. clear E P2.
    unfold match_peaks_ints in *. cbn [ma_refine ma_tol ma_robust ma_deg]. destruct fit as [|z0 fit0]; [discriminate|].
    remember (z0 :: fit0) as fit eqn:Ef. cbv zeta in *. rewrite Hb in H.
    destruct (if ma_refine a then _ else _) as [q|]; [|discriminate].
    destruct (c_atlas c) as [at_|]; [|discriminate]. destruct (bind _ _) as [[xs cand]|]; [|discriminate]. exact H.
Qed.

Lemma add_ints_same : forall ds fit, (List.length ds <= List.length fit)%nat ->
  Forall (fun z => 0 <= z)%Z fit -> Forall (fun d => 0 <= d < 1)%R ds -> add_delta_ints fit (map Fin ds) = Ok fit.
Proof.
  induction ds as [|d ds IH]; intros fit L Hf Hd; [destruct fit; reflexivity|].
  destruct fit as [|z fit]; [cbn in L; lia|]. cbn [map add_delta_ints].
  inversion Hf as [|? ? Hz Hf']; inversion Hd as [|? ? Hq Hd']; subst.
  assert (E : cut (nZ z +' Fin d) = Ok z).
  { unfold cut. rewrite nZ_Fin. change (Fin (IZR z) +' Fin d) with (Fin (IZR z + d)%R).
    destruct (ntrunc (Fin (IZR z + d)%R)) as [k|] eqn:E; [|change (ntrunc (Fin (IZR z + d)%R)) with (xtrunc (Fin (IZR z + d)%R)) in E; unfold xtrunc in E; destruct (Rltb _ _); discriminate].
    f_equal. apply (whole_unique (IZR z + d)); [apply trunc_whole; exact E|]. apply IZR_le in Hz.
    unfold whole_part. rewrite !Rabs_right by lra. split; [lra|]. split; [lra|]. nra. }
  rewrite E. cbn [bind]. rewrite IH; auto. cbn in L; lia.
Qed.

(** C155 fails for all coefficients that are not negative: every correction of less than 1
    leaves them as they are, and the function the minimiser is to minimise does not tell
    such corrections apart. *)
Lemma whole_refine_refuted_main :
  forall (o : oracle xr) mini c fit a c' v ds,
    match_peaks_ints o mini c fit a = (c', Ok v) -> ma_refine a = true -> ma_robust a = false ->
    Forall (fun z => 0 <= z)%Z fit ->
    (forall f x0, mini f x0 = Ok (map Fin ds)) -> Forall (fun d => 0 <= d < 1)%R ds -> (exists d, In d ds /\ (0 < d)%R) ->
    mv_coeff v = map (fun z => Fin (IZR z)) fit /\
    ~ shifted (map (fun z => Fin (IZR z)) fit) (map Fin ds) (mv_coeff v) /\
    (forall ds', List.length ds' = List.length ds -> Forall (fun d => 0 <= d < 1)%R ds' ->
       adjust_ints c (map Fin ds') fit (ma_tol a) (ma_frac a) = adjust_ints c (map Fin ds) fit (ma_tol a) (ma_frac a)).
Proof.
  intros o mini c fit a c' v ds H Hr Hb Hf Hm Hd (d0 & Hd0 & Hp).
  destruct whole_refine_partial_main as (K & _).
  destruct (K _ _ _ _ _ _ _ H Hr Hb) as (n & first & rest & delta & new & _ & _ & _ & Ed & Hs & Ev & _).
  rewrite Hm in Ed. injection Ed as <-. destruct Hs as (L1 & L2 & Hs). rewrite map_length in L2.
  assert (new = fit).
  { apply nth_ext with (d := 0%Z) (d' := 0%Z); [exact L1|]. intros i Hi. rewrite L1 in Hi.
    destruct (nth_error fit i) as [z|] eqn:Ez; [|apply nth_error_None in Ez; lia].
    specialize (Hs i z Ez). rewrite (nth_error_nth _ _ _ Ez). rewrite nth_error_map in Hs.
    destruct (nth_error ds i) as [d|] eqn:Edi; cbn in Hs; [|rewrite (nth_error_nth _ _ _ Hs); reflexivity].
    destruct Hs as (r & k & Er & Ek & W). injection Er as <-. rewrite (nth_error_nth _ _ _ Ek).
    apply (whole_unique (IZR z + d)); [exact W|]. rewrite Forall_forall in Hf, Hd.
    apply nth_error_In in Ez, Edi. specialize (Hf _ Ez). specialize (Hd _ Edi). apply IZR_le in Hf.
    unfold whole_part. rewrite !Rabs_right by lra. split; [lra|]. split; [lra|]. nra. }
  subst new. split; [exact Ev|]. split.
  - rewrite Ev. intros (_ & E). apply In_nth_error in Hd0. destruct Hd0 as (i & Hi).
    assert (Hl : (i < List.length ds)%nat) by (apply nth_error_Some; congruence).
    destruct (nth_error fit i) as [z|] eqn:Ez; [|apply nth_error_None in Ez; lia].
    assert (E2 : nth_error (map (fun z => Fin (IZR z)) fit) i = Some (Fin (IZR z + d0)%R)).
    { rewrite E. clear E H K Hs Ev Hm Hd Hf L1. revert fit ds Hi L2 Hl Ez. induction i as [|i IH]; intros [|f fs] [|d ds] Hi L2 Hl Ez; cbn in *; try discriminate; try lia.
      - injection Ez as <-. injection Hi as <-. reflexivity.
      - apply IH; auto; lia. }
    rewrite nth_error_map, Ez in E2. cbn in E2. injection E2 as E2. lra.
  - intros ds' L Hd'. unfold adjust_ints. destruct (c_atlas c); [|reflexivity].
    rewrite !add_ints_same by (auto; lia). reflexivity.
Qed.

Definition mini_by (d : f64) : minimiser f64 := fun _ _ => Ok [d].

(** The hypotheses of C155 are met: with 3000 + 10 x all five peaks match.  The correction
    0.5 is lost and 1.5 becomes 1; for floats both are added. *)
Example whole_refine_example_main :
  let a := ma_plain (fz 20) true false in
  let af := mkMA (MArr [fz 3000; fz 10]) None true (fz 20) (fd 5 (-1)) false None in
  match match_peaks_ints o_ex (mini_by (fd 5 (-1))) c_fitted [3000; 10]%Z a,
        match_peaks_ints o_ex (mini_by (fd 15 (-1))) c_fitted [3000; 10]%Z a,
        match_peaks o_ex (mini_by (fd 5 (-1))) c_fitted af,
        match_peaks_ints o_ex (mini_by (fd 5 (-1))) c_fitted [-3000; 10]%Z a return Prop with
  | (c1, Ok v1), (_, Ok v2), (_, Ok v3), (_, Raise _) =>
      mv_peaks v1 = MArr ex_peaks /\ mv_coeff v1 = [fz 3000; fz 10] /\ c_coeff c1 = Some [fz 3000; fz 10] /\
      mv_coeff v2 = [fz 3001; fz 10] /\ mv_coeff v3 = [fd 30005 (-1); fz 10] /\
      add_delta_ints [-3; 7]%Z [fd 5 (-1); fd (-12) 0] = Ok [-2; -5]%Z
  | _, _, _, _ => False
  end.
Proof. vm_compute. repeat split; reflexivity. Qed.

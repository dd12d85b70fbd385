(** * RecoverFacts: the search on candidates that lie on a polynomial. *)

From Coq Require Import ZArith Bool List String Lia Reals Lra Sorted Permutation.
From Verif Require Import Num F64 XReal Py Np NpFacts ArgsortFacts Util Models Atlas Hough SpecHough HoughFacts PolyEval SpecPoly PolyFacts Main_Models Calib Main_Calib Cand SpecCand CandFacts Ransac SpecRansac RansacFacts SampleFacts SpecRecover PolyIdent.
Import ListNotations.
Local Open Scope num_scope.

Lemma SS_Rlt_unique (l l' : list R) :
  StronglySorted Rlt l -> StronglySorted Rlt l' -> (forall v, In v l <-> In v l') -> l = l'.
Proof.
  revert l'. induction l as [|a l IH]; intros l' S S' H.
  - destruct l' as [|b l']; auto. exfalso. apply (proj2 (H b)). left; auto.
  - inversion S as [|? ? S1 F1]; subst. rewrite Forall_forall in F1.
    destruct l' as [|b l']; [exfalso; apply (proj1 (H a)); left; auto|].
    inversion S' as [|? ? S2 F2]; subst. rewrite Forall_forall in F2.
    assert (a = b).
    { destruct (proj1 (H a) (or_introl eq_refl)) as [->|Hb]; auto.
      destruct (proj2 (H b) (or_introl eq_refl)) as [->|Ha]; auto.
      apply F2 in Hb. apply F1 in Ha. lra. }
    subst b. f_equal. apply IH; auto. intros v. split; intros Hv.
    + destruct (proj1 (H v) (or_intror Hv)) as [<-|]; auto. apply F1 in Hv. lra.
    + destruct (proj2 (H v) (or_intror Hv)) as [<-|]; auto. apply F2 in Hv. lra.
Qed.

Lemma np_unique_sorted_id (us : list R) : StronglySorted Rlt us -> np_unique (map Fin us) = map Fin us.
Proof.
  intros S. destruct (np_unique_Fin us) as (vs & E & S' & H). rewrite E. f_equal.
  apply SS_Rlt_unique; auto.
Qed.

Lemma SS_map_inc (g : R -> R) us : (forall u v, In u us -> In v us -> u < v -> g u < g v)%R ->
  StronglySorted Rlt us -> StronglySorted Rlt (map g us).
Proof.
  induction us as [|a us IH]; intros H S; [constructor|]. inversion S as [|? ? S1 F]; subst.
  cbn [map]. constructor; [apply IH; auto; intros; apply H; auto; right; auto|].
  rewrite Forall_forall in *. intros z Hz. apply in_map_iff in Hz. destruct Hz as (u & <- & Hu).
  apply H; [left; auto|right; auto|apply F; auto].
Qed.

Lemma argmin_zeros (l : list xr) : l <> [] -> (forall z, In z l -> z = Fin 0) -> np_argmin l = Some 0%nat.
Proof.
  destruct l as [|a l]; [contradiction|]. intros _ H. cbn [np_argmin]. f_equal.
  assert (a = Fin 0) by (apply H; left; auto). subst a.
  assert (G : forall i, argmin_from i 0 (Fin 0) l = 0%nat).
  { assert (H' : forall z, In z l -> z = Fin 0) by (intros; apply H; right; auto). clear H.
    induction l as [|b l IH]; intros i; [reflexivity|].
    assert (b = Fin 0) by (apply H'; left; auto). subst b. cbn [argmin_from].
    change (nisnan (Fin 0)) with false. change (Fin 0 <=' Fin 0) with (Rleb 0 0).
    destruct (Rleb_spec 0 0); [|lra]. apply IH. intros; apply H'; right; auto. }
  apply G.
Qed.

Lemma nth_error_map_inv {T U} (g : T -> U) l k y : nth_error (map g l) k = Some y -> exists x, nth_error l k = Some x /\ y = g x.
Proof. rewrite nth_error_map. destruct (nth_error l k) as [x|]; [|discriminate]. cbn. intros H; injection H as <-. eauto. Qed.

Lemma np_diff_inc (g : nat -> R) k n :
  (forall i, (k <= i)%nat -> (S i < k + n)%nat -> g i < g (S i))%R ->
  all_positive (np_diff (map (fun i => Fin (g i)) (seq k n))) = true.
Proof.
  unfold all_positive. revert k. induction n as [|n IH]; intros k H; [reflexivity|].
  destruct n as [|n]; [reflexivity|]. cbn [seq map np_diff forallb].
  rewrite nZ_Fin. change (Fin 0 <' (Fin (g (S k)) -' Fin (g k))) with (Rltb 0 (g (S k) + - g k)).
  destruct (Rltb_spec 0 (g (S k) + - g k)) as [|G].
  - cbn [andb]. specialize (IH (S k)). rewrite nZ_Fin in IH. apply IH. intros i Hi Hj. apply H; lia.
  - exfalso. specialize (H k). assert (g k < g (S k))%R by (apply H; lia). lra.
Qed.

Lemma xdiv_Fin a b : b <> 0%R -> Fin a /' Fin b = Fin (a / b).
Proof. intros H. change (Fin a /' Fin b) with (if Reqb b 0 then (if Reqb a 0 then NaN else Inf (Rltb a 0)) else Fin (a / b)). destruct (Reqb_spec b 0); [contradiction|reflexivity]. Qed.

Lemma sum_zeros n : np_sum (repeat (Fin 0) n) = Fin 0.
Proof.
  unfold np_sum. rewrite nZ_Fin. induction n as [|n IH]; [reflexivity|]. cbn [repeat fold_left].
  change (Fin 0 +' Fin 0) with (Fin (0 + 0)). rewrite Rplus_0_l. exact IH.
Qed.

Lemma nceil_Fin r : exists z, nceil (Fin r) = Some z /\ (r <= IZR z < r + 1)%R.
Proof.
  unfold nceil. cbn [ntrunc XRnum xtrunc].
  set (t := if Rltb r 0 then (- Int_part (- r))%Z else Int_part r).
  rewrite nZ_Fin. change (Fin (IZR t) <' Fin r) with (Rltb (IZR t) r).
  exists (if Rltb (IZR t) r then (t + 1)%Z else t). split; auto.
  assert (B : (IZR t - 1 < r < IZR t + 1)%R).
  { unfold t. destruct (Rltb_spec r 0).
    - rewrite opp_IZR. pose proof (base_Int_part (- r)). lra.
    - pose proof (base_Int_part r). lra. }
  destruct (Rltb_spec (IZR t) r); [rewrite plus_IZR; lra|lra].
Qed.

Lemma arange_increasing (P : R -> R) (ev : xr -> xr) lo hi :
  (forall u, ev (Fin u) = Fin (P u)) ->
  (forall u v, lo <= u -> v <= hi -> u < v -> P u < P v)%R ->
  all_positive (np_diff (map ev (np_arange1 (Fin lo) (Fin hi)))) = true.
Proof.
  intros He Hi. unfold np_arange1.
  change (Fin hi -' Fin lo) with (Fin (hi + - lo)%R).
  destruct (nceil_Fin (hi + - lo)%R) as (z & -> & Hz).
  rewrite nZ_Fin. change ((Fin lo +' Fin (IZR 1)) -' Fin lo) with (Fin (lo + IZR 1 + - lo)%R).
  rewrite map_map.
  rewrite (map_ext _ (fun i => Fin (P (lo + INR i * (lo + IZR 1 + - lo))%R))).
  2:{ intros i. rewrite nnat_Fin. change (Fin lo +' Fin (INR i) *' Fin (lo + IZR 1 + - lo)) with (Fin (lo + INR i * (lo + IZR 1 + - lo))%R). apply He. }
  apply (np_diff_inc (fun i => P (lo + INR i * (lo + IZR 1 + - lo))%R)).
  intros i _ Hn. rewrite S_INR. pose proof (pos_INR i).
  apply Hi; [nra| |nra].
  assert (Z.of_nat (S i) + 1 <= z)%Z by lia. apply IZR_le in H0. rewrite plus_IZR, <- INR_IZR_INZ, S_INR in H0. lra.
Qed.

Lemma last_In {T} (l : list T) d : l <> [] -> In (last l d) l.
Proof. induction l as [|a l IH]; [contradiction|]. intros _. destruct l; [left; auto|right; apply IH; discriminate]. Qed.

Lemma SS_hd_last us : StronglySorted Rlt us -> us <> [] -> forall u, In u us -> (hd 0 us <= u <= last us 0)%R.
Proof.
  induction us as [|a us IH]; [contradiction|]. intros S _ u Hu. inversion S as [|? ? S1 F]; subst.
  rewrite Forall_forall in F. destruct us as [|b us].
  - destruct Hu as [<-|[]]. cbn. lra.
  - assert (Hl : In (last (b :: us) 0%R) (b :: us)) by (apply last_In; discriminate).
    change (last (a :: b :: us) 0%R) with (last (b :: us) 0%R). cbn [hd].
    destruct Hu as [<-|Hu].
    + apply F in Hl. lra.
    + specialize (IH S1 ltac:(discriminate) u Hu). apply F in Hu. lra.
Qed.

Lemma ptp_sorted us : StronglySorted Rlt us -> us <> [] ->
  np_ptp (map Fin us) = Ok (Fin (last us 0 - hd 0 us)%R).
Proof.
  intros S Hne. pose proof (SS_hd_last us S Hne) as B. destruct us as [|x v]; [contradiction|].
  destruct (np_amin_Fin v x) as (a & Ea & Ia & La).
  destruct (np_amax_Fin v x) as (b & Eb & Ib & Lb).
  unfold np_ptp. rewrite Ea, Eb. cbn [bind]. change (Fin b -' Fin a) with (Fin (b + - a)%R). do 2 f_equal.
  assert (Hl : In (last (x :: v) 0%R) (x :: v)) by (apply last_In; discriminate).
  assert (Hh : In (hd 0%R (x :: v)) (x :: v)) by (left; auto).
  pose proof (B a Ia). pose proof (B b Ib). pose proof (La _ Hh). pose proof (Lb _ Hl). lra.
Qed.

Lemma NoDup_app_l {T} (l r : list T) : NoDup (l ++ r) -> NoDup l.
Proof.
  induction l as [|a l IH]; intros H; [constructor|]. inversion H as [|? ? H1 H2]; subst. constructor; auto.
  intros Ha. apply H1. apply in_or_app. auto.
Qed.

Section Run.
  Variables (o : oracle xr) (f : cfg xr) (deg : nat) (co us : list R).
  Let P := poly co.
  Hypothesis Hkind : f_kind f = FitPoly.
  Hypothesis Hdeg : f_deg f = deg.
  Hypothesis Hpeaks : f_peaks f = map Fin us.
  Hypothesis Hsort : StronglySorted Rlt us.
  Hypothesis Hco : List.length co = S deg.
  Hypothesis Hd1 : (1 <= deg)%nat.
  Hypothesis Hdict : forall u, In u us -> exists ys, dict_get (f_dict f) (Fin u) = Ok ys /\ In (Fin (P u)) ys /\ forall y, In y ys -> exists r, y = Fin r.
  Hypothesis Hknown : f_known f = None.
  Hypothesis Hbrute : f_brute f = false.
  Hypothesis Hsize : (deg < List.length us)%nat.
  Variable tol : R.
  Hypothesis Htol : f_tol f = Fin tol.
  Hypothesis Htol0 : (0 < tol)%R.
  Variables ilo ihi : R.
  Hypothesis Hilo : f_ilo f = Fin ilo.
  Hypothesis Hihi : f_ihi f = Fin ihi.
  Hypothesis Hint : (ilo <= hd 0 co <= ihi)%R.
  Hypothesis Hinc : let width := (last us 0 - hd 0 us)%R in
    forall u v, (hd 0 us - width / 5 <= u)%R -> (v <= last us 0 + width / 5)%R -> (u < v)%R -> (P u < P v)%R.
  Hypothesis Hbonus : exists W, hough_bonus f (map Fin co) = Ok (Fin W) /\ (0 <= W)%R.
  Variables minerr minmatch minutil : R.
  Hypothesis Hminerr : f_minerr f = Fin minerr.
  Hypothesis Hminmatch : f_minmatch f = Fin minmatch.
  Hypothesis Hminutil : f_minutil f = Fin minutil.
  Hypothesis Hmm : (minmatch <= INR (List.length us))%R.
  Hypothesis Hmu : (minutil * INR (f_npeaks f) <= INR (List.length us))%R.
  Hypothesis Hdraws : honest_draws o.
  Hypothesis Hpf : exact_polyfit o deg co.
  Variable co' : list R.
  Hypothesis Hrob : robust_polyfit (o_ls o) (map Fin us) (map Fin (map P us)) deg None = Ok (map Fin co').
  Hypothesis Hrob' : forall u, In u us -> poly co' u = P u.

  Lemma us_nonempty : us <> [].
  Proof. intros ->. cbn in Hsize. lia. Qed.

  Lemma P_inc u v : In u us -> In v us -> (u < v)%R -> (P u < P v)%R.
  Proof.
    intros Hu Hv L. pose proof (SS_hd_last us Hsort us_nonempty u Hu). pose proof (SS_hd_last us Hsort us_nonempty v Hv).
    apply Hinc; lra.
  Qed.
  Lemma P_inj u v : In u us -> In v us -> P u = P v -> u = v.
  Proof.
    intros Hu Hv E. destruct (Rtotal_order u v) as [L|[L|L]]; auto; [apply P_inc in L|apply P_inc in L]; auto; lra.
  Qed.

  Lemma ev_co u : eval_kind (f_kind f) (Fin u) (map Fin co) = Fin (P u).
  Proof. rewrite Hkind. apply basis_evaluation_main. Qed.
  Lemma ev_co' u : eval_kind (f_kind f) (Fin u) (map Fin co') = Fin (poly co' u).
  Proof. rewrite Hkind. apply basis_evaluation_main. Qed.

  Definition row (u : R) : xr * xr * xr := (Fin 0, Fin u, Fin (P u)).

  Lemma rows_exact l : incl l us ->
    nearest_rows (fun p => eval_kind (f_kind f) p (map Fin co)) (f_dict f) (map Fin l) = Ok (map row l).
  Proof.
    induction l as [|u l IH]; intros Hl; [reflexivity|]. cbn [map nearest_rows].
    destruct (Hdict u (Hl u (or_introl eq_refl))) as (ys & Ed & Hin & Hys). rewrite Ed. cbn [bind].
    rewrite ev_co.
    destruct (np_argmin_spec (map (fun y => nabs (Fin (P u) -' y)) ys)) as (i & m & Ei & En & Hm).
    { destruct ys; [destruct Hin|discriminate]. }
    rewrite Ei, En. apply nth_error_map_inv in En. destruct En as (y & Ey & ->). rewrite Ey.
    apply nth_error_In in Ey. destruct (Hys y Ey) as (r & ->).
    assert (r = P u) as ->.
    { specialize (Hm (nabs (Fin (P u) -' Fin (P u)))). 
      assert (E : (nabs (Fin (P u) -' Fin (P u)) <' nabs (Fin (P u) -' Fin r)) = false).
      { apply Hm. apply (in_map (fun y => nabs (Fin (P u) -' y))). exact Hin. }
      change (Rltb (Rabs (P u + - P u)) (Rabs (P u + - r)) = false) in E.
      destruct (Rltb_spec (Rabs (P u + - P u)) (Rabs (P u + - r))) as [|G]; [discriminate|].
      rewrite Rplus_opp_r, Rabs_R0 in G. destruct (Req_dec (P u + - r) 0) as [|X]; [lra|].
      apply Rabs_pos_lt in X. lra. }
    change (nabs (Fin (P u) -' Fin (P u))) with (Fin (Rabs (P u + - P u)%R)). rewrite Rplus_opp_r, Rabs_R0.
    rewrite IH by (intros z Hz'; apply Hl; right; auto). reflexivity.
  Qed.

  Lemma filter_row u : In u us -> filter (fun q => snd q ==' Fin (P u)) (map row us) = [row u].
  Proof.
    intros Hu.
    assert (G : forall l, incl l us -> StronglySorted Rlt l ->
      filter (fun q => snd q ==' Fin (P u)) (map row l) = if in_dec Req_EM_T u l then [row u] else []).
    { induction l as [|v l IH]; intros Hl S; [reflexivity|]. cbn [map filter].
      destruct (StronglySorted_inv S) as [S1 F]. rewrite Forall_forall in F.
      change (snd (row v) ==' Fin (P u)) with (Reqb (P v) (P u)).
      rewrite IH by (auto; intros z Hz; apply Hl; right; auto).
      destruct (Reqb_spec (P v) (P u)) as [E|E].
      - apply P_inj in E; auto; [|apply Hl; left; auto]. subst v.
        destruct (in_dec Req_EM_T u l) as [I|I]; [apply F in I; lra|].
        destruct (in_dec Req_EM_T u (u :: l)) as [|X]; [reflexivity|]. exfalso; apply X; left; auto.
      - destruct (in_dec Req_EM_T u l) as [I|I].
        + destruct (in_dec Req_EM_T u (v :: l)) as [|X]; [reflexivity|]. exfalso; apply X; right; auto.
        + destruct (in_dec Req_EM_T u (v :: l)) as [[->|X]|]; [congruence|contradiction|reflexivity]. }
    rewrite G; auto; [|apply incl_refl]. destruct (in_dec Req_EM_T u us); [reflexivity|contradiction].
  Qed.

  Lemma resolve_exact l : incl l us ->
    resolve_rows (map row us) (map Fin (map P l)) = Ok (map row l).
  Proof.
    induction l as [|u l IH]; intros Hl; [reflexivity|]. cbn [map resolve_rows].
    rewrite filter_row by (apply Hl; left; auto). cbn [map].
    rewrite argmin_zeros; [|discriminate|intros z [<-|[]]; reflexivity]. cbn [nth_error].
    rewrite IH by (intros z Hz; apply Hl; right; auto). reflexivity.
  Qed.

  Lemma match_exact :
    match_bijective (fun p => eval_kind (f_kind f) p (map Fin co)) (f_dict f) (f_peaks f) =
    Ok (repeat (Fin 0) (List.length us), map Fin us, map Fin (map P us)).
  Proof.
    unfold match_bijective. rewrite Hpeaks, rows_exact by apply incl_refl. cbn [bind].
    rewrite map_map. change (map (fun x => snd (row x)) us) with (map (fun x => Fin (P x)) us).
    rewrite <- (map_map P Fin).
    assert (SP : StronglySorted Rlt (map P us)) by (apply SS_map_inc; auto; apply P_inc).
    rewrite np_unique_sorted_id by auto. rewrite resolve_exact by apply incl_refl. cbn [bind].
    rewrite !map_map. change (map (fun x => snd (fst (row x))) us) with (map Fin us).
    change (map (fun x => snd (row x)) us) with (map (fun x => Fin (P x)) us).
    rewrite <- (map_map P Fin). rewrite !np_unique_sorted_id by auto. rewrite !map_length, Nat.eqb_refl.
    do 3 f_equal. clear. induction us as [|u l IH]; [reflexivity|]. cbn [map List.length repeat]. f_equal. exact IH.
  Qed.

  Lemma clip_zeros n : clip_err (f_tol f) (repeat (Fin 0) n) = repeat (Fin 0) n.
  Proof.
    unfold clip_err. rewrite Htol. induction n as [|n IH]; [reflexivity|]. cbn [repeat map].
    rewrite IH. change (Fin tol <' Fin 0) with (Rltb tol 0). destruct (Rltb_spec tol 0); [lra|reflexivity].
  Qed.

  Lemma mask_zeros {T} (l : list T) : mask_select (map (fun e => e <' f_tol f) (repeat (Fin 0) (List.length l))) l = l.
  Proof.
    rewrite Htol. induction l as [|a l IH]; [reflexivity|]. cbn [List.length repeat map].
    change (Fin 0 <' Fin tol) with (Rltb 0 tol). destruct (Rltb_spec 0 tol); [|lra].
    rewrite mask_select_cons, IH. reflexivity.
  Qed.

  Lemma cost_zero W : (0 <= W)%R -> trial_cost (repeat (Fin 0) (List.length us)) (map Fin co) (Fin W) = Fin 0.
  Proof.
    intros HW. unfold trial_cost. rewrite sum_zeros, repeat_length, map_length, Hco.
    rewrite nZ_Fin. change (nlit 1 (-9)) with (Fin (Rlit 1 (-9))).
    change (Fin W +' Fin (Rlit 1 (-9))) with (Fin (W + Rlit 1 (-9))%R).
    assert (H1 : (0 < IZR (Z.of_nat (List.length us) - Z.of_nat (S deg) + 1))%R) by (apply IZR_lt; lia).
    assert (H2 : (0 < Rlit 1 (-9))%R).
    { unfold Rlit. rewrite Rmult_1_l. apply powerRZ_lt. lra. }
    rewrite xdiv_Fin by lra. rewrite xdiv_Fin by lra. f_equal. unfold Rdiv. ring.
  Qed.

  Definition found (s : rstate xr) : rstate xr :=
    mkRS (Some (map Fin co')) (Fin 0) (Fin 0) (Some (repeat (Fin 0) (List.length us))) (List.length us)
         (MList (map Fin us)) (MList (map Fin (map P us))) (s_rng s) (s_log s).

  Lemma resid_zero : robust_residual (f_kind f) (f_tol f) (map Fin co') (map Fin us) (map Fin (map P us)) =
    repeat (Fin 0) (List.length us).
  Proof.
    unfold robust_residual. set (g := fun q : xr * xr => _).
    assert (Hg : forall u, In u us -> g (Fin u, Fin (P u)) = Fin 0).
    { intros u Hu. unfold g. cbn [fst snd]. rewrite ev_co', Hrob' by auto. cbv zeta. rewrite Htol.
      change (Fin (P u) -' Fin (P u)) with (Fin (P u + - P u)%R). rewrite Rplus_opp_r.
      change (Fin tol <' nabs (Fin 0)) with (Rltb tol (Rabs 0)). rewrite Rabs_R0.
      destruct (Rltb_spec tol 0); [lra|reflexivity]. }
    clearbody g.
    assert (G : forall l, incl l us -> map g (combine (map Fin l) (map Fin (map P l))) = repeat (Fin 0) (List.length l)).
    { induction l as [|u l IH]; intros Hl; [reflexivity|]. cbn [map combine List.length repeat].
      rewrite IH by (intros z Hz; apply Hl; right; auto). f_equal. apply Hg. apply Hl. left; auto. }
    apply G. apply incl_refl.
  Qed.

  Lemma rms_zero n : (1 <= n)%nat -> rms_of (repeat (Fin 0) n) = Fin 0.
  Proof.
    intros Hn. unfold rms_of, np_mean. rewrite map_length, repeat_length.
    assert (E : map (fun v : xr => v *' v) (repeat (Fin 0) n) = repeat (Fin 0) n).
    { clear Hn. induction n as [|n IH]; [reflexivity|]. cbn [repeat map]. rewrite IH. f_equal.
      change (Fin 0 *' Fin 0) with (Fin (0 * 0)%R). f_equal. ring. }
    rewrite E, sum_zeros, nnat_Fin. assert (0 < INR n)%R by (apply lt_0_INR; lia).
    rewrite xdiv_Fin by lra. replace (0 / INR n)%R with 0%R by (unfold Rdiv; ring).
    cbn [nsqrt XRnum xsqrt]. destruct (Rltb_spec 0 0); [lra|]. rewrite sqrt_0. reflexivity.
  Qed.

  Lemma consider_exact s :
    consider o f s (Fin 0) (repeat (Fin 0) (List.length us)) (map Fin us) (map Fin (map P us)) =
    if Rltb 0 minerr then TContinue else TNext (found s).
  Proof.
    unfold consider.
    pose proof (mask_zeros (map Fin us)) as M1. rewrite map_length in M1. rewrite M1.
    pose proof (mask_zeros (map Fin (map P us))) as M2. rewrite !map_length in M2. rewrite M2.
    rewrite !map_length. rewrite Hdeg. destruct (Nat.leb_spec (List.length us) deg); [lia|].
    fold P. rewrite Hrob, resid_zero, rms_zero by lia. rewrite Hminerr, Hminmatch, Hminutil, !nnat_Fin.
    change (Fin 0 <' Fin minerr) with (Rltb 0 minerr). destruct (Rltb_spec 0 minerr); [reflexivity|].
    change (Fin (INR (List.length us)) <' Fin minmatch) with (Rltb (INR (List.length us)) minmatch).
    destruct (Rltb_spec (INR (List.length us)) minmatch); [lra|].
    change (Fin minutil *' Fin (INR (f_npeaks f))) with (Fin (minutil * INR (f_npeaks f))%R).
    change (Fin (INR (List.length us)) <' Fin (minutil * INR (f_npeaks f))) with (Rltb (INR (List.length us)) (minutil * INR (f_npeaks f))%R).
    destruct (Rltb_spec (INR (List.length us)) (minutil * INR (f_npeaks f))%R); [lra|].
    assert (SP : StronglySorted Rlt (map P us)) by (apply SS_map_inc; auto; apply P_inc).
    rewrite !np_unique_sorted_id by auto. rewrite !map_length, !Nat.eqb_refl. reflexivity.
  Qed.

  Lemma trial_exact s xh v : NoDup xh -> (deg < List.length xh)%nat -> s_cost s = Fin v -> (0 <= v)%R ->
    trial o f s (map Fin xh) (map Fin (map P xh)) = if Rltb 0 minerr then TContinue else TNext (found s).
  Proof.
    intros Hn Hl Hc Hv. unfold trial. rewrite Hkind, Hdeg. unfold P. 
    destruct (Hpf xh Hn Hl) as (p & Epf & Lp & Hp). rewrite Epf.
    assert (p = co) as -> by (apply (poly_ident p co xh); auto; lia). fold P.
    rewrite <- Hkind.
    assert (Hc0 : exists mr, map Fin co = Fin (hd 0%R co) :: mr).
    { clear - Hco. destruct co as [|c0 cr]; [discriminate|]. eexists. reflexivity. }
    destruct Hc0 as (mr & Emc). rewrite Emc. cbv iota beta. rewrite <- Emc.
    set (c0 := hd 0%R co) in *.
    pose proof us_nonempty as Hne.
    assert (Hp0 : exists pr, f_peaks f = Fin (hd 0%R us) :: pr).
    { rewrite Hpeaks. clear - Hne. destruct us; [contradiction|]. eexists. reflexivity. }
    destruct Hp0 as (pr & Ep). rewrite Ep. cbv iota beta. rewrite <- Ep. set (p0 := Fin (hd 0%R us)).
    rewrite Hilo, Hihi. change (Fin c0 <' Fin ilo) with (Rltb c0 ilo). change (Fin ihi <' Fin c0) with (Rltb ihi c0).
    destruct (Rltb_spec c0 ilo); [lra|]. destruct (Rltb_spec ihi c0); [lra|]. cbn [orb].
    rewrite Hpeaks. rewrite (ptp_sorted us Hsort Hne).
    assert (El : last (map Fin us) p0 = Fin (last us 0%R)).
    { clear - Hne. clearbody p0. destruct us as [|a l]; [contradiction|].
      assert (G : forall l a d d', last (map Fin (a :: l)) d = Fin (last (a :: l) d')).
      { induction l0 as [|b l0 IH]; intros; [reflexivity|].
        change (last (map Fin (a0 :: b :: l0)) d) with (last (map Fin (b :: l0)) d).
        change (last (a0 :: b :: l0) d') with (last (b :: l0) d'). apply IH. }
      apply G. }
    rewrite El. unfold p0.
    change (nlit 2 (-1)) with (Fin (Rlit 2 (-1))).
    assert (E5 : forall w, (w * Rlit 2 (-1) = w / 5)%R).
    { intros w. unfold Rlit, powerRZ. change (Pos.to_nat 1) with 1%nat. rewrite pow_1. field. }
    set (w := (last us 0 - hd 0 us)%R).
    change (Fin (hd 0%R us) -' Fin w *' Fin (Rlit 2 (-1))) with (Fin (hd 0 us + - (w * Rlit 2 (-1)))%R).
    change (Fin (last us 0%R) +' Fin w *' Fin (Rlit 2 (-1))) with (Fin (last us 0 + w * Rlit 2 (-1))%R).
    rewrite !E5. set (lo := (hd 0 us + - (w / 5))%R). set (hi := (last us 0 + w / 5)%R).
    change (Fin hi -' Fin lo) with (Fin (hi + - lo)%R).
    destruct (nceil_Fin (hi + - lo)%R) as (z & -> & _).
    rewrite (arange_increasing P (fun p => eval_kind (f_kind f) p (map Fin co)) lo hi).
    2:{ apply ev_co. }
    2:{ intros a b Ha Hb. apply Hinc; unfold lo, hi, w in *; lra. }
    cbn [negb]. pose proof match_exact as ME. rewrite Hpeaks in ME. rewrite ME.
    rewrite map_length. destruct (Nat.eqb_spec (List.length us) 0) as [E|_]; [destruct us; [contradiction|discriminate]|].
    destruct Hbonus as (W & -> & HW). rewrite clip_zeros, cost_zero by auto.
    rewrite Hc. change (Fin 0 <=' Fin v) with (Rleb 0 v). destruct (Rleb_spec 0 v); [|lra].
    apply consider_exact.
  Qed.

  (** no other candidates, samples smaller than the number of peaks *)
  Hypothesis Hone : forall u ys, In u us -> dict_get (f_dict f) (Fin u) = Ok ys -> forall y, In y ys -> y = Fin (P u).
  Hypothesis Hprob : existsb nisnan (f_prob f) = false /\
    List.length (filter (fun p => negb (p ==' nZ 0)) (f_prob f)) = List.length us.
  Hypothesis Hsize' : (deg < f_size f < List.length us)%nat.

  Lemma draw_exact n t0 xh0 : forall xs t seen, NoDup (seen ++ xs) -> incl (seen ++ xs) us ->
    (exists t', draw_ys o (S n) f t xh0 (map Fin xs) (map Fin (map P seen)) = DOk t' xh0 (map Fin (map P (seen ++ xs)))) /\
    (xs <> [] -> draw_ys o 0 f t0 xh0 (map Fin xs) (map Fin (map P seen)) = DOut).
  Proof.
    induction xs as [|u xs IH]; intros t seen Hn Hi.
    - rewrite app_nil_r. split; [exists t; reflexivity|contradiction].
    - cbn [map draw_ys]. assert (Hu : In u us) by (apply Hi; apply in_or_app; right; left; auto).
      destruct (Hdict u Hu) as (ys & Ed & Hin & _). rewrite Ed.
      pose proof (Hone u ys Hu Ed) as Hys.
      assert (Hne : ys <> []) by (destruct ys; [destruct Hin|discriminate]).
      assert (Hs : ~ In u seen).
      { apply NoDup_remove_2 in Hn. intros H. apply Hn. apply in_or_app. auto. }
      assert (Nseen : forall y, In y ys -> existsb (fun v => v ==' y) (map Fin (map P seen)) = false).
      { intros y Hy. rewrite (Hys y Hy). apply Bool.not_true_iff_false. intros E. apply existsb_exists in E.
        destruct E as (z & Hz & E). apply in_map_iff in Hz. destruct Hz as (r & <- & Hr).
        apply in_map_iff in Hr. destruct Hr as (v & <- & Hv).
        change (Reqb (P v) (P u) = true) in E. destruct (Reqb_spec (P v) (P u)) as [E'|]; [|discriminate].
        apply P_inj in E'; auto; [congruence|apply Hi; apply in_or_app; auto]. }
      assert (Nall : forallb (fun y => existsb (fun v => v ==' y) (map Fin (map P seen))) ys = false).
      { destruct ys as [|y ys]; [contradiction|]. cbn [forallb]. rewrite Nseen by (left; auto). reflexivity. }
      rewrite Nall. split; [|intros _; reflexivity].
      cbn [pick_new]. destruct Hdraws as [_ Hpick]. specialize (Hpick t ys Hne).
      rewrite (Nseen _ Hpick). rewrite (Hys _ Hpick).
      specialize (IH (S t) (seen ++ [u])). rewrite <- app_assoc in IH. cbn [app] in IH.
      destruct (IH Hn Hi) as ((t' & E) & _). exists t'. rewrite (map_app P seen [u]), map_app in E. exact E.
  Qed.

  Lemma sample_exact t : exists xh, o_sample o t (map Fin us) (f_size f) (f_prob f) = map Fin xh /\
    NoDup xh /\ incl xh us /\ List.length xh = f_size f.
  Proof.
    destruct Hdraws as [Hs _]. destruct (Hs t (map Fin us) (f_size f) (f_prob f)) as (L & rest & Hp).
    { rewrite map_length. lia. }
    destruct (map_Fin_of (o_sample o t (map Fin us) (f_size f) (f_prob f)) us) as (xh & E & Hi).
    { intros z Hz. apply (Permutation_in _ Hp). apply in_or_app. auto. }
    exists xh. split; auto. split; [|split; auto].
    - assert (Hnd : NoDup (map Fin us)).
      { apply FinFun.Injective_map_NoDup; [intros a b E'; congruence|].
        clear - Hsort. induction Hsort as [|a l S IH F]; constructor; auto. intros Ha.
        rewrite Forall_forall in F. apply F in Ha. lra. }
      apply (Permutation_NoDup (Permutation_sym Hp)) in Hnd. rewrite E in Hnd.
      apply NoDup_app_l in Hnd. apply NoDup_map_inv in Hnd. exact Hnd.
    - rewrite <- L, E, map_length. reflexivity.
  Qed.

  Lemma draw_whole n t smp :
    (exists t' xh, draw o (S n) f t smp = DOk t' (map Fin xh) (map Fin (map P xh)) /\ NoDup xh /\ (deg < List.length xh)%nat) /\
    draw o 0 f t smp = DOut.
  Proof.
    unfold draw. rewrite Hbrute. destruct Hprob as [-> ->]. cbn [orb].
    destruct (Nat.ltb_spec (List.length us) (f_size f)); [lia|]. rewrite Hpeaks.
    destruct (sample_exact t) as (xh & E & Hn & Hi & L). rewrite E.
    destruct (draw_exact n (S t) (map Fin xh) xh (S t) [] Hn Hi) as ((t' & E1) & E2).
    split.
    - exists t', xh. split; [exact E1|]. split; auto. lia.
    - apply E2. destruct xh; [cbn in L; lia|discriminate].
  Qed.

  Lemma try_rejects fuel : (0 < minerr)%R -> forall s smp v, s_cost s = Fin v -> (0 <= v)%R ->
    exists s', try_sample o fuel f s smp = Out s'.
  Proof.
    intros He. induction fuel as [|n IH]; intros s smp v Hc Hv; [exists s; reflexivity|]. cbn [try_sample].
    destruct n as [|n].
    - destruct (draw_whole 0 (s_rng s) smp) as [_ ->]. eauto.
    - destruct (draw_whole n (s_rng s) smp) as [(t' & xh & -> & Hn & Hl) _].
      unfold add_known. rewrite Hknown.
      rewrite (trial_exact _ xh v) by auto. destruct (Rltb_spec 0 minerr); [|lra].
      apply (IH _ _ v); auto.
  Qed.

  Lemma try_accepts n : (minerr <= 0)%R -> forall s smp v, s_cost s = Fin v -> (0 <= v)%R ->
    exists s1, try_sample o (S (S n)) f s smp = Done (found s1).
  Proof.
    intros He s smp v Hc Hv. cbn [try_sample].
    destruct (draw_whole n (s_rng s) smp) as [(t' & xh & -> & Hn & Hl) _].
    unfold add_known. rewrite Hknown.
    rewrite (trial_exact _ xh v) by auto. destruct (Rltb_spec 0 minerr); [lra|]. eauto.
  Qed.

  Lemma run_rejects fuel samples s v : (0 < minerr)%R -> samples <> [] -> s_cost s = Fin v -> (0 <= v)%R ->
    exists s', run_samples o fuel f s samples = Out s'.
  Proof.
    intros He Hne Hc Hv. destruct samples as [|smp samples]; [contradiction|]. cbn [run_samples].
    destruct (try_rejects fuel He s smp v Hc Hv) as (s' & ->). eauto.
  Qed.

  Lemma run_accepts n samples : (minerr <= 0)%R -> forall s v, samples <> [] -> s_cost s = Fin v -> (0 <= v)%R ->
    exists s1, run_samples o (S (S n)) f s samples = Done (found s1).
  Proof.
    intros He. induction samples as [|smp samples IH]; intros s v Hne Hc Hv; [contradiction|]. cbn [run_samples].
    destruct (try_accepts n He s smp v Hc Hv) as (s1 & ->).
    destruct samples as [|smp' samples]; [exists s1; reflexivity|].
    apply (IH (found s1) 0%R); [discriminate|reflexivity|lra].
  Qed.
End Run.

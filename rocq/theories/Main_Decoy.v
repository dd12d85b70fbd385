(** * Main_Decoy: the right polynomial among wrong candidates, with proofs.  The
    statements are repeated, without proofs, in Props_Decoy.v. *)

From Coq Require Import ZArith Bool List String Lia Reals Lra Sorted Permutation.
From Verif Require Import Num F64 XReal Py Np NpFacts ArgsortFacts Util Models Atlas Hough SpecHough HoughFacts PolyEval SpecPoly PolyFacts Main_Models Calib Main_Calib Cand SpecCand CandFacts Ransac SpecRansac RansacFacts SampleFacts SpecRecover RecoverFacts PolyIdent Fit SpecFit FitFacts Main_Fit Main_Recover SpecDecoy.
Import ListNotations.
Local Open Scope num_scope.

Lemma sum_nonneg (l : list R) : (forall v, In v l -> 0 <= v)%R -> (0 <= fold_right Rplus 0 l)%R.
Proof.
  induction l as [|a l IH]; intros H; cbn [fold_right]; [lra|].
  pose proof (H a (or_introl eq_refl)). assert (0 <= fold_right Rplus 0 l)%R by (apply IH; intros; apply H; right; auto). lra.
Qed.
Lemma sum_zero (l : list R) : (forall v, In v l -> 0 <= v)%R -> fold_right Rplus 0%R l = 0%R -> forall v, In v l -> v = 0%R.
Proof.
  induction l as [|a l IH]; intros H E v Hv; [destruct Hv|]. cbn [fold_right] in E.
  pose proof (H a (or_introl eq_refl)).
  assert (H' : (forall v, In v l -> 0 <= v)%R) by (intros; apply H; right; auto).
  pose proof (sum_nonneg l H'). destruct Hv as [<-|Hv]; [lra|]. apply IH; auto. lra.
Qed.

Section Step.
  Variables (o : oracle xr) (f : cfg xr) (deg : nat) (co us x y : list R).
  Hypothesis Hkind : f_kind f = FitPoly.
  Hypothesis Hdeg : f_deg f = deg.
  Hypothesis Hpeaks : f_peaks f = map Fin us.
  Hypothesis Hdic : f_dict f = build_dict (map Fin x) (map Fin y).
  Hypothesis Lxy : List.length x = List.length y.
  Hypothesis Hus : forall u, In u us <-> In u x.
  Hypothesis Htrue : forall u, In u us -> In (u, poly co u) (combine x y).
  Hypothesis Hsort : StronglySorted Rlt us.
  Hypothesis Hco : List.length co = S deg.
  Hypothesis Hd1 : (1 <= deg)%nat.
  Hypothesis Hsize : (deg < List.length us)%nat.
  Variable tol : R.
  Hypothesis Htol : f_tol f = Fin tol.
  Hypothesis Htol0 : (0 < tol)%R.
  Variables ilo ihi : R.
  Hypothesis Hilo : f_ilo f = Fin ilo.
  Hypothesis Hihi : f_ihi f = Fin ihi.
  Hypothesis Hint : (ilo <= hd 0 co <= ihi)%R.
  Hypothesis Hinc : let width := (last us 0 - hd 0 us)%R in
    forall u v, (hd 0 us - width / 5 <= u)%R -> (v <= last us 0 + width / 5)%R -> (u < v)%R -> (poly co u < poly co v)%R.
  Hypothesis Hbonus : forall q, (2 <= List.length q)%nat -> exists W, hough_bonus f (map Fin q) = Ok (Fin W) /\ (0 <= W)%R.
  Variables minerr minmatch minutil : R.
  Hypothesis Hminerr : f_minerr f = Fin minerr.
  Hypothesis Hminmatch : f_minmatch f = Fin minmatch.
  Hypothesis Hminutil : f_minutil f = Fin minutil.
  Hypothesis Hmm : (minmatch <= INR (List.length us))%R.
  Hypothesis Hmu : (minutil * INR (f_npeaks f) <= INR (List.length us))%R.
  Hypothesis Herr0 : (minerr <= 0)%R.
  Hypothesis Hpf : exact_polyfit o deg co.
  Hypothesis Hrob : robust_polyfit (o_ls o) (map Fin us) (map Fin (map (poly co) us)) deg None = Ok (map Fin co).
  Hypothesis Huna : unambiguous deg co (combine x y) minmatch minutil (f_npeaks f).

  Lemma decoy_dict u : In u us -> exists ys, dict_get (f_dict f) (Fin u) = Ok ys /\
    In (Fin (poly co u)) ys /\ forall w, In w ys -> exists r, w = Fin r /\ In (u, r) (combine x y).
  Proof.
    intros Hu. assert (Hn : no_nan (map Fin x)).
    { intros z Hz. apply in_map_iff in Hz. destruct Hz as (r & <- & _). reflexivity. }
    assert (Hin : In (Fin u) (np_unique (map Fin x))).
    { destruct (np_unique_Fin x) as (vs & E & _ & H). rewrite E. apply in_map. apply H. apply Hus; auto. }
    rewrite Hdic, build_dict_get by auto. eexists. split; [reflexivity|].
    assert (C : forall a b, In (a, b) (combine (map Fin x) (map Fin y)) <->
      exists a' b', a = Fin a' /\ b = Fin b' /\ In (a', b') (combine x y)).
    { intros a b. clear. revert y. induction x as [|x0 x' IH]; intros y; [split; [intros []|intros (? & ? & _ & _ & [])]|].
      destruct y as [|y0 y']; [split; [intros []|intros (? & ? & _ & _ & [])]|]. cbn [map combine In]. rewrite IH. split.
      - intros [E|(a' & b' & -> & -> & H)]; [injection E as <- <-; eauto 6|eauto 7].
      - intros (a' & b' & -> & -> & [E|H]); [left; congruence|right; eauto]. }
    split.
    - apply masked_pair; [rewrite !map_length; auto|]. exists (Fin u).
      split; [apply C; eauto 6|apply (eqb_refl (Fin u)); reflexivity].
    - intros w Hw. apply masked_pair in Hw; [|rewrite !map_length; auto]. destruct Hw as (a & Ha & E).
      apply C in Ha. destruct Ha as (a' & b' & -> & -> & H). exists b'. split; auto.
      change (Reqb a' u = true) in E. destruct (Reqb_spec a' u); [subst; auto|discriminate].
  Qed.

  Lemma decoy_dict' u : In u us -> exists ys, dict_get (f_dict f) (Fin u) = Ok ys /\
    In (Fin (poly co u)) ys /\ forall w, In w ys -> exists r, w = Fin r.
  Proof.
    intros Hu. destruct (decoy_dict u Hu) as (ys & E & H1 & H2). exists ys. split; auto. split; auto.
    intros w Hw. destruct (H2 w Hw) as (r & -> & _). eauto.
  Qed.

  (** The matches of any trial: candidates at different peaks, with their errors. *)
  Lemma matches_of q : exists pts : list (R * R),
    match_bijective (fun p => eval_kind (f_kind f) p (map Fin q)) (f_dict f) (f_peaks f) =
      Ok (map Fin (map (fun t => Rabs (poly q (fst t) - snd t)) pts), map Fin (map fst pts), map Fin (map snd pts)) /\
    NoDup (map fst pts) /\ incl pts (combine x y).
  Proof.
    rewrite Hpeaks.
    destruct (match_bijective_ok (fun p => eval_kind (f_kind f) p (map Fin q)) (f_dict f) (map Fin us))
      as (rows & qs & _ & Em & Hr & E & _ & Hpd & Hq & _ & Hincl).
    { pose proof Hsort as S. clear - S. unfold pairwise_different. induction S as [|a l S IH F]; cbn [map]; constructor; auto.
      rewrite Forall_forall in *. intros z Hz. apply in_map_iff in Hz. destruct Hz as (b & <- & Hb). apply F in Hb.
      change (Reqb a b = false). destruct (Reqb_spec a b); [lra|reflexivity]. }
    { intros p Hp. apply in_map_iff in Hp. destruct Hp as (u & <- & Hu). destruct (decoy_dict u Hu) as (ys & Ed & H1 & H2).
      exists ys. split; auto. split; [intros ->; destruct H1|]. intros w Hw. destruct (H2 w Hw) as (r & -> & _). reflexivity. }
    assert (Row : forall e p w, In (e, p, w) rows -> exists u r, p = Fin u /\ w = Fin r /\
      e = Fin (Rabs (poly q u - r)) /\ In (u, r) (combine x y)).
    { intros e p w H. destruct (Hr e p w H) as (ys & Ed & Hy & Ee & _).
      assert (Hp : In p (map Fin us)).
      { rewrite <- Em. apply (in_map q_x) in H. exact H. }
      apply in_map_iff in Hp. destruct Hp as (u & <- & Hu). destruct (decoy_dict u Hu) as (ys' & Ed' & _ & H2).
      rewrite Ed in Ed'. injection Ed' as <-. destruct (H2 w Hy) as (r & -> & Hc). exists u, r.
      split; auto. split; auto. split; auto. rewrite Ee, Hkind.
      replace (eval_kind FitPoly (Fin u) (map Fin q)) with (Fin (poly q u)) by (symmetry; apply basis_evaluation_main).
      reflexivity. }
    assert (G : exists pts : list (R * R), qs = map (fun t => (Fin (Rabs (poly q (fst t) - snd t)), Fin (fst t), Fin (snd t))) pts /\
      incl pts (combine x y)).
    { clear Hpd E. induction qs as [|[[e p] w] qs IH]; [exists []; split; [reflexivity|intros ? []]|].
      destruct IH as (pts & -> & Hi).
      { intros e' p' w' H. apply Hq. right; auto. }
      { intros z Hz. apply Hincl. right; auto. }
      destruct (Hq e p w (or_introl eq_refl)) as (w' & H & Ew & _).
      destruct (Row _ _ _ H) as (u & r & -> & -> & -> & Hc).
      assert (Hw : In w (map snd rows)) by (apply Hincl; left; auto).
      apply in_map_iff in Hw. destruct Hw as ([[e2 p2] w2] & Ew2 & H'). cbn [snd] in Ew2. subst w2.
      destruct (Row _ _ _ H') as (u2 & r2 & _ & -> & _ & _).
      change (Reqb r r2 = true) in Ew. destruct (Reqb_spec r r2) as [<-|]; [|discriminate].
      exists ((u, r) :: pts). split; [reflexivity|]. intros z [<-|Hz]; auto. }
    destruct G as (pts & -> & Hi). exists pts. rewrite E. rewrite !map_map. cbn [q_err q_x fst snd].
    split; [reflexivity|]. split; auto.
    rewrite map_map in Hpd. cbn [q_x fst snd] in Hpd. clear - Hpd. unfold pairwise_different in Hpd.
    induction pts as [|t pts IH]; [constructor|]. cbn [map] in *. inversion Hpd as [|? ? S F]; subst. constructor; auto.
    intros Hin. rewrite Forall_forall in F. apply in_map_iff in Hin. destruct Hin as (t' & Et & Ht).
    specialize (F (Fin (fst t'))). rewrite Et in F. 
    assert (X : (Fin (fst t) ==' Fin (fst t)) = false).
    { apply F. rewrite <- Et. apply (in_map (fun z : R * R => Fin (fst z))). auto. }
    change (Reqb (fst t) (fst t) = false) in X. destruct (Reqb_spec (fst t) (fst t)); [discriminate|congruence].
  Qed.

  Definition solved (s : rstate xr) : Prop :=
    s_p s = Some (map Fin co) /\ s_err s = Fin 0 /\ s_resid s = Some (repeat (Fin 0) (List.length us)) /\
    s_inl s = List.length us /\ s_mp s = MList (map Fin us) /\ s_ma s = MList (map Fin (map (poly co) us)).

  Lemma clip_Fin es : clip_err (Fin tol) (map Fin es) = map Fin (map (fun e => if Rltb tol e then tol else e) es).
  Proof.
    unfold clip_err. rewrite !map_map. apply map_ext. intros e. change (Fin tol <' Fin e) with (Rltb tol e).
    destruct (Rltb tol e); reflexivity.
  Qed.

  Lemma true_trial s xh v : NoDup xh -> (deg < List.length xh)%nat -> s_cost s = Fin v -> (0 <= v)%R ->
    exists s', trial o f s (map Fin xh) (map Fin (map (poly co) xh)) = TNext s' /\ s_cost s' = Fin 0 /\ solved s' /\
      s_log s' = s_log s.
  Proof.
    intros Hn Hl Hc Hv.
    assert (HB : exists W, hough_bonus f (map Fin co) = Ok (Fin W) /\ (0 <= W)%R) by (apply Hbonus; lia).
    assert (Hr' : forall u, In u us -> poly co u = poly co u) by auto.
    rewrite (trial_exact o f deg co us Hkind Hdeg Hpeaks Hsort Hco Hd1 decoy_dict' Hsize tol Htol Htol0 ilo ihi Hilo Hihi
      Hint Hinc HB minerr minmatch minutil Hminerr Hminmatch Hminutil Hmm Hmu Hpf co Hrob Hr' s xh v Hn Hl Hc Hv).
    destruct (Rltb_spec 0 minerr); [lra|]. eexists. split; [reflexivity|]. repeat split.
  Qed.

  Lemma stored_zero s s' q v xh yh : List.length q = S deg ->
    o_polyfit o FitPoly xh yh deg = Ok (map Fin q) -> s_cost s = Fin v -> (0 <= v)%R ->
    trial o f s xh yh = TNext s' -> s_log s' = s_log s /\
      (s' = s \/ exists w, s_cost s' = Fin w /\ (0 <= w <= v)%R /\ (w = 0%R -> solved s')).
  Proof.
    intros Lq Ef Hc Hv. unfold trial. rewrite Hkind, Hdeg, Ef. rewrite <- Hkind.
    destruct (map Fin q) as [|c0 cr] eqn:Eq; [discriminate|]. rewrite <- Eq.
    assert (Hp0 : exists p0 pr, f_peaks f = p0 :: pr).
    { rewrite Hpeaks. clear - Hsize. destruct us; [cbn in Hsize; lia|cbn; eauto]. }
    destruct Hp0 as (p0 & pr & Ep). rewrite Ep.
    destruct ((c0 <' f_ilo f) || (f_ihi f <' c0)); [discriminate|].
    destruct (np_ptp (p0 :: pr)); [|discriminate]. cbv zeta.
    match goal with |- context [match nceil ?t with _ => _ end] => destruct (nceil t) end; [|discriminate].
    match goal with |- context [if negb ?t then _ else _] => destruct (negb t) end; [discriminate|].
    destruct (matches_of q) as (pts & Em & Hnd & Hi). rewrite <- Ep. rewrite Em.
    rewrite !map_length. destruct (Nat.eqb_spec (List.length pts) 0); [discriminate|].
    destruct (Hbonus q ltac:(lia)) as (W & EW & HW). rewrite EW.
    rewrite Htol, clip_Fin.
    set (es := map (fun t => Rabs (poly q (fst t) - snd t)) pts).
    set (cs := map (fun e => if Rltb tol e then tol else e) es).
    assert (Hes : forall e, In e es -> (0 <= e)%R).
    { intros e He. apply in_map_iff in He. destruct He as (t & <- & _). apply Rabs_pos. }
    assert (Hcs : forall e, In e cs -> (0 <= e)%R).
    { intros e He. apply in_map_iff in He. destruct He as (t & <- & Ht). apply Hes in Ht. destruct (Rltb tol t); lra. }
    assert (Lc : List.length cs = List.length pts) by (unfold cs, es; rewrite !map_length; auto).
    destruct (trial_cost (map Fin cs) (map Fin q) (Fin W) <=' s_cost s) eqn:Ecost.
    2:{ intros H; injection H as <-. auto. }
    unfold consider. rewrite Htol.
    set (mask := map (fun e => e <' Fin tol) (map Fin cs)).
    set (xs := mask_select mask (map Fin (map fst pts))). set (ys := mask_select mask (map Fin (map snd pts))).
    rewrite Hdeg. destruct (Nat.leb_spec (List.length xs) deg) as [|Hx]; [discriminate|].
    assert (Lx : (List.length xs <= List.length pts)%nat).
    { unfold xs. rewrite mask_select_length.
      2:{ unfold mask. rewrite !map_length. rewrite Lc. auto. }
      replace (List.length pts) with (List.length mask) by (unfold mask; rewrite !map_length; auto).
      clear. generalize mask. intros k. induction k as [|b k IH]; cbn; [lia|]. destruct b; cbn; lia. }
    assert (Cost : exists w, trial_cost (map Fin cs) (map Fin q) (Fin W) = Fin w /\ (0 <= w)%R /\
      (w = 0%R -> forall e, In e cs -> e = 0%R)).
    { unfold trial_cost. rewrite np_sum_Fin_R, !map_length, Lq, Lc, nZ_Fin.
      change (nlit 1 (-9)) with (Fin (Rlit 1 (-9))). change (Fin W +' Fin (Rlit 1 (-9))) with (Fin (W + Rlit 1 (-9))%R).
      assert (H1 : (0 < IZR (Z.of_nat (List.length pts) - Z.of_nat (S deg) + 1))%R) by (apply IZR_lt; lia).
      assert (H2 : (0 < Rlit 1 (-9))%R).
      { unfold Rlit. rewrite Rmult_1_l. apply powerRZ_lt. lra. }
      rewrite xdiv_Fin by lra. rewrite xdiv_Fin by lra. eexists. split; [reflexivity|].
      pose proof (sum_nonneg cs Hcs) as Hs. set (a := IZR (Z.of_nat (List.length pts) - Z.of_nat (S deg) + 1)) in *. set (b := (W + Rlit 1 (-9))%R).
      assert (Hb : (0 < b)%R) by (unfold b; lra). pose proof (Rinv_0_lt_compat a H1). pose proof (Rinv_0_lt_compat b Hb).
      split.
      - unfold Rdiv. apply Rmult_le_pos; [apply Rmult_le_pos|]; lra.
      - intros E. apply sum_zero; auto. unfold Rdiv in E.
        apply Rmult_integral in E. destruct E as [E|E]; [|lra]. apply Rmult_integral in E. destruct E as [E|E]; [auto|lra]. }
    destruct Cost as (w & Ew & Hw & Hz). rewrite Ew in Ecost |- *. rewrite Hc in Ecost.
    change (Rleb w v = true) in Ecost. destruct (Rleb_spec w v) as [Hwv|]; [|discriminate].
    destruct (robust_polyfit (o_ls o) xs ys deg None) as [cf|ex] eqn:Er.
    2:{ destruct ex; discriminate. }
    cbv zeta.
    match goal with |- context [if ?t then TContinue else _] => destruct t end; [discriminate|].
    rewrite Hminmatch, Hminutil, !nnat_Fin.
    destruct (Fin (INR (List.length xs)) <' Fin minmatch) eqn:E1; [discriminate|].
    destruct (Fin (INR (List.length xs)) <' Fin minutil *' Fin (INR (f_npeaks f))) eqn:E2; [discriminate|].
    match goal with |- context [if ?t then TNext _ else _] => destruct t eqn:E3 end; [|discriminate].
    intros H. assert (Einj : forall a b : rstate xr, TNext a = TNext b -> a = b) by (intros a b EE; congruence).
    apply Einj in H. clear Einj. subst s'. split; [reflexivity|]. right. exists w. split; [reflexivity|]. split; [lra|].
    intros Hw0.
    assert (Ez : forall u r, In (u, r) pts -> poly q u = r).
    { intros u r H. assert (X : In (let e := Rabs (poly q u - r) in if Rltb tol e then tol else e) cs).
      { unfold cs, es. rewrite map_map. apply (in_map (fun t => let e := Rabs (poly q (fst t) - snd t) in if Rltb tol e then tol else e)) in H. exact H. }
      apply (Hz Hw0) in X. cbv zeta in X. destruct (Rltb_spec tol (Rabs (poly q u - r))); [lra|].
      destruct (Req_dec (poly q u - r) 0) as [|Y]; [lra|]. apply Rabs_no_R0 in Y. contradiction. }
    assert (Hm : mask = map (fun _ => true) cs).
    { unfold mask. rewrite map_map. apply map_ext_in. intros e He. rewrite (Hz Hw0 e He).
      change (Rltb 0 tol = true). destruct (Rltb_spec 0 tol); [auto|lra]. }
    assert (Hall : forall (l : list xr), List.length l = List.length cs -> mask_select mask l = l).
    { rewrite Hm. clear. intros l. revert l. generalize cs. intros k. induction k as [|e k IH]; intros l L; (destruct l as [|a l]; [|try discriminate]); auto.
      cbn [map]. rewrite mask_select_cons. f_equal. apply IH. cbn in L. lia. }
    assert (Exs : xs = map Fin (map fst pts)) by (apply Hall; rewrite !map_length; auto).
    assert (Eys : ys = map Fin (map snd pts)) by (apply Hall; rewrite !map_length; auto).
    clearbody xs ys. subst xs ys. rewrite !map_length in *.
    change (Rltb (INR (List.length pts)) minmatch = false) in E1.
    change (Rltb (INR (List.length pts)) (minutil * INR (f_npeaks f)) = false) in E2.
    destruct (Rltb_spec (INR (List.length pts)) minmatch) as [|F1]; [discriminate|].
    destruct (Rltb_spec (INR (List.length pts)) (minutil * INR (f_npeaks f))) as [|F2]; [discriminate|].
    assert (q = co).
    { apply (Huna q pts); auto; lra. }
    subst q.
    rewrite (match_exact o f deg co us Hkind Hdeg Hpeaks Hsort Hco Hd1 decoy_dict' Hsize Hinc minmatch minutil Hmm Hmu co Hrob (fun _ _ => eq_refl)) in Em.
    assert (Ip : forall a b : list R, map Fin a = map Fin b -> a = b).
    { induction a as [|a0 a IH]; intros [|b0 b] E; cbn [map] in E; try discriminate; auto.
      injection E as -> E. f_equal; auto. }
    assert (EM : map Fin us = map Fin (map fst pts) /\ map Fin (map (poly co) us) = map Fin (map snd pts)).
    { split; congruence. }
    destruct EM as [EM1 EM2]. rewrite <- EM1, <- EM2 in *.
    rewrite Hrob in Er. injection Er as <-.
    assert (Lp : List.length pts = List.length us).
    { apply Ip in EM1. rewrite EM1, map_length. auto. }
    pose proof (resid_zero f co us Hkind tol Htol Htol0 co (fun _ _ => eq_refl)) as RZ. rewrite Htol in RZ.
    split; [reflexivity|]. split; [|split; [|split; [|split; reflexivity]]]; cbn [s_err s_resid s_inl].
    - rewrite RZ. exact (rms_zero f deg co us Hdeg Hco Hd1 Hsize (List.length us) ltac:(lia)).
    - f_equal. exact RZ.
    - rewrite ?map_length. auto.
  Qed.

  (** The best cost is never negative; zero means solved; a sample of right candidates
      makes it zero. *)
  Definition progress (s : rstate xr) : Prop :=
    exists v, s_cost s = Fin v /\ (0 <= v)%R /\ (v = 0%R -> solved s) /\
      (forall d, In d (s_log s) -> true_sample deg co d -> v = 0%R).

  Lemma decoy_trial s xh yh :
    (forall p, o_polyfit o FitPoly xh yh deg = Ok p -> exists q, p = map Fin q /\ List.length q = S deg) ->
    progress s ->
    match trial o f (log_fit (xh, yh) s) xh yh with
    | TContinue => progress (log_fit (xh, yh) s)
    | TNext s' => progress s' /\ s_log s' = (xh, yh) :: s_log s
    | TRaise _ _ => True
    end.
  Proof.
    intros Hfin (v & Hc & Hv & Hs & Hl).
    assert (True_now : true_sample deg co (xh, yh) -> exists s', trial o f (log_fit (xh, yh) s) xh yh = TNext s' /\
      s_cost s' = Fin 0 /\ solved s' /\ s_log s' = (xh, yh) :: s_log s).
    { intros (zh & Hn & Ll & E). injection E as -> ->.
      destruct (true_trial (log_fit (map Fin zh, map Fin (map (poly co) zh)) s) zh v) as (s' & H1 & H2 & H3 & H4); auto.
      exists s'. auto. }
    destruct (trial o f (log_fit (xh, yh) s) xh yh) as [|s'|s' e] eqn:Et; auto.
    - exists v. split; [exact Hc|]. split; auto. split; [exact Hs|].
      intros d [<-|Hd] Ht; [|eauto]. destruct (True_now Ht) as (s' & E & _). discriminate.
    - assert (Ep : exists q, o_polyfit o FitPoly xh yh deg = Ok (map Fin q) /\ List.length q = S deg).
      { destruct (o_polyfit o FitPoly xh yh deg) as [p|e] eqn:Ep.
        - destruct (Hfin p eq_refl) as (q & -> & L). eauto.
        - unfold trial in Et. rewrite Hkind, Hdeg, Ep in Et. discriminate. }
      destruct Ep as (q & Ep & Lq).
      destruct (stored_zero (log_fit (xh, yh) s) s' q v xh yh Lq Ep Hc Hv Et) as (El & Hst).
      split; [|exact El].
      assert (Old : forall d, In d (s_log s') -> true_sample deg co d -> v = 0%R \/ exists s2, TNext s' = TNext s2 /\ s_cost s2 = Fin 0).
      { intros d Hd Ht. rewrite El in Hd. destruct Hd as [<-|Hd]; [|left; eauto].
        right. destruct (True_now Ht) as (s2 & E & E2 & _). eauto. }
      destruct Hst as [->|(w & Ew & Hw & Hs')].
      + exists v. split; [exact Hc|]. split; auto. split; [exact Hs|].
        intros d Hd Ht. destruct (Old d Hd Ht) as [|(s2 & E & E2)]; auto.
        assert (E' : s_cost (log_fit (xh, yh) s) = Fin 0) by congruence. change (s_cost s = Fin 0) in E'. congruence.
      + exists w. split; auto. split; [lra|]. split; auto.
        intros d Hd Ht. destruct (Old d Hd Ht) as [|(s2 & E & E2)]; [lra|]. injection E as <-. congruence.
  Qed.

  Hypothesis Hknown : f_known f = None.

  Lemma try_log fuel : forall s smp s', try_sample o fuel f s smp = Done s' -> incl (s_log s) (s_log s').
  Proof.
    assert (L : forall s s' xh yh, trial o f s xh yh = TNext s' -> s_log s' = s_log s).
    { intros s s' xh yh. unfold trial, consider.
      repeat match goal with
      | |- context [match ?r with _ => _ end] => destruct r
      end; intros H; try discriminate; injection H as <-; reflexivity. }
    induction fuel as [|n IH]; intros s smp s'; [discriminate|]. cbn [try_sample].
    destruct (draw o n f (s_rng s) smp) as [|t|e|t xh yh]; try discriminate.
    - intros H; injection H as <-. apply incl_refl.
    - destruct (add_known f xh yh) as [xk yk].
      destruct (trial o f (log_fit (xk, yk) (set_rng t s)) xk yk) as [|s2|s2 e] eqn:Et; try discriminate.
      + intros H. apply IH in H. intros d Hd. apply H. right; auto.
      + intros H; injection H as <-. apply L in Et. rewrite Et. intros d Hd. right; auto.
  Qed.
  Lemma run_log fuel : forall l s s', run_samples o fuel f s l = Done s' -> incl (s_log s) (s_log s').
  Proof.
    induction l as [|smp l IH]; intros s s'; cbn [run_samples]; [intros H; injection H as <-; apply incl_refl|].
    destruct (try_sample o fuel f s smp) as [s1|s1 e|s1] eqn:E; try discriminate. intros H.
    intros d Hd. apply (IH _ _ H). apply (try_log _ _ _ _ E). auto.
  Qed.

  Lemma decoy_try fuel : forall s smp s', finite_fits o deg (s_log s') -> progress s ->
    try_sample o fuel f s smp = Done s' -> progress s'.
  Proof.
    induction fuel as [|n IH]; intros s smp s' Hf Hp; [discriminate|]. intros H0. pose proof H0 as H. cbn [try_sample] in H.
    destruct (draw o n f (s_rng s) smp) as [|t|e|t xh yh]; try discriminate.
    - injection H as <-. exact Hp.
    - unfold add_known in H. rewrite Hknown in H.
      assert (Hp' : progress (set_rng t s)) by exact Hp.
      pose proof (decoy_trial (set_rng t s) xh yh) as D.
      destruct (trial o f (log_fit (xh, yh) (set_rng t s)) xh yh) as [|s2|s2 e] eqn:Et; try discriminate.
      + apply (IH _ _ _ Hf) in H as R; auto. apply D; auto. intros p Ep. apply (Hf (xh, yh)); auto.
        apply (try_log _ _ _ _ H). left; auto.
      + injection H as <-.
        assert (El : In (xh, yh) (s_log s2)).
        { clear - Et. unfold trial, consider in Et.
          repeat match type of Et with context [match ?r with _ => _ end] => destruct r end;
            try discriminate; injection Et as <-; left; reflexivity. }
        apply D; auto. intros p Ep. apply (Hf (xh, yh)); auto.
  Qed.

  Lemma decoy_run fuel : forall l s s', finite_fits o deg (s_log s') -> progress s ->
    run_samples o fuel f s l = Done s' -> progress s'.
  Proof.
    induction l as [|smp l IH]; intros s s' Hf Hp; cbn [run_samples]; [intros H; injection H as <-; auto|].
    destruct (try_sample o fuel f s smp) as [s1|s1 e|s1] eqn:E; try discriminate. intros H.
    apply (IH s1); auto. apply (decoy_try fuel s smp); auto.
    intros d p Hd. apply Hf. apply (run_log _ _ _ _ H). auto.
  Qed.
End Step.

(** C125: a search that ends and that has drawn, at some time, a sample of right
    candidates finds the right polynomial, however many wrong candidates there are. *)
Lemma decoys_search_main :
  forall (o : oracle xr) (c : calib xr) ctol deg size (co us x y : list R) n brute fuel f l s0 s d,
    decoy_problem o c ctol deg size co us x y ->
    ransac_setup o c (map Fin x) (map Fin y) deg size n None brute = Ok (f, l, s0) ->
    run_samples o fuel f s0 l = Done s ->
    finite_fits o deg (s_log s) -> In d (s_log s) -> true_sample deg co d ->
    s_p s = Some (map Fin co) /\ s_cost s = Fin 0 /\ s_err s = Fin 0 /\
    s_resid s = Some (map (fun _ => Fin 0) us) /\ s_inl s = List.length us /\
    s_mp s = MList (map Fin us) /\ s_ma s = MList (map Fin (map (poly co) us)).
Proof.
  intros o c ctol deg size co us x y n brute fuel f l s0 s d
    [(Hx & Lxy) Hus Htrue Hs (Lco & Hd) Hk Hkn Hsz (tol & Ht & Ht0) (ilo & ihi & Hi1 & Hi2 & Hic) Hinc (px & Hpx)
     (m & t & Hm & Hmm & Hu & Huu & Huna) (e & He & He0) Hden Hpf Hrob] Hset Hrun Hfin Hin Hsmp.
  pose proof (ransac_setup_Ok _ _ _ _ _ _ _ _ _ _ _ _ Hset) as
    (Fk & Fd & Fx & Fy & Fp & Fdi & Ft & Filo & Fihi & Fpix & Fhw & Fsp & Fme & Fmm & Fmu & Fnp & Fkn & Fb & Fs & Fsm & Fpr & S0 & S0i & S0l & S0m & S0a & S0c).
  assert (Eu : np_unique (map Fin x) = map Fin us).
  { destruct (np_unique_Fin x) as (vs & -> & Sv & Hv). f_equal. apply SS_Rlt_unique; auto.
    intros v. rewrite Hv, Hus. reflexivity. }
  rewrite Eu in Fp.
  assert (Er : robust_polyfit (o_ls o) (map Fin us) (map Fin (map (poly co) us)) deg None = Ok (map Fin co)).
  { apply robust_exact; auto; [apply SS_NoDup; auto|lia]. }
  assert (Kb : forall q, (2 <= List.length q)%nat -> exists W, hough_bonus f (map Fin q) = Ok (Fin W) /\ (0 <= W)%R).
  { intros q Lq. apply (bonus_nonneg o c f px); auto; try congruence. }
  rewrite <- Fnp in Huna, Huu.
  assert (P0 : progress deg co us s0).
  { exists (Rlit 1 50). assert (Hlit : (0 < Rlit 1 50)%R) by (unfold Rlit; rewrite Rmult_1_l; apply powerRZ_lt; lra).
    split; [exact S0c|]. split; [lra|]. split; [lra|]. rewrite S0l. intros ? []. }
  assert (Kt : f_tol f = Fin tol) by congruence. assert (Kl : f_ilo f = Fin ilo) by congruence.
  assert (Kh : f_ihi f = Fin ihi) by congruence. assert (Ke : f_minerr f = Fin e) by congruence.
  assert (Km : f_minmatch f = Fin m) by congruence. assert (Kut : f_minutil f = Fin t) by congruence.
  assert (Kk : f_kind f = FitPoly) by congruence. assert (Kkn : f_known f = None) by congruence.
  destruct (decoy_run o f deg co us x y Kk Fd Fp Fdi Lxy Hus Htrue Hs Lco (proj1 Hd) (proj2 Hd) tol Kt Ht0 ilo ihi Kl Kh Hic
    Hinc Kb e m t Ke Km Kut Hmm Huu He0 Hpf Er Huna Kkn fuel l s0 s Hfin P0 Hrun) as (v & Hc & _ & Hsol & Hlog).
  specialize (Hlog d Hin Hsmp). destruct (Hsol Hlog) as (G1 & G2 & G3 & G4 & G5 & G6).
  split; auto. split; [congruence|]. split; auto. split; [|auto].
  rewrite G3. f_equal. clear. induction us as [|u us IH]; [reflexivity|]. cbn [List.length repeat map]. f_equal. exact IH.
Qed.

(** C125: the same for the whole fit. *)
Lemma decoys_fit_main :
  forall (o : oracle xr) (c : calib xr) (a : fit_args xr) c1 c2 size (co us x y : list R) at_ fuel f l s0 s d,
    fa_coeff a = None -> fit_begin c a = (c1, Ok tt) -> fit_prepare o c1 a = (c2, Ok tt) ->
    decoy_problem o c2 (fa_ctol a) (fa_deg a) size co us x y -> c_atlas c2 = Some at_ ->
    (* the search draws a sample of right candidates and ends *)
    ransac_setup o c2 (map Fin x) (map Fin y) (fa_deg a) size (fa_tries a) None (fa_brute a) = Ok (f, l, s0) ->
    run_samples o fuel f s0 l = Done s ->
    finite_fits o (fa_deg a) (s_log s) -> In d (s_log s) -> true_sample (fa_deg a) co d ->
    exists c' v, fit o fuel c a = Some (c', Ok v) /\
      fv_coeff v = map Fin co /\
      fv_mpeaks v = MList (map Fin us) /\ fv_matlas v = MList (map Fin (map (poly co) us)) /\
      fv_rms v = Fin 0 /\ fv_resid v = Some (map (fun _ => Fin 0) us) /\
      fv_putil v = nnat (List.length us) /' nnat (List.length (c_peaks c2)) /\
      fv_autil v = nnat (List.length us) /' nnat (atlas_len at_) /\
      c_coeff c' = Some (map Fin co) /\ c_mpeaks c' = fv_mpeaks v /\ c_matlas c' = fv_matlas v.
Proof.
  intros o c a c1 c2 size co us x y at_ fuel f l s0 s d Hc Hb Hp Hex Ha Hset Hrun Hfin Hin Hsmp.
  rewrite (fit_search o c a c1 c2 fuel) by auto.
  destruct (decoys_search_main o c2 (fa_ctol a) (fa_deg a) size co us x y (fa_tries a) (fa_brute a) fuel f l s0 s d Hex Hset Hrun Hfin Hin Hsmp)
    as (G1 & G2 & G3 & G4 & G5 & G6 & G7).
  destruct Hex as [(Hx & Lxy) Hus Htrue Hs (Lco & Hd) Hk Hkn Hsz _ _ Hinc _ _ _ _ _ _].
  assert (Eu : np_unique (map Fin x) = map Fin us).
  { destruct (np_unique_Fin x) as (vs & -> & Sv & Hv). f_equal. apply SS_Rlt_unique; auto.
    intros v. rewrite Hv, Hus. reflexivity. }
  assert (Hcand : exists cd, ransac_candidates o c2 (fa_ctol a) = Ok cd).
  { unfold ransac_xy in Hx. destruct (ransac_candidates o c2 (fa_ctol a)); [eauto|discriminate]. }
  destruct Hcand as (cd & Hcand).
  assert (Hne : us <> []) by (intros ->; cbn in Hd; lia).
  assert (Hres : ransac_result (fa_deg a) s = Ok (mkRR (Some (map Fin co)) (Fin 0) (Some (map (fun _ => Fin 0) us)) (List.length us)
    (negb (Nat.leb (List.length us) (fa_deg a + 1))))).
  { unfold ransac_result. rewrite G1, G3, G4, G5, G6, G7. cbn [mseq_len mseq_vals].
    assert (SP : StronglySorted Rlt (map (poly co) us)).
    { apply SS_map_inc; auto. intros u v Hu Hv L.
      pose proof (SS_hd_last us Hs Hne u Hu). pose proof (SS_hd_last us Hs Hne v Hv). apply Hinc; lra. }
    rewrite np_unique_sorted_id by auto. rewrite !map_length, !Nat.eqb_refl. reflexivity. }
  assert (Hsolve : exists c3, solve_ransac o fuel c2 (fa_deg a) (fa_tries a) None (fa_ctol a) (fa_brute a) =
    Some (set_c_matlas (s_ma s) (set_c_mpeaks (s_mp s) c3), ransac_result (fa_deg a) s)).
  { unfold solve_ransac. rewrite Hcand. cbv zeta.
    replace (ransac_xy o (set_c_deg (Some (fa_deg a)) c2) (fa_ctol a)) with (ransac_xy o c2 (fa_ctol a)) by reflexivity.
    rewrite Hx, Eu, map_length. destruct (Nat.leb_spec (List.length us) (fa_deg a)); [lia|].
    change (c_rp (set_c_deg (Some (fa_deg a)) c2)) with (c_rp c2). rewrite Hsz.
    replace (ransac_setup o (set_c_deg (Some (fa_deg a)) c2)) with (ransac_setup o c2) by reflexivity.
    rewrite Hset, Hrun. eexists. reflexivity. }
  destruct Hsolve as (c3 & E). rewrite E, Hres. rewrite Hres in E.
  apply solve_frame in E. destruct E as ((Fi & _) & _). destruct Fi as (Fp & _ & Fa & _).
  unfold fit_end. rewrite Fa, Ha, Fp. unfold utilisation. cbn [rr_inl].
  destruct (Nat.eqb_spec (List.length us) 0) as [E0|_]; [destruct us; [contradiction|discriminate]|].
  cbn [andb rr_p rr_err rr_resid].
  eexists. eexists. split; [reflexivity|]. cbn [fv_coeff fv_mpeaks fv_matlas fv_rms fv_resid fv_putil fv_autil].
  split; [reflexivity|]. split; [exact G6|]. split; [exact G7|]. split; [reflexivity|].
  split; [reflexivity|]. split; [reflexivity|split; [reflexivity|split; [reflexivity|split; reflexivity]]].
Qed.

(* ------------------------------------------------------------------ *)
(** ** A concrete problem: 100 + 10 u at the pixels 0, 1 and 4, and a line at 110.5
    that is a candidate for the second peak. *)

Definition dc_o : oracle xr := {|
  o_argsort := fun l => seq 0 (List.length l);
  o_random := fun _ => [];
  (* the line through the first two points *)
  o_polyfit := fun _ xs ys _ =>
    match xs, ys with
    | Fin a :: Fin b :: _, Fin c :: Fin d :: _ => Ok (map Fin [c - (d - c) / (b - a) * a; (d - c) / (b - a)]%R)
    | _, _ => Raise TypeError
    end;
  o_ls := fun _ _ _ _ => Ok (map Fin [10 * ex_sx / ex_sy; 100 / ex_sy]%R);
  o_sample := fun _ l n _ => firstn n l;
  o_pick := fun _ l => hd NaN l;
  o_spline := fun _ _ _ => Ok (fun _ _ => Fin 1);
  o_np123 := true
|}.
Definition dc_lines : list R := [100; 110; 221 / 2; 140]%R.
Definition dc_x : list R := [0; 1; 1; 4]%R.
Definition dc_y : list R := [100; 110; 221 / 2; 140]%R.
Definition dc_c : calib xr :=
  mkCal (map Fin ex_us) None (Some (mkAtlas (map ex_line dc_lines) (Fin 0) (Fin 1000) (Fin 0))) None
    (mkG (Some (Fin 3)) (Some (map Fin [0; 1; 2; 3; 4]%R)) None false false)
    (mkH None None None None None (Some (Fin 5)) (Some (Fin 5)) (Some (Fin 50)) (Some (Fin 150)) None None)
    (mkR (Some 2%nat) (Some 2%nat) (Some true) (Some false) (Some (Fin 1)) (Some false) (Some (Fin 1))
       (Some (Fin 3)) (Some (Fin 0)) (Some (Fin 0)))
    None false
    (PArr (flat_map (fun u => map (fun w => (Fin u, Fin w)) dc_lines) ex_us))
    (mkHough None None (Some [[1%nat]]) (Some [Fin 50; Fin 150]) (Some [Fin 5; Fin 15]) None None None None)
    (Some [(Fin 10, Fin 100)]) (Some (HArr [])) (MList []) (MList []) None None None None None None None None.
Definition dc_a : fit_args xr := mkFA 1 1 None (Fin 0) (Some FitPoly) (Fin 1) false.

Lemma dc_rows : exists w1 w2 w3 w4, candidates_linear dc_c (Fin 1) =
  Ok [[(Fin 0, Fin 100, w1); (Fin 1, Fin 110, w2); (Fin 1, Fin (221 / 2), w4); (Fin 4, Fin 140, w3)]].
Proof.
  unfold candidates_linear, dc_c. cbn [c_lines c_hp h_rt h_lt c_pairs].
  destruct (line_candidates_real (Fin 5) (Fin 5) 1 10 100
    [(0, 100); (0, 110); (0, 221 / 2); (0, 140); (1, 100); (1, 110); (1, 221 / 2); (1, 140); (4, 100); (4, 110); (4, 221 / 2); (4, 140)]%R) as (g & E).
  exists (g (0, 100)%R), (g (1, 110)%R), (g (4, 140)%R), (g (1, 221 / 2)%R). apply f_equal.
  cbn [map fst snd flat_map app ex_us dc_lines] in E |- *.
  f_equal. etransitivity; [exact E|]. clear E. real_filter. reflexivity.
Qed.

Lemma dc_unique1 : np_unique [Fin 0; Fin 1; Fin 1; Fin 4] = map Fin ex_us.
Proof.
  change [Fin 0; Fin 1; Fin 1; Fin 4] with (map Fin dc_x). destruct (np_unique_Fin dc_x) as (vs & -> & S & H). f_equal.
  apply SS_Rlt_unique; auto; [apply ex_sorted|]. intros v. rewrite H. unfold dc_x, ex_us. cbn. intuition.
Qed.
Lemma dc_unique2 : np_unique [Fin 110; Fin (221 / 2)] = [Fin 110; Fin (221 / 2)].
Proof. apply (np_unique_sorted_id [110; 221 / 2]%R). repeat constructor. lra. Qed.

Lemma dc_xy : ransac_xy dc_o dc_c (Fin 1) = Ok (map Fin dc_x, map Fin dc_y).
Proof.
  destruct dc_rows as (w1 & w2 & w3 & w4 & E).
  unfold ransac_xy, ransac_candidates. change (c_rp dc_c) with
   (mkR (Some 2%nat) (Some 2%nat) (Some true) (Some false) (Some (Fin 1)) (Some false) (Some (Fin 1))
       (Some (Fin 3)) (Some (Fin 0)) (Some (Fin 0))).
  cbn [need bind r_linear r_top r_weighted r_close r_tol]. rewrite E. cbn [bind].
  unfold most_common_candidates. cbn [List.concat app map row_x row_y fst snd].
  rewrite dc_unique1.
  unfold ex_us at 1 2. cbn [map]. unfold common_for. cbn [filter row_x row_y fst snd].
  repeat match goal with |- context [Fin ?x ==' Fin ?y] => change (Fin x ==' Fin y) with (Reqb x y) end.
  repeat match goal with |- context [Reqb ?x ?y] =>
    first [rewrite (Reqb_yes x y) by lra|rewrite (Reqb_no x y) by lra] end.
  cbn [map].
  assert (U : forall w, np_unique [Fin w] = [Fin w]) by (intros w; apply (np_unique_sorted_id [w]); repeat constructor).
  cbn [row_y fst snd]. rewrite !U, !dc_unique2. cbn [map mask_select List.length Nat.min dc_o o_argsort seq firstn gather flat_map fst snd repeat app filter row_x].
  repeat match goal with |- context [Fin ?x ==' Fin ?y] => change (Fin x ==' Fin y) with (Reqb x y) end.
  repeat match goal with |- context [Reqb ?x ?y] =>
    first [rewrite (Reqb_yes x y) by lra|rewrite (Reqb_no x y) by lra] end.
  cbn [map row_y fst snd]. rewrite ?U, ?dc_unique2. cbn.
  unfold gather. cbn. reflexivity.
Qed.

Lemma dc_unambiguous : unambiguous 1 ex_co (combine dc_x dc_y) 3 0 3.
Proof.
  intros p pts Lp Hn Hi _ Hm _ Hp.
  assert (L3 : (3 <= List.length pts)%nat).
  { apply INR_le. replace (INR 3) with 3%R by (cbn; lra). exact Hm. }
  assert (I : incl (map fst pts) ex_us).
  { intros u Hu. apply in_map_iff in Hu. destruct Hu as ([a b] & <- & H). apply Hi in H. unfold dc_x, dc_y, ex_us in *. cbn in *.
    decompose [or] H; try contradiction; match goal with E : (_, _) = _ |- _ => injection E as <- <- end; auto. }
  assert (I' : incl ex_us (map fst pts)).
  { apply NoDup_length_incl; auto. rewrite map_length. cbn. lia. }
  assert (H0 : In (0%R, 100%R) pts).
  { assert (X : In 0%R (map fst pts)) by (apply I'; left; auto). apply in_map_iff in X. destruct X as ([a b] & E & H). cbn [fst] in E. subst a.
    pose proof (Hi _ H) as C. unfold dc_x, dc_y in C. cbn in C.
    decompose [or] C; try contradiction; match goal with E : (_, _) = _ |- _ => injection E; intros; subst; auto; lra end. }
  assert (H4 : In (4%R, 140%R) pts).
  { assert (X : In 4%R (map fst pts)) by (apply I'; right; right; left; auto). apply in_map_iff in X. destruct X as ([a b] & E & H). cbn [fst] in E. subst a.
    pose proof (Hi _ H) as C. unfold dc_x, dc_y in C. cbn in C.
    decompose [or] C; try contradiction; match goal with E : (_, _) = _ |- _ => injection E; intros; subst; auto; lra end. }
  apply Hp in H0. apply Hp in H4.
  apply (poly_ident p ex_co [0; 4]%R); auto; [cbn; lia| |].
  - constructor; [|constructor; [intros []|constructor]]. intros [E|[]]; lra.
  - intros u [<-|[<-|[]]]; [rewrite (ex_poly 0 : basis_sum powB ex_co 0 = _)|rewrite (ex_poly 4 : basis_sum powB ex_co 4 = _)].
    + unfold poly in H0. rewrite H0. lra.
    + unfold poly in H4. rewrite H4. lra.
Qed.

Lemma dc_prepared : exists c1 c2, fit_begin dc_c dc_a = (c1, Ok tt) /\ fit_prepare dc_o c1 dc_a = (c2, Ok tt) /\
  decoy_problem dc_o c2 (fa_ctol dc_a) (fa_deg dc_a) 2 ex_co ex_us dc_x dc_y /\ c_atlas c2 = c_atlas dc_c.
Proof.
  eexists. eexists. split; [reflexivity|]. split.
  { unfold fit_prepare, fit_hough.
    cbn [c_atlas c_rp c_lines c_points set_sample set_c_rp set_c_kind set_c_coeff set_c_deg dc_c r_sample r_matches].
    reflexivity. }
  split; [|reflexivity].
  destruct ex_stds as (S1 & S2 & P1 & P2).
  split.
  - split; [exact dc_xy|reflexivity].
  - intros u. unfold ex_us, dc_x. cbn. intuition.
  - intros u [<-|[<-|[<-|[]]]]; rewrite ex_poly; unfold dc_x, dc_y; cbn [combine].
    + left. f_equal. lra.
    + right. left. f_equal. lra.
    + right. right. right. left. f_equal. lra.
  - apply ex_sorted.
  - split; [reflexivity|cbn; lia].
  - reflexivity.
  - reflexivity.
  - reflexivity.
  - exists 1%R. split; [reflexivity|lra].
  - exists 50%R, 150%R. split; [reflexivity|]. split; [reflexivity|]. cbn. lra.
  - cbv zeta. intros u v _ _ L. rewrite !ex_poly. lra.
  - exists [0; 1; 2; 3; 4]%R. reflexivity.
  - exists 3%R, 0%R. split; [|split; [cbn; lra|split; [reflexivity|split; [cbn; lra|exact dc_unambiguous]]]].
    cbn [c_rp set_matches set_c_rp r_matches]. f_equal. unfold adjusted_matches. rewrite !nnat_Fin.
    repeat match goal with |- context [?a <' ?b] =>
      lazymatch a with Fin (INR ?n) => change (a <' b) with (Rltb (INR n) 3) end;
      match goal with |- context [Rltb ?u ?v] => destruct (Rltb_spec u v) as [L|_]; [cbn in L; lra|] end end.
    reflexivity.
  - exists 0%R. split; [reflexivity|lra].
  - right. exists (Fin 50), (Fin 150), [], (Fin 5), (Fin 15), [], [[1%nat]], 1%R.
    repeat split; auto; try lra. intros xs ys. eexists. split; [reflexivity|]. intros a b. exists 1%R. split; [reflexivity|lra].
  - intros xh Hn Hl. destruct xh as [|a [|b xh]]; [cbn in Hl; lia|cbn in Hl; lia|].
    assert (a <> b).
    { inversion Hn as [|? ? Ha _]; subst. intros ->. apply Ha. left; auto. }
    exists ex_co. split; [|split; [reflexivity|auto]]. cbn [dc_o o_polyfit map]. rewrite !ex_poly. unfold ex_co. cbn [map].
    do 2 f_equal; [f_equal; field; lra|]. do 2 f_equal. field. lra.
  - exists ex_sx, ex_sy. split; [exact S1|]. split; [exact S2|]. split; [lra|]. split; [lra|].
    intros start _. eexists. split; [reflexivity|]. split; [reflexivity|]. intros u _.
    rewrite ex_poly. cbn [rev app]. unfold poly. rewrite !basis_cons. unfold basis_sum. cbn. field. lra.
Qed.

Lemma dc_finite log : finite_fits dc_o 1 log.
Proof.
  intros d p _. cbn [dc_o o_polyfit].
  destruct (fst d) as [|[a| |] [|[b| |] xs]]; try discriminate.
  destruct (snd d) as [|[a'| |] [|[b'| |] ys]]; try discriminate.
  intros H. exists [a' - (b' - a') / (b - a) * a; (b' - a') / (b - a)]%R. split; [|reflexivity]. congruence.
Qed.

Lemma dc_run c : decoy_problem dc_o c (Fin 1) 1 2 ex_co ex_us dc_x dc_y ->
  exists f l s0 s, ransac_setup dc_o c (map Fin dc_x) (map Fin dc_y) 1 2 1 None false = Ok (f, l, s0) /\
    run_samples dc_o 3 f s0 l = Done s /\ In ([Fin 0; Fin 1], [Fin 100; Fin 110]) (s_log s).
Proof.
  intros [(Hx & Lxy) Hus Htrue Hs (Lco & Hd) Hk Hkn Hsz (tol & Ht & Ht0) (ilo & ihi & Hi1 & Hi2 & Hic) Hinc (px & Hpx)
     (m & t & Hm & Hmm & Hu & Huu & Huna) (e & He & He0) Hden Hpf Hrob].
  assert (Eu : np_unique (map Fin dc_x) = map Fin ex_us) by exact dc_unique1.
  assert (Er : robust_polyfit (o_ls dc_o) (map Fin ex_us) (map Fin (map (poly ex_co) ex_us)) 1 None = Ok (map Fin ex_co)).
  { apply robust_exact; auto; [apply SS_NoDup; auto|cbn; lia]. }
  destruct (bin_edges_Fin ex_us 10) as (lo & hi & _ & Drange & _); [lia|].
  destruct (sampling_prob_Fin ex_us lo hi) as (qs & Eq & Lq & Hq & _); auto.
  { discriminate. }
  { apply ex_edges; auto. }
  destruct (prob_positive qs Hq) as [Hq1 Hq2].
  assert (Hspl : exists sp, make_spline dc_o (c_ht c) (r_hweight (c_rp c)) = Ok sp).
  { destruct Hden as [E|(x0 & x1 & xe & y0 & y1 & ye & h & w & E1 & E2 & E3 & E4 & _ & Hsp)]; unfold make_spline.
    - rewrite E. eauto.
    - rewrite E1, E2, E3, E4. cbn [need bind nisfinite XRnum xisfinite].
      match goal with |- exists _, bind (o_spline dc_o ?a ?b ?e) _ = _ => destruct (Hsp a b) as (sp & -> & _) end.
      cbn [bind]. eauto. }
  destruct Hspl as (sp & Hspl).
  set (f := mkCfg FitPoly 1 (map Fin dc_x) (map Fin dc_y) (map Fin ex_us)
              (build_dict (map Fin dc_x) (map Fin dc_y)) (Fin tol) (Fin ilo) (Fin ihi) (map Fin px)
              (r_hweight (c_rp c)) sp (Fin e) (Fin m) (Fin t) (List.length (c_peaks c)) None false 2 (map Fin qs)).
  set (s0 := mkRS None (nlit 1 50) (nlit 1 50) None 0 (c_mpeaks c) (c_matlas c) 0 []).
  assert (Hset : ransac_setup dc_o c (map Fin dc_x) (map Fin dc_y) 1 2 1 None false = Ok (f, [[0%nat]], s0)).
  { unfold ransac_setup. rewrite Eu, map_length. change (Nat.leb (List.length ex_us) 2) with false. cbn [orb].
    rewrite Hspl, Hk, Eq, Ht, Hi1, Hi2, Hpx, He, Hm, Hu, Hkn. reflexivity. }
  assert (Kb : forall q, (2 <= List.length q)%nat -> exists W, hough_bonus f (map Fin q) = Ok (Fin W) /\ (0 <= W)%R).
  { intros q Lq'. apply (bonus_nonneg dc_o c f px); auto. }
  assert (Hlit : (0 <= Rlit 1 50)%R) by (unfold Rlit; rewrite Rmult_1_l; apply Rlt_le, powerRZ_lt; lra).
  assert (Hn : NoDup [0; 1]%R).
  { constructor; [|constructor; [intros []|constructor]]. intros [E|[]]; lra. }
  assert (Htt : forall s, s_cost s = Fin (Rlit 1 50) ->
    exists s', trial dc_o f s [Fin 0; Fin 1] [Fin 100; Fin 110] = TNext s' /\ s_log s' = s_log s).
  { intros s Hc.
    destruct (true_trial dc_o f 1 ex_co ex_us dc_x dc_y eq_refl eq_refl eq_refl eq_refl Lxy Hus Htrue Hs Lco (proj1 Hd) (proj2 Hd)
      tol eq_refl Ht0 ilo ihi eq_refl eq_refl Hic Hinc Kb e m t eq_refl eq_refl eq_refl Hmm Huu He0 Hpf Er Huna s [0; 1]%R (Rlit 1 50) Hn
      ltac:(cbn; lia) Hc Hlit) as (s' & Et & _ & _ & El).
    cbn [map] in Et. rewrite !ex_poly in Et.
    replace (100 + 10 * 0)%R with 100%R in Et by lra. replace (100 + 10 * 1)%R with 110%R in Et by lra. eauto. }
  assert (D0 : dict_get (f_dict f) (Fin 0) = Ok [Fin 100]).
  { unfold f. cbn [f_dict]. rewrite build_dict_get.
    - unfold dc_x, dc_y. cbn [map].
      repeat match goal with |- context [Fin ?x ==' Fin ?y] => change (Fin x ==' Fin y) with (Reqb x y) end.
      repeat match goal with |- context [Reqb ?x ?y] =>
        first [rewrite (Reqb_yes x y) by lra|rewrite (Reqb_no x y) by lra] end. reflexivity.
    - intros z Hz. apply in_map_iff in Hz. destruct Hz as (r & <- & _). reflexivity.
    - rewrite Eu. left. reflexivity. }
  assert (D1 : dict_get (f_dict f) (Fin 1) = Ok [Fin 110; Fin (221 / 2)]).
  { unfold f. cbn [f_dict]. rewrite build_dict_get.
    - unfold dc_x, dc_y. cbn [map].
      repeat match goal with |- context [Fin ?x ==' Fin ?y] => change (Fin x ==' Fin y) with (Reqb x y) end.
      repeat match goal with |- context [Reqb ?x ?y] =>
        first [rewrite (Reqb_yes x y) by lra|rewrite (Reqb_no x y) by lra] end. reflexivity.
    - intros z Hz. apply in_map_iff in Hz. destruct Hz as (r & <- & _). reflexivity.
    - rewrite Eu. right. left. reflexivity. }
  assert (Hdraw : exists t', draw dc_o 2 f (s_rng s0) [0%nat] = DOk t' [Fin 0; Fin 1] [Fin 100; Fin 110]).
  { unfold draw. change (f_brute f) with false. change (f_prob f) with (map Fin qs). rewrite Hq1, Hq2, Lq. cbn [orb].
    change (Nat.ltb (List.length ex_us) (f_size f)) with false. change (f_size f) with 2%nat. change (f_peaks f) with (map Fin ex_us).
    cbn [dc_o o_sample ex_us map firstn draw_ys]. rewrite D0. cbn [forallb existsb andb pick_new].
    cbn [dc_o o_pick hd existsb app]. rewrite D1. cbn [forallb existsb andb orb pick_new dc_o o_pick hd app].
    change (Fin 100 ==' Fin 110) with (Reqb 100 110). rewrite (Reqb_no 100 110) by lra. cbn [orb andb].
    eexists. reflexivity. }
  destruct Hdraw as (t' & Edraw).
  destruct (Htt (log_fit ([Fin 0; Fin 1], [Fin 100; Fin 110]) (set_rng t' s0)) eq_refl) as (s' & Et & El).
  exists f, [[0%nat]], s0, s'. split; [exact Hset|]. split.
  - cbn [run_samples try_sample]. rewrite Edraw. unfold add_known. change (f_known f) with (@None (list xr * list xr)).
    cbv iota beta. rewrite Et. reflexivity.
  - rewrite El. left. reflexivity.
Qed.

(** The peaks are at 0, 1 and 4, the atlas has lines at 100, 110, 110.5 and 140, and
    the first two peaks are drawn: the fit gives 100 + 10 u. *)
Example decoys_example_main :
  exists c1 c2 f l s0 s,
    fit_begin dc_c dc_a = (c1, Ok tt) /\ fit_prepare dc_o c1 dc_a = (c2, Ok tt) /\
    decoy_problem dc_o c2 (fa_ctol dc_a) (fa_deg dc_a) 2 [100; 10]%R [0; 1; 4]%R [0; 1; 1; 4]%R [100; 110; 221 / 2; 140]%R /\
    ransac_setup dc_o c2 (map Fin [0; 1; 1; 4]%R) (map Fin [100; 110; 221 / 2; 140]%R) 1 2 1 None false = Ok (f, l, s0) /\
    run_samples dc_o 3 f s0 l = Done s /\ finite_fits dc_o 1 (s_log s) /\
    In ([Fin 0; Fin 1], [Fin 100; Fin 110]) (s_log s) /\ true_sample 1 [100; 10]%R ([Fin 0; Fin 1], [Fin 100; Fin 110]) /\
    exists c' v, fit dc_o 3 dc_c dc_a = Some (c', Ok v) /\ fv_coeff v = map Fin [100; 10]%R.
Proof.
  destruct dc_prepared as (c1 & c2 & B & P & X & Ea).
  destruct (dc_run c2 X) as (f & l & s0 & s & H1 & H2 & H3).
  assert (Ts : true_sample 1 ex_co ([Fin 0; Fin 1], [Fin 100; Fin 110])).
  { exists [0; 1]%R. split.
    - constructor; [|constructor; [intros []|constructor]]. intros [E|[]]; lra.
    - split; [cbn; lia|]. cbn [map]. rewrite !ex_poly. repeat f_equal; lra. }
  exists c1, c2, f, l, s0, s. split; auto. split; auto. split; auto. split; auto. split; auto.
  split; [apply dc_finite|]. split; auto. split; [exact Ts|].
  destruct (decoys_fit_main dc_o dc_c dc_a c1 c2 2 ex_co ex_us dc_x dc_y _ 3 f l s0 s _ eq_refl B P X Ea H1 H2 (dc_finite _) H3 Ts)
    as (c' & v & F & V & _). exists c', v. auto.
Qed.

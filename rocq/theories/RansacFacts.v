(** * RansacFacts: lemmas about the RANSAC search. *)

From Coq Require Import ZArith Bool List Lia Sorted Permutation.
From Verif Require Import Num Py Np NpFacts Util Models Hough PolyEval Calib Cand SpecCand CandFacts Ransac SpecRansac.
Import ListNotations.
Local Open Scope num_scope.

Section Dict.
  Context {A : Type} {N : Num A} {O : NumOrder A}.

  Lemma dict_get_build (g : A -> list A) ps p :
    StronglySorted (fun x y => x <' y = true) ps -> no_nan ps -> In p ps ->
    dict_get (map (fun q => (q, g q)) ps) p = Ok (g p).
  Proof.
    induction ps as [|q r IH]; intros S Hn Hp; [destruct Hp|]. cbn [map dict_get].
    inversion S as [|? ? S1 F]; subst. destruct Hp as [->|Hp].
    - rewrite eqb_refl; auto. apply Hn. left; auto.
    - rewrite Forall_forall in F. specialize (F p Hp). rewrite (ltb_neqb _ _ F). apply IH; auto.
      intros z Hz. apply Hn. right; auto.
  Qed.

  Lemma build_dict_get x y p :
    no_nan x -> In p (np_unique x) ->
    dict_get (build_dict x y) p = Ok (mask_select (map (fun v => v ==' p) x) y).
  Proof.
    intros Hn Hp. unfold build_dict.
    apply (dict_get_build (fun p => mask_select (map (fun v => v ==' p) x) y)); auto.
    - apply np_unique_sorted; auto.
    - intros z Hz. apply Hn. apply np_unique_incl; auto.
  Qed.

  Lemma masked_pair (x y : list A) p b :
    length x = length y ->
    In b (mask_select (map (fun v => v ==' p) x) y) <->
    exists a, In (a, b) (combine x y) /\ a ==' p = true.
  Proof.
    revert y. induction x as [|a x IH]; intros [|c y] L; cbn in L; try discriminate.
    - cbn. rewrite mask_select_nil_l. split; [intros []|intros (? & [] & _)].
    - cbn [map combine]. rewrite mask_select_cons. injection L as L. specialize (IH y L). split.
      + intros H. destruct (a ==' p) eqn:E.
        * destruct H as [<-|H]; [exists a; split; cbn; auto|].
          apply IH in H. destruct H as (a' & H & E'). exists a'. split; auto. right; auto.
        * apply IH in H. destruct H as (a' & H & E'). exists a'. split; auto. right; auto.
      + intros (a' & [H|H] & E').
        * injection H as <- <-. rewrite E'. left; auto.
        * assert (In b (mask_select (map (fun v => v ==' p) x) y)) by (apply IH; eauto).
          destruct (a ==' p); [right; auto|auto].
  Qed.

  Lemma dict_ok x y :
    length x = length y -> no_nan x -> no_nan y ->
    forall p, In p (np_unique x) ->
      exists ys, dict_get (build_dict x y) p = Ok ys /\ ys <> [] /\ no_nan ys.
  Proof.
    intros L Hx Hy p Hp. rewrite build_dict_get by auto. eexists. split; [reflexivity|]. split.
    - pose proof (np_unique_incl _ _ Hp) as Hi. apply In_nth_error in Hi. destruct Hi as [k Hk].
      destruct (nth_error y k) as [b|] eqn:Eb.
      2:{ apply nth_error_None in Eb. assert (k < length x)%nat by (apply nth_error_Some; congruence). lia. }
      intros E. assert (In b []) as X; [|destruct X]. rewrite <- E. apply masked_pair; auto.
      exists p. split; [|apply eqb_refl; apply Hx; apply np_unique_incl; auto].
      clear - Hk Eb. revert y k Hk Eb. induction x as [|a x IH]; intros [|c y] [|k]; cbn; try discriminate.
      + intros E1 E2. left. congruence.
      + intros E1 E2. right. eapply IH; eauto.
    - intros z Hz. apply Hy. apply mask_select_incl in Hz. exact Hz.
  Qed.

  Lemma unique_different (x : list A) : no_nan x -> pairwise_different (np_unique x).
  Proof.
    intros H. apply (SS_impl (fun a b => a <' b = true)); [|apply np_unique_sorted; auto].
    intros a b _ _. apply ltb_neqb.
  Qed.
End Dict.

Section Trial.
  Context {A : Type} {N : Num A} {O : NumOrder A}.
  Variable o : oracle A.

  (** A configuration built from candidates without NaN. *)
  Definition cfg_ok (f : cfg A) : Prop :=
    length (f_x f) = length (f_y f) /\ no_nan (f_x f) /\ no_nan (f_y f) /\
    f_peaks f = np_unique (f_x f) /\ f_dict f = build_dict (f_x f) (f_y f).

  (** What is known about a stored solution. *)
  Record accepted (f : cfg A) (s : rstate A) (co : list A) : Prop := {
    ac_ex : exists tf xh yh xs ys w,
      In (xh, yh) (s_log s) /\ o_polyfit o (f_kind f) xh yh (f_deg f) = Ok tf /\
      s_mp s = MList xs /\ s_ma s = MList ys /\
      length xs = s_inl s /\ matching (f_x f) (f_y f) xs ys /\
      StronglySorted (fun a b => a <' b = true) ys /\
      inliers (fun p => eval_kind (f_kind f) p tf) (f_tol f) (f_x f) (f_y f) xs ys /\
      robust_polyfit (o_ls o) xs ys (f_deg f) None = Ok co /\
      s_resid s = Some (robust_residual (f_kind f) (f_tol f) co xs ys) /\
      s_err s = rms_of (robust_residual (f_kind f) (f_tol f) co xs ys) /\
      hd (nZ 0) tf <' f_ilo f = false /\ f_ihi f <' hd (nZ 0) tf = false /\
      hough_bonus f tf = Ok w /\
      (exists err mx my,
         match_bijective (fun p => eval_kind (f_kind f) p tf) (f_dict f) (f_peaks f) = Ok (err, mx, my) /\
         s_cost s = trial_cost (clip_err (f_tol f) err) tf w);
    ac_deg : (f_deg f < s_inl s)%nat;
    ac_match : nnat (s_inl s) <' f_minmatch f = false;
    ac_util : nnat (s_inl s) <' f_minutil f *' nnat (f_npeaks f) = false;
    ac_err : s_err s <' f_minerr f = false
  }.

  (** Either nothing has been accepted since s0, or what is stored was accepted. *)
  Definition ransac_inv (f : cfg A) (s0 s : rstate A) : Prop :=
    (s_p s = s_p s0 /\ s_cost s = s_cost s0 /\ s_err s = s_err s0 /\ s_resid s = s_resid s0 /\
     s_inl s = s_inl s0 /\ s_mp s = s_mp s0 /\ s_ma s = s_ma s0) \/
    (exists co, s_p s = Some co /\ accepted f s co).

  Lemma accepted_log f s co d t : accepted f s co -> accepted f (log_fit d (set_rng t s)) co.
  Proof.
    intros [(tf & xh & yh & xs & ys & w & H1 & H) ? ? ? ?]. constructor; cbn; auto.
    exists tf, xh, yh, xs, ys, w. split; [right; auto|exact H].
  Qed.
  Lemma accepted_rng f s co t : accepted f s co -> accepted f (set_rng t s) co.
  Proof.
    intros [(tf & xh & yh & xs & ys & w & H1 & H) ? ? ? ?]. constructor; cbn; auto.
    exists tf, xh, yh, xs, ys, w. split; [auto|exact H].
  Qed.

  Lemma inv_log f s0 s d t : ransac_inv f s0 s -> ransac_inv f s0 (log_fit d (set_rng t s)).
  Proof.
    intros [H|(co & H1 & H2)]; [left; exact H|]. right. exists co. split; auto. apply accepted_log; auto.
  Qed.
  Lemma inv_rng f s0 s t : ransac_inv f s0 s -> ransac_inv f s0 (set_rng t s).
  Proof.
    intros [H|(co & H1 & H2)]; [left; exact H|]. right. exists co. split; auto. apply accepted_rng; auto.
  Qed.

  Lemma SS_mask {T} (R : T -> T -> Prop) m l : StronglySorted R l -> StronglySorted R (mask_select m l).
  Proof.
    intros H. revert m. induction H as [|a l H IH F]; intros [|b m]; rewrite ?mask_select_nil_l, ?mask_select_nil_r;
      try constructor.
    rewrite mask_select_cons. destruct b; auto. constructor; auto.
    rewrite Forall_forall in *. intros x Hx. apply F. apply mask_select_incl in Hx. auto.
  Qed.

  Lemma mask3 {T U V} (m : list bool) (l1 : list T) (l2 : list U) (l3 : list V) k a b :
    length m = length l1 -> length l1 = length l2 -> length l1 = length l3 ->
    nth_error (mask_select m l1) k = Some a -> nth_error (mask_select m l2) k = Some b ->
    exists i c, nth_error m i = Some true /\ nth_error l1 i = Some a /\ nth_error l2 i = Some b /\ nth_error l3 i = Some c.
  Proof.
    revert l1 l2 l3 k. induction m as [|c m IH]; intros [|x l1] [|y l2] [|z l3] k L1 L2 L3; cbn in L1, L2, L3; try discriminate.
    - rewrite mask_select_nil_l. destruct k; discriminate.
    - rewrite !mask_select_cons. destruct c.
      + destruct k as [|k]; cbn [nth_error]; intros Ha Hb.
        * exists 0%nat, z. cbn. auto.
        * destruct (IH l1 l2 l3 k) as (i & w & H); auto. exists (S i), w. exact H.
      + intros Ha Hb. destruct (IH l1 l2 l3 k) as (i & w & H); auto. exists (S i), w. exact H.
  Qed.

  Lemma clip_lt tol e : (if tol <' e then tol else e) <' tol = true -> e <' tol = true.
  Proof. destruct (tol <' e) eqn:E; auto. rewrite ltb_irrefl. discriminate. Qed.

  (** One trial. *)
  Lemma trial_accepts f s xh yh :
    cfg_ok f -> In (xh, yh) (s_log s) ->
    match trial o f s xh yh with
    | TContinue => True
    | TNext s' => s' = s \/
        ((exists co, s_p s' = Some co /\ accepted f s' co) /\ s_cost s' <=' s_cost s = true /\
         s_log s' = s_log s /\ s_rng s' = s_rng s)
    | TRaise s' e => s' = s
    end.
  Proof.
    intros (Lxy & Nx & Ny & Ep & Ed) Hlog. unfold trial.
    destruct (o_polyfit o (f_kind f) xh yh (f_deg f)) as [tf|e] eqn:Ef; auto.
    destruct tf as [|c0 tf']; [auto|]. destruct (f_peaks f) as [|p0 pr] eqn:Epk; auto.
    rewrite <- Epk in *. clear p0 pr Epk || idtac.
    match goal with |- context[if ?b then TContinue else _] => destruct b eqn:Eint end; auto.
    destruct (np_ptp (f_peaks f)); auto.
    match goal with |- context[match nceil ?v with _ => _ end] => destruct (nceil v) end; auto.
    match goal with |- context[if negb ?b then TContinue else _] => destruct b eqn:Emono end; cbn [negb]; auto.
    set (ev := fun p => eval_kind (f_kind f) p (c0 :: tf')).
    assert (Sp : pairwise_different (f_peaks f)) by (rewrite Ep; apply unique_different; auto).
    assert (Hd : forall p, In p (f_peaks f) -> exists ys, dict_get (f_dict f) p = Ok ys /\ ys <> [] /\ no_nan ys).
    { intros p Hp. rewrite Ed. apply dict_ok; auto. rewrite <- Ep; auto. }
    destruct (match_bijective_ok ev (f_dict f) (f_peaks f) Sp Hd)
      as (rows & qs & _ & Em & Hr & Er & S1 & S2 & Hq & _ & _).
    rewrite Er.
    match goal with |- context[if Nat.eqb ?a ?b then TContinue else _] => destruct (Nat.eqb a b) end; auto.
    destruct (hough_bonus f (c0 :: tf')) as [w|e] eqn:Ew; auto.
    set (err := clip_err (f_tol f) (map q_err qs)). set (cost := trial_cost err (c0 :: tf') w).
    destruct (cost <=' s_cost s) eqn:Ec; auto.
    unfold consider. set (mask := map (fun e => e <' f_tol f) err).
    set (xs := mask_select mask (map q_x qs)). set (ys := mask_select mask (map snd qs)).
    assert (Lm : length mask = length qs) by (unfold mask, err, clip_err; rewrite !map_length; auto).
    assert (Lx : length xs = length ys).
    { unfold xs, ys. rewrite !mask_select_length by (rewrite map_length; auto). reflexivity. }
    assert (Dx : pairwise_different xs) by (apply SS_mask; auto).
    assert (Dy : StronglySorted (fun a b => a <' b = true) ys) by (apply SS_mask; auto).
    assert (Dy' : pairwise_different ys).
    { apply (SS_impl (fun a b => a <' b = true)); auto. intros a b _ _. apply ltb_neqb. }
    assert (In_ : inliers ev (f_tol f) (f_x f) (f_y f) xs ys).
    { intros k a b Ha Hb.
      destruct (mask3 mask (map q_x qs) (map snd qs) (map q_err qs) k a b) as (i & e & H1 & H2 & H3 & H4);
        rewrite ?map_length; auto.
      rewrite nth_error_map in H2, H3, H4. destruct (nth_error qs i) as [[[e0 x0] w0]|] eqn:Eq; [|discriminate].
      cbn in H2, H3, H4. injection H2 as ->. injection H3 as ->. injection H4 as ->.
      unfold mask, err, clip_err in H1. rewrite !nth_error_map, Eq in H1. cbn in H1. injection H1 as H1.
      apply clip_lt in H1.
      destruct (Hq e a b (nth_error_In _ _ Eq)) as (y & Hy & Ey & _).
      destruct (Hr e a y Hy) as (cs & Hcs & Hin & -> & _).
      assert (Hpk : In a (f_peaks f)). { rewrite <- Em. change a with (q_x (nabs (ev a -' y), a, y)). apply in_map; auto. }
      rewrite Ed, build_dict_get in Hcs; auto; [|rewrite <- Ep; auto].
      injection Hcs as <-. apply masked_pair in Hin; auto. destruct Hin as (a' & Hab & Ea).
      exists a', y. auto. }
    assert (Mt : matching (f_x f) (f_y f) xs ys).
    { split; auto. split; auto. split; auto. intros k a b Ha Hb.
      destruct (In_ k a b Ha Hb) as (a' & b' & H1 & H2 & H3 & _). exists a', b'. auto. }
    destruct (Nat.leb_spec (length xs) (f_deg f)) as [|Ldeg]; auto.
    destruct (robust_polyfit (o_ls o) xs ys (f_deg f) None) as [co|e] eqn:Erob.
    2:{ destruct e; auto. }
    set (resid := robust_residual (f_kind f) (f_tol f) co xs ys).
    destruct (rms_of resid <' f_minerr f) eqn:E1; auto.
    destruct (nnat (length xs) <' f_minmatch f) eqn:E2; auto.
    destruct (nnat (length xs) <' f_minutil f *' nnat (f_npeaks f)) eqn:E3; auto.
    rewrite !np_unique_different_length by auto. rewrite !Nat.eqb_refl, Lx, Nat.eqb_refl. cbn [andb].
    right. split; [|cbn; auto]. exists co. split; auto. apply orb_false_iff in Eint.
    constructor; cbn; auto; try (rewrite <- Lx; auto).
    exists (c0 :: tf'), xh, yh, xs, ys, w. cbn. repeat (split; [solve [intuition]|]).
    eexists _, _, _. split; [exact Er|reflexivity].
  Qed.

  Lemma trial_inv f s0 s xh yh :
    cfg_ok f -> In (xh, yh) (s_log s) -> ransac_inv f s0 s ->
    match trial o f s xh yh with
    | TContinue => True
    | TNext s' | TRaise s' _ => ransac_inv f s0 s'
    end.
  Proof.
    intros Hf Hl Hi. pose proof (trial_accepts f s xh yh Hf Hl) as H.
    destruct (trial o f s xh yh); auto; [destruct H as [->|(H & _)]; auto; right; auto|subst; auto].
  Qed.

  Lemma try_sample_inv f s0 fuel : cfg_ok f -> forall s sample,
    ransac_inv f s0 s ->
    match try_sample o fuel f s sample with Done s' | Fail s' _ | Out s' => ransac_inv f s0 s' end.
  Proof.
    intros Hf. induction fuel as [|n IH]; intros s sample Hi; cbn [try_sample]; auto.
    destruct (draw o n f (s_rng s) sample) as [|t|e|t xh0 yh0]; auto; [apply inv_rng; auto|].
    destruct (add_known f xh0 yh0) as [xh yh].
    set (s1 := log_fit (xh, yh) (set_rng t s)).
    assert (H1 : ransac_inv f s0 s1) by (apply inv_log; auto).
    assert (Hl : In (xh, yh) (s_log s1)) by (left; auto).
    pose proof (trial_inv f s0 s1 xh yh Hf Hl H1) as H.
    destruct (trial o f s1 xh yh); [apply IH; auto|auto|auto].
  Qed.

  Lemma run_samples_inv f s0 fuel samples : cfg_ok f -> forall s,
    ransac_inv f s0 s ->
    match run_samples o fuel f s samples with Done s' | Fail s' _ | Out s' => ransac_inv f s0 s' end.
  Proof.
    intros Hf. induction samples as [|smp r IH]; intros s Hi; cbn [run_samples]; auto.
    pose proof (try_sample_inv f s0 fuel Hf s smp Hi) as H.
    destruct (try_sample o fuel f s smp); [apply IH; auto|auto|auto].
  Qed.
End Trial.

Lemma bind_Ok {T U} (r : res T) (k : T -> res U) v :
  bind r k = Ok v -> exists t, r = Ok t /\ k t = Ok v.
Proof. destruct r; cbn; [eauto|discriminate]. Qed.

Lemma need_Ok {T} (v : option T) x : need v = Ok x -> v = Some x.
Proof. destruct v; cbn; congruence. Qed.

Section Solve.
  Context {A : Type} {N : Num A} {O : NumOrder A}.
  Variable o : oracle A.
  Hypothesis Hargsort : forall l, is_argsort l (o_argsort o l).

  Lemma ransac_candidates_length c ctol q :
    ransac_candidates o c ctol = Ok q -> length (fst q) = length (snd q).
  Proof.
    unfold ransac_candidates. intros H.
    apply bind_Ok in H. destruct H as (linear & _ & H).
    apply bind_Ok in H. destruct H as (top & _ & H).
    apply bind_Ok in H. destruct H as (weighted & _ & H).
    apply bind_Ok in H. destruct H as (cs & _ & H). injection H as <-.
    rewrite most_common_blocks by auto. cbn [fst snd].
    induction (np_unique (map row_x (concat cs))) as [|p r IH]; auto.
    cbn [flat_map]. rewrite !app_length, repeat_length, IH. reflexivity.
  Qed.

  Lemma filter_close_length tol (x y : list A) : length x = length y ->
    length (fst (filter_close tol x y)) = length (snd (filter_close tol x y)).
  Proof.
    intros L. unfold filter_close. cbn [fst snd]. rewrite !mask_select_length by (rewrite map_length; auto).
    reflexivity.
  Qed.

  Lemma ransac_xy_length c ctol x y : ransac_xy o c ctol = Ok (x, y) -> length x = length y.
  Proof.
    unfold ransac_xy. intros H.
    apply bind_Ok in H. destruct H as (q & Hq & H).
    apply bind_Ok in H. destruct H as (close & _ & H).
    apply bind_Ok in H. destruct H as (tol & _ & H). apply ransac_candidates_length in Hq.
    destruct close.
    - pose proof (filter_close_length tol _ _ Hq) as L. assert (E : filter_close tol (fst q) (snd q) = (x, y)) by congruence. rewrite E in L. exact L.
    - injection H as ->. exact Hq.
  Qed.

  Lemma ransac_setup_Ok c x y deg size max_tries coeff brute f samples s0 :
    ransac_setup o c x y deg size max_tries coeff brute = Ok (f, samples, s0) ->
    c_kind c = Some (f_kind f) /\ f_deg f = deg /\ f_x f = x /\ f_y f = y /\
    f_peaks f = np_unique x /\ f_dict f = build_dict x y /\ r_tol (c_rp c) = Some (f_tol f) /\
    h_min_intercept (c_hp c) = Some (f_ilo f) /\ h_max_intercept (c_hp c) = Some (f_ihi f) /\
    g_pixels (c_gp c) = Some (f_pixels f) /\ f_hw f = r_hweight (c_rp c) /\
    make_spline o (c_ht c) (r_hweight (c_rp c)) = Ok (f_spline f) /\
    r_fit_error (c_rp c) = Some (f_minerr f) /\ r_matches (c_rp c) = Some (f_minmatch f) /\
    r_util (c_rp c) = Some (f_minutil f) /\ f_npeaks f = length (c_peaks c) /\
    f_known f = c_known c /\ f_brute f = brute /\
    f_size f = (if brute || Nat.leb (length (np_unique x)) size then length (np_unique x) else size) /\
    samples = (if brute || Nat.leb (length (np_unique x)) size then combinations (seq 0 (length x)) size
               else map (fun i => [i]) (seq 0 max_tries)) /\
    (brute = false -> sampling_prob (np_unique x) = Ok (f_prob f)) /\
    s_p s0 = None /\ s_inl s0 = 0%nat /\ s_log s0 = [] /\ s_mp s0 = c_mpeaks c /\ s_ma s0 = c_matlas c /\
    match coeff with
    | None => s_cost s0 = nlit 1 50
    | Some co => exists err mx my,
        match_bijective (fun p => eval_kind (f_kind f) p co) (build_dict x y) (np_unique x) = Ok (err, mx, my) /\
        s_cost s0 = np_sum err
    end.
  Proof.
    unfold ransac_setup. intros H.
    apply bind_Ok in H. destruct H as (sp & Hsp & H).
    apply bind_Ok in H. destruct H as (k & Hk & H). apply need_Ok in Hk.
    apply bind_Ok in H. destruct H as (best & Hb & H).
    apply bind_Ok in H. destruct H as (prob & Hp & H).
    apply bind_Ok in H. destruct H as (tol & Ht & H). apply need_Ok in Ht.
    apply bind_Ok in H. destruct H as (ilo & Hi & H). apply need_Ok in Hi.
    apply bind_Ok in H. destruct H as (ihi & Hj & H). apply need_Ok in Hj.
    apply bind_Ok in H. destruct H as (pix & Hx & H). apply need_Ok in Hx.
    apply bind_Ok in H. destruct H as (me & Hme & H). apply need_Ok in Hme.
    apply bind_Ok in H. destruct H as (mm & Hmm & H). apply need_Ok in Hmm.
    apply bind_Ok in H. destruct H as (mu & Hmu & H). apply need_Ok in Hmu.
    assert (E : forall T (u v : T), Ok u = Ok v -> u = v) by (intros; congruence).
    apply E in H. clear E.
    pose proof (f_equal (fun q => fst (fst q)) H) as Hf. pose proof (f_equal (fun q => snd (fst q)) H) as Hs.
    pose proof (f_equal snd H) as H0. cbn [fst snd] in Hf, Hs, H0. clear H. subst f samples s0.
    cbn [f_kind f_deg f_x f_y f_peaks f_dict f_tol f_ilo f_ihi f_pixels f_hw f_spline f_minerr f_minmatch
         f_minutil f_npeaks f_known f_brute f_size f_prob s_p s_cost s_inl s_log s_mp s_ma].
    repeat split; auto.
    - intros ->. exact Hp.
    - destruct coeff as [co|]; [|injection Hb as <-; reflexivity].
      apply bind_Ok in Hb. destruct Hb as ([[err mx] my] & Hm & Hb). exists err, mx, my.
      split; auto. injection Hb as <-. reflexivity.
  Qed.

  (** A search that returns a solution. *)
  Lemma solve_ransac_inv fuel c deg max_tries coeff ctol brute c' r :
    solve_ransac o fuel c deg max_tries coeff ctol brute = Some (c', Ok r) -> 
    (rr_p r = None /\ rr_inl r = 0%nat /\ c_mpeaks c' = c_mpeaks c /\ c_matlas c' = c_matlas c) \/
    exists x y size f samples s0 s,
      ransac_xy o c ctol = Ok (x, y) /\ r_sample (c_rp c) = Some size /\
      (deg < length (np_unique x))%nat /\
      ransac_setup o (set_c_deg (Some deg) c) x y deg size max_tries coeff brute = Ok (f, samples, s0) /\
      run_samples o fuel f s0 samples = Done s /\
      c_mpeaks c' = s_mp s /\ c_matlas c' = s_ma s /\
      rr_p r = s_p s /\ rr_err r = s_err s /\ rr_resid r = s_resid s /\ rr_inl r = s_inl s /\
      rr_valid r = negb (Nat.leb (s_inl s) (deg + 1)) /\
      (no_nan x -> no_nan y -> cfg_ok f /\ ransac_inv o f s0 s).
  Proof.
    unfold solve_ransac. intros H.
    destruct (ransac_candidates o c ctol) as [q|e]; [|discriminate].
    change (ransac_xy o (set_c_deg (Some deg) c) ctol) with (ransac_xy o c ctol) in H.
    destruct (ransac_xy o c ctol) as [[x y]|e] eqn:Exy; [|discriminate].
    destruct (Nat.leb_spec (length (np_unique x)) deg) as [L|L].
    { left. injection H as <- <-. cbn. auto. }
    right. change (r_sample (c_rp (set_c_deg (Some deg) c))) with (r_sample (c_rp c)) in H.
    destruct (r_sample (c_rp c)) as [size|] eqn:Es; [|discriminate].
    destruct (ransac_setup o (set_c_deg (Some deg) c) x y deg size max_tries coeff brute)
      as [[[f samples] s0]|e] eqn:Eset; [|discriminate].
    destruct (run_samples o fuel f s0 samples) as [s|s e|s] eqn:Erun; [|discriminate|discriminate].
    exists x, y, size, f, samples, s0, s.
    assert (Hr : ransac_result deg s = Ok r) by congruence.
    assert (Hc : c' = set_c_matlas (s_ma s) (set_c_mpeaks (s_mp s)
               (if brute || Nat.leb (length (np_unique x)) size
                then set_sample (length (np_unique x)) (set_c_deg (Some deg) c) else set_c_deg (Some deg) c)))
      by congruence.
    unfold ransac_result in Hr.
    destruct (mseq_len (s_mp s)); [|discriminate]. destruct (mseq_len (s_ma s)); [|discriminate].
    match type of Hr with (if ?b then _ else _) = _ => destruct b end; [|discriminate].
    injection Hr as <-. rewrite Hc. cbn [rr_p rr_err rr_resid rr_inl rr_valid].
    pose proof (ransac_setup_Ok _ _ _ _ _ _ _ _ _ _ _ Eset) as
      (_ & _ & Fx & Fy & Fp & Fd & _).
    split; auto. split; auto. split; auto. split; auto. split; auto.
    split; [destruct (_ || _); reflexivity|]. split; [destruct (_ || _); reflexivity|].
    split; auto. split; auto. split; auto. split; auto. split; auto.
    intros Nx Ny.
    assert (Hf : cfg_ok f).
    { unfold cfg_ok. rewrite Fx, Fy. split; [eapply ransac_xy_length; eauto|]. auto. }
    split; auto.
    pose proof (run_samples_inv o f s0 fuel samples Hf s0) as K. rewrite Erun in K. apply K.
    left. repeat split; auto.
  Qed.
End Solve.

Section Cost.
  Context {A : Type} {N : Num A} {O : NumOrder A}.
  Variable o : oracle A.

  Lemma consider_cost f s cost err mx my :
    match consider o f s cost err mx my with
    | TContinue => True
    | TNext s' => s_cost s' = cost /\ s_log s' = s_log s
    | TRaise s' _ => (s' = s \/ s_cost s' = cost) /\ s_log s' = s_log s
    end.
  Proof.
    unfold consider. repeat match goal with
    | |- context[if ?b then _ else _] => destruct b
    | |- match match ?r with _ => _ end with _ => _ end => destruct r as [?|[]]
    end; cbn; auto.
  Qed.

  Lemma trial_cost_le f s xh yh :
    match trial o f s xh yh with
    | TContinue => True
    | TNext s' | TRaise s' _ => (s_cost s' = s_cost s \/ s_cost s' <=' s_cost s = true) /\ s_log s' = s_log s
    end.
  Proof.
    unfold trial.
    destruct (o_polyfit o (f_kind f) xh yh (f_deg f)) as [[|c0 tf]|e]; auto.
    destruct (f_peaks f) as [|p0 pr]; auto.
    match goal with |- context[if ?b then TContinue else _] => destruct b end; auto.
    match goal with |- context[match np_ptp ?v with _ => _ end] => destruct (np_ptp v) end; auto.
    match goal with |- context[match nceil ?v with _ => _ end] => destruct (nceil v) end; auto.
    match goal with |- context[if ?b then TContinue else _] => destruct b end; auto.
    match goal with |- context[match match_bijective ?a ?b ?c with _ => _ end] =>
      destruct (match_bijective a b c) as [[[err mx] my]|] end; auto.
    match goal with |- context[if ?b then TContinue else _] => destruct b end; auto.
    destruct (hough_bonus f (c0 :: tf)) as [w|]; auto.
    match goal with |- context[if ?b then consider _ _ _ ?c _ _ _ else _] => destruct b eqn:E; [|auto];
       pose proof (consider_cost f s c (clip_err (f_tol f) err) mx my) as H end.
    destruct (consider _ _ _ _ _ _ _); auto.
    - destruct H as [-> H]. auto.
    - destruct H as [[->| ->] H]; auto.
  Qed.

  Lemma try_sample_cost f fuel : forall s sample, nisnan (s_cost s) = false ->
    match try_sample o fuel f s sample with
    | Done s' | Fail s' _ | Out s' =>
        s_cost s' <=' s_cost s = true /\ exists l, s_log s' = l ++ s_log s
    end.
  Proof.
    induction fuel as [|n IH]; intros s sample Hn; cbn [try_sample].
    { split; [apply leb_refl; auto|]. exists []; auto. }
    destruct (draw o n f (s_rng s) sample) as [|t|e|t xh0 yh0]; try (split; [apply leb_refl; auto|]; exists []; auto).
    destruct (add_known f xh0 yh0) as [xh yh]. set (s1 := log_fit (xh, yh) (set_rng t s)).
    pose proof (trial_cost_le f s1 xh yh) as H.
    destruct (trial o f s1 xh yh) as [|s'|s' e].
    - specialize (IH s1 sample Hn). destruct (try_sample o n f s1 sample); destruct IH as [I1 (l & I2)];
        (split; [exact I1|]; exists (l ++ [(xh, yh)]); rewrite <- app_assoc; exact I2).
    - destruct H as [H1 H2]. split; [|exists [(xh, yh)]; exact H2].
      destruct H1 as [->|H1]; [apply leb_refl; exact Hn|exact H1].
    - destruct H as [H1 H2]. split; [|exists [(xh, yh)]; exact H2].
      destruct H1 as [->|H1]; [apply leb_refl; exact Hn|exact H1].
  Qed.

  Lemma run_samples_cost f fuel samples : forall s, nisnan (s_cost s) = false ->
    match run_samples o fuel f s samples with
    | Done s' | Fail s' _ | Out s' =>
        s_cost s' <=' s_cost s = true /\ exists l, s_log s' = l ++ s_log s
    end.
  Proof.
    induction samples as [|smp r IH]; intros s Hn; cbn [run_samples].
    { split; [apply leb_refl; auto|]. exists []; auto. }
    pose proof (try_sample_cost f fuel s smp Hn) as H.
    destruct (try_sample o fuel f s smp) as [s1|s1 e|s1]; auto.
    destruct H as [H1 (l1 & H2)]. assert (Hn1 : nisnan (s_cost s1) = false) by (apply leb_nan in H1; tauto).
    specialize (IH s1 Hn1). destruct (run_samples o fuel f s1 r); destruct IH as [I1 (l & I2)];
      (split; [eapply leb_trans; eauto|]; exists (l ++ l1); rewrite <- app_assoc, <- H2; exact I2).
  Qed.

  Lemma run_samples_app f fuel l1 l2 s :
    run_samples o fuel f s (l1 ++ l2) =
    match run_samples o fuel f s l1 with Done s1 => run_samples o fuel f s1 l2 | out => out end.
  Proof.
    revert s. induction l1 as [|smp r IH]; intros s; cbn [app run_samples]; auto.
    destruct (try_sample o fuel f s smp); auto.
  Qed.

  Lemma last_cons_default {T} (l : list T) a d d' : last (a :: l) d = last (a :: l) d'.
  Proof. revert a. induction l as [|b l IH]; intros a; auto. change (last (b :: l) d = last (b :: l) d'). auto. Qed.

  Lemma each_above_positive (l : list A) : all_positive (np_diff l) = true <-> each_above l.
  Proof.
    unfold each_above. induction l as [|x r IH]; [split; [intros _ [|k]; discriminate|reflexivity]|].
    destruct r as [|y r]; [split; [intros _ [|[|k]]; discriminate|reflexivity]|].
    change (all_positive (np_diff (x :: y :: r))) with ((nZ 0 <' (y -' x)) && all_positive (np_diff (y :: r))).
    rewrite andb_true_iff, IH. split.
    - intros (H1 & H2) [|k] u v Hu Hv; [cbn in Hu, Hv; congruence|]. exact (H2 k u v Hu Hv).
    - intros H. split; [apply (H 0%nat); reflexivity|]. intros k u v Hu Hv. exact (H (S k) u v Hu Hv).
  Qed.

  Lemma good_trial_stored f s d cost :
    good_trial o f d cost -> f_peaks f <> [] ->
    match trial o f s (fst d) (snd d) with
    | TContinue => cost <=' s_cost s = false /\ False
    | TNext s' => cost <=' s_cost s = false \/ s_cost s' = cost
    | TRaise s' _ => s_cost s' = cost
    end.
  Proof.
    intros (xs & ys & co & tf & w & err & mx & my & width & H1 & H2 & H3 & H4 & H5 & [H6 H7] & H8 & H9 & H10 & H11 & H12 & H13 & H14 & H15 & H16 & H17) Hp.
    apply each_above_positive in H7.
    unfold trial. rewrite H1. destruct tf as [|c0 tf]; [congruence|]. cbn [hd] in *.
    destruct (f_peaks f) as [|p0 pr] eqn:Ep; [congruence|]. cbn [hd] in *.
    rewrite H3, H4. cbn [orb]. rewrite H5.
    rewrite (last_cons_default pr p0 p0 (nZ 0)).
    destruct (nceil _) eqn:En; [|congruence]. rewrite H7. cbn [negb]. rewrite H8.
    destruct (Nat.eqb_spec (length mx) 0) as [E|_].
    { exfalso. apply length_zero_iff_nil in E. rewrite E, mask_select_nil_r in H11. rewrite H11 in H13. cbn in H13. lia. }
    assert (E10 : cost = trial_cost (clip_err (f_tol f) err) (c0 :: tf) w).
    { unfold trial_cost, clip_err. rewrite map_length. exact H10. }
    change (map (fun e => if f_tol f <' e then f_tol f else e) err) with (clip_err (f_tol f) err) in H11, H12.
    match type of H15 with (?v <' _) = _ =>
      change v with (rms_of (robust_residual (f_kind f) (f_tol f) co xs ys)) in H15 end.
    rewrite H9, <- E10. destruct (cost <=' s_cost s) eqn:Ec; [|auto].
    unfold consider. rewrite <- H11, <- H12.
    destruct (Nat.leb_spec (length xs) (f_deg f)); [lia|]. rewrite H14, H15, H16, H17.
    destruct (_ && _); cbn; auto.
  Qed.

  (** After a search, no good trial was cheaper than the stored cost. *)
  Definition best_of_log (f : cfg A) (s : rstate A) : Prop :=
    forall d cost, In d (s_log s) -> good_trial o f d cost -> cost <' s_cost s = false.

  Lemma le_lt_false (a b c : A) : a <' b = false -> c <=' b = true -> a <' c = false.
  Proof.
    intros H1 H2. destruct (a <' c) eqn:E; auto. rewrite (ltb_leb_trans _ _ _ E H2) in H1. discriminate.
  Qed.

  Lemma trial_best f s xh yh : f_peaks f <> [] ->
    (forall d cost, In d (tl (s_log s)) -> good_trial o f d cost -> cost <' s_cost s = false) ->
    hd_error (s_log s) = Some (xh, yh) ->
    match trial o f s xh yh with
    | TContinue => best_of_log f s
    | TNext s' | TRaise s' _ => best_of_log f s'
    end.
  Proof.
    intros Hp Hb Hh. destruct (s_log s) as [|d0 lg] eqn:El; [discriminate|]. injection Hh as ->.
    pose proof (trial_cost_le f s xh yh) as C. pose proof (fun cost H => good_trial_stored f s (xh, yh) cost H Hp) as G.
    cbn [fst snd] in G. cbn [tl] in Hb.
    destruct (trial o f s xh yh) as [|s'|s' e]; unfold best_of_log.
    - rewrite El. intros d cost [<-|Hd] Hg; [destruct (G cost Hg) as [_ []]|exact (Hb d cost Hd Hg)].
    - destruct C as [C1 C2]. rewrite C2, El. intros d cost [<-|Hd] Hg.
      + destruct (G cost Hg) as [G1| ->]; [|apply ltb_irrefl].
        destruct (cost <' s_cost s') eqn:E; auto. apply ltb_leb_weak in E.
        destruct C1 as [C1|C1]; [rewrite C1 in E; congruence|]. rewrite (leb_trans _ _ _ E C1) in G1. congruence.
      + specialize (Hb d cost Hd Hg). destruct C1 as [->|C1]; auto. eapply le_lt_false; eauto.
    - destruct C as [C1 C2]. rewrite C2, El. intros d cost [<-|Hd] Hg.
      + rewrite <- (G cost Hg). apply ltb_irrefl.
      + specialize (Hb d cost Hd Hg). destruct C1 as [->|C1]; auto. eapply le_lt_false; eauto.
  Qed.

  Lemma try_sample_best f fuel : f_peaks f <> [] -> forall s sample, best_of_log f s ->
    match try_sample o fuel f s sample with Done s' | Fail s' _ | Out s' => best_of_log f s' end.
  Proof.
    intros Hp. induction fuel as [|n IH]; intros s sample Hb; cbn [try_sample]; auto.
    destruct (draw o n f (s_rng s) sample) as [|t|e|t xh0 yh0]; auto.
    destruct (add_known f xh0 yh0) as [xh yh]. set (s1 := log_fit (xh, yh) (set_rng t s)).
    pose proof (trial_best f s1 xh yh Hp Hb eq_refl) as H.
    destruct (trial o f s1 xh yh); auto. apply IH; auto.
  Qed.

  Lemma run_samples_best f fuel samples : f_peaks f <> [] -> forall s, best_of_log f s ->
    match run_samples o fuel f s samples with Done s' | Fail s' _ | Out s' => best_of_log f s' end.
  Proof.
    intros Hp. induction samples as [|smp r IH]; intros s Hb; cbn [run_samples]; auto.
    pose proof (try_sample_best f fuel Hp s smp Hb) as H.
    destruct (try_sample o fuel f s smp); auto. apply IH; auto.
  Qed.
End Cost.

Section Log.
  Context {A : Type} {N : Num A} {O : NumOrder A}.
  Variable o : oracle A.

  Lemma existsb_eq_false (seen : list A) y :
    existsb (fun v => v ==' y) seen = false <-> forall v, In v seen -> v ==' y = false.
  Proof.
    induction seen as [|v r IH]; cbn; [intuition|]. rewrite orb_false_iff, IH. intuition; subst; auto.
  Qed.

  Lemma pick_new_spec fuel t choices seen y t' :
    pick_new o fuel t choices seen = Some (y, t') ->
    (exists u, y = o_pick o u choices) /\ forall v, In v seen -> v ==' y = false.
  Proof.
    revert t. induction fuel as [|n IH]; intros t; cbn; [discriminate|].
    destruct (existsb _ seen) eqn:E; [apply IH|]. intros H. injection H as <- <-. split; [eauto|].
    apply existsb_eq_false; auto.
  Qed.

  Lemma draw_ys_spec f fuel :
    (forall t l, l <> [] -> In (o_pick o t l) l) ->
    forall xs pre t xh seen t' ys,
    length pre = length seen -> xh = pre ++ xs ->
    Forall2 (fun x y => exists c, dict_get (f_dict f) x = Ok c /\ In y c) pre seen ->
    pairwise_different seen ->
    draw_ys o fuel f t xh xs seen = DOk t' xh ys ->
    Forall2 (fun x y => exists c, dict_get (f_dict f) x = Ok c /\ In y c) xh ys /\ pairwise_different ys.
  Proof.
    intros Hpick. induction xs as [|x r IH]; intros pre t xh seen t' ys L E F S H; cbn [draw_ys] in H.
    - injection H as -> <-. rewrite E, app_nil_r. auto.
    - destruct (dict_get (f_dict f) x) as [ch|] eqn:Ed; [|discriminate].
      destruct (forallb _ ch) eqn:Ef; [discriminate|].
      destruct (pick_new o fuel t ch seen) as [[y u]|] eqn:Ep; [|discriminate].
      apply pick_new_spec in Ep. destruct Ep as [(v & Ev) Hs].
      assert (Hc : ch <> []) by (intros ->; discriminate Ef).
      apply (IH (pre ++ [x]) u xh (seen ++ [y]) t' ys); auto.
      + rewrite !app_length; cbn; lia.
      + rewrite <- app_assoc. exact E.
      + apply Forall2_app; auto. constructor; [|constructor]. exists ch. split; auto. rewrite Ev. auto.
      + unfold pairwise_different. apply SS_app. split; auto. split; [repeat constructor|].
        intros a b Ha [<-|[]]. auto.
  Qed.

  Lemma draw_ys_xh f fuel xs : forall t xh seen t' xh' ys,
    draw_ys o fuel f t xh xs seen = DOk t' xh' ys -> xh' = xh.
  Proof.
    induction xs as [|x r IH]; intros t xh seen t' xh' ys; cbn [draw_ys]; [congruence|].
    destruct (dict_get (f_dict f) x); [|discriminate]. destruct (forallb _ _); [discriminate|].
    destruct (pick_new _ _ _ _ _) as [[y u]|]; [|discriminate]. apply IH.
  Qed.

  (** The data of a trial fit: a drawn sample, then the known pairs. *)
  Definition fit_data (f : cfg A) (samples : list (list nat)) (d : list A * list A) : Prop :=
    exists xs ys,
      d = match f_known f with Some (kx, ky) => (xs ++ kx, ys ++ ky) | None => (xs, ys) end /\
      if f_brute f
      then exists smp, In smp samples /\ xs = gather (f_x f) smp /\ ys = gather (f_y f) smp
      else (exists t, xs = o_sample o t (f_peaks f) (f_size f) (f_prob f)) /\
           Forall2 (fun x y => exists c, dict_get (f_dict f) x = Ok c /\ In y c) xs ys /\
           pairwise_different ys.

  Lemma draw_data f n t smp t' xh yh samples :
    (forall t l, l <> [] -> In (o_pick o t l) l) -> In smp samples ->
    draw o n f t smp = DOk t' xh yh -> fit_data f samples (add_known f xh yh).
  Proof.
    intros Hpick Hs H. exists xh, yh. split; [unfold add_known; destruct (f_known f) as [[kx ky]|]; auto|].
    unfold draw in H. destruct (f_brute f).
    - destruct (o_np123 o); [discriminate|]. injection H as <- <- <-. eauto.
    - destruct (_ || _); [discriminate|].
      pose proof (draw_ys_xh _ _ _ _ _ _ _ _ _ H) as ->. split; [eauto|].
      eapply (draw_ys_spec f n Hpick _ [] _ _ []); eauto; constructor.
  Qed.

  Lemma try_sample_log f fuel samples :
    (forall t l, l <> [] -> In (o_pick o t l) l) ->
    forall s smp, In smp samples -> Forall (fit_data f samples) (s_log s) ->
    match try_sample o fuel f s smp with Done s' | Fail s' _ | Out s' => Forall (fit_data f samples) (s_log s') end.
  Proof.
    intros Hpick. induction fuel as [|n IH]; intros s smp Hs Hl; cbn [try_sample]; auto.
    destruct (draw o n f (s_rng s) smp) as [|t|e|t xh0 yh0] eqn:Ed; auto.
    pose proof (draw_data _ _ _ _ _ _ _ samples Hpick Hs Ed) as Hd.
    destruct (add_known f xh0 yh0) as [xh yh]. set (s1 := log_fit (xh, yh) (set_rng t s)).
    assert (H1 : Forall (fit_data f samples) (s_log s1)) by (constructor; auto).
    pose proof (trial_cost_le o f s1 xh yh) as C.
    destruct (trial o f s1 xh yh); [apply IH; auto|destruct C as [_ ->]; auto|destruct C as [_ ->]; auto].
  Qed.

  Lemma run_samples_log f fuel samples :
    (forall t l, l <> [] -> In (o_pick o t l) l) ->
    forall todo s, incl todo samples -> Forall (fit_data f samples) (s_log s) ->
    match run_samples o fuel f s todo with Done s' | Fail s' _ | Out s' => Forall (fit_data f samples) (s_log s') end.
  Proof.
    intros Hpick. induction todo as [|smp r IH]; intros s Hi Hl; cbn [run_samples]; auto.
    pose proof (try_sample_log f fuel samples Hpick s smp (Hi smp (or_introl eq_refl)) Hl) as H.
    destruct (try_sample o fuel f s smp); auto. apply IH; auto. intros z Hz. apply Hi. right; auto.
  Qed.
End Log.

(** * Main_Calib: the properties of the configuration of a Calibrator with their
    proofs.  The statements are repeated, without proofs, in Props_Calib.v. *)

From Coq Require Import ZArith Bool List String Lia Reals Lra.
From Verif Require Import Num F64 XReal Py Np NpFacts ArgsortFacts Util Atlas Hough SpecHough HoughFacts Calib SpecCalib CalibFacts.
From Verif Require Main_Hough.
Import ListNotations.
Local Open Scope num_scope.

(** A hull test that accepts everything, for the examples. *)
Definition all_inside {A} : hull_test A := fun _ pts => Ok (map (fun _ => true) pts).
Definition env0 : env f64 := mkEnv argsort_stable (mkCatalogue [] (fun _ => None)) all_inside.

(** C42: set_hough_properties / set_ransac_properties (and any other calls in
    between, none of which raises). *)
Lemma properties_last_given_main :
  forall (A : Type) (N : Num A) (e : env A) peaks spectrum c0 h,
    calib_init (e_hull e) peaks spectrum = Ok c0 -> cal_ok e c0 h ->
    let c := cal_run e c0 h in
    (h_num_slopes (c_hp c) =
       Some (given_or (hough_arg (fun a => match ha_num_slopes a with Some v => ntrunc v | None => None end)) h 2000%Z) /\
     h_xbins (c_hp c) = Some (given_or (hough_arg ha_xbins) h 100%nat) /\
     h_ybins (c_hp c) = Some (given_or (hough_arg ha_ybins) h 100%nat) /\
     h_minw (c_hp c) = Some (given_or (hough_arg ha_minw) h (nZ 3000)) /\
     h_maxw (c_hp c) = Some (given_or (hough_arg ha_maxw) h (nZ 9000)) /\
     h_rt (c_hp c) = Some (given_or (hough_arg ha_rt) h (nZ 500)) /\
     h_lt (c_hp c) = Some (given_or (hough_arg ha_lt) h (nZ 100))) /\
    (r_sample (c_rp c) = Some (given_or (ransac_arg ra_sample) h 5%nat) /\
     r_top (c_rp c) = Some (given_or (ransac_arg ra_top) h 5%nat) /\
     r_linear (c_rp c) = Some (given_or (ransac_arg ra_linear) h true) /\
     r_close (c_rp c) = Some (given_or (ransac_arg ra_close) h false) /\
     r_tol (c_rp c) = Some (given_or (ransac_arg ra_tol) h (nZ 5)) /\
     r_weighted (c_rp c) = Some (given_or (ransac_arg ra_weighted) h true) /\
     r_hweight (c_rp c) = Some (given_or (ransac_arg ra_hweight) h (nZ 1)) /\
     r_matches (c_rp c) = Some (given_or (ransac_arg ra_matches) h (nZ 0)) /\
     r_util (c_rp c) = Some (given_or (ransac_arg ra_util) h (nZ 0)) /\
     r_fit_error (c_rp c) = Some (given_or (ransac_arg ra_fit_error) h (nlit 1 (-4)))).
Proof.
  intros A N e peaks spectrum c0 h H0 Hok.
  pose proof (init_rp _ _ _ _ H0) as HR.
  destruct (init_hp _ _ _ _ H0) as [ptp HH].
  assert (KH : forall T (f : hprops A -> option T) (g : hough_args A -> option T) v0,
     f (c_hp c0) = Some v0 ->
     (forall c a, f (c_hp c) <> None -> snd (set_hough_properties (e_hull e) c a) = Ok tt ->
        f (c_hp (fst (set_hough_properties (e_hull e) c a))) =
        match g a with Some v => Some v | None => f (c_hp c) end) ->
     f (c_hp (cal_run e c0 h)) = Some (given_or (hough_arg g) h v0)).
  { intros T f g v0 E0 Hs.
    apply (last_given_field e (fun c => f (c_hp c)) (hough_arg g)); auto.
    intros c o Hn Hr. destruct o; cbn [hough_arg];
      try (rewrite step_hp by discriminate; reflexivity).
    cbn [cal_step] in *. apply Hs; auto. }
  assert (KR : forall T (f : rprops A -> option T) (g : ransac_args A -> option T) v0,
     f (c_rp c0) = Some v0 ->
     (forall c a, f (c_rp c) <> None -> snd (set_ransac_properties c a) = Ok tt ->
        f (c_rp (fst (set_ransac_properties c a))) =
        match g a with Some v => Some v | None => f (c_rp c) end) ->
     f (c_rp (cal_run e c0 h)) = Some (given_or (ransac_arg g) h v0)).
  { intros T f g v0 E0 Hs.
    apply (last_given_field e (fun c => f (c_rp c)) (ransac_arg g)); auto.
    intros c o Hn Hr. destruct o; cbn [ransac_arg];
      try (rewrite step_rp by discriminate; reflexivity).
    cbn [cal_step] in *. apply Hs; auto. }
  cbv zeta. split.
  - repeat match goal with |- _ /\ _ => split end; apply KH; try (rewrite HH; reflexivity);
      intros c a Hn Hr; apply set_hough_hp in Hr;
      destruct Hr as (px & pt & ns & _ & _ & Hns & ->);
      cbn [h_num_slopes h_xbins h_ybins h_minw h_maxw h_rt h_lt];
      try (unfold keep;
           match goal with |- match ?x with _ => _ end = _ => destruct x; [reflexivity|] end;
           match goal with |- match ?x with _ => _ end = _ => destruct x; [reflexivity|congruence] end).
    destruct (ha_num_slopes a) as [v|].
    + destruct Hns as (z & E & ->). rewrite E. reflexivity.
    + rewrite Hns. unfold keep. destruct (h_num_slopes (c_hp c)); congruence.
  - repeat match goal with |- _ /\ _ => split end; apply KR; try (rewrite HR; reflexivity);
      intros c a Hn Hr; rewrite (set_ransac_rp c a Hr); cbn;
      unfold keep;
      match goal with |- match ?x with _ => _ end = _ => destruct x; [reflexivity|] end;
      match goal with |- match ?x with _ => _ end = _ => destruct x; [reflexivity|congruence] end.
Qed.

(** Non-vacuity of C42: a history that sets xbins twice. *)
Example properties_last_given_example_main :
  exists c0, calib_init all_inside [fz 10; fz 20] None = Ok c0 /\
    let h := [OHough (mkHA (Some (fz 1000)) (Some 10%nat) None None None None None);
              ORansac (mkRA (Some 7%nat) None None None None None None None None None);
              OHough (mkHA None (Some 20%nat) None (Some (fz 4000)) None None None);
              OHough (mkHA None None None None None None None)] in
    cal_ok env0 c0 h /\
    h_xbins (c_hp (cal_run env0 c0 h)) = Some 20%nat /\
    h_num_slopes (c_hp (cal_run env0 c0 h)) = Some 1000%Z.
Proof.
  eexists. split; [vm_compute; reflexivity|]. cbv zeta. split; [|split; vm_compute; reflexivity].
  vm_compute. repeat split.
Qed.

(** The three validated properties, for any Num. *)
Lemma ransac_valid_gen (A : Type) (N : Num A) (e : env A) peaks spectrum c0 h :
  calib_init (e_hull e) peaks spectrum = Ok c0 ->
  let r := c_rp (cal_run e c0 h) in
  exists m u f, r_matches r = Some m /\ r_util r = Some u /\ r_fit_error r = Some f /\
    (m = nZ 0 \/ nZ 0 <' m = true) /\
    (u = nZ 0 \/ (nZ 0 <=' u = true /\ u <=' nZ 1 = true)) /\
    (f = nlit 1 (-4) \/ nZ 0 <=' f = true).
Proof.
  intros H0. cbv zeta. apply (cal_run_inv e (fun c => exists m u f,
    r_matches (c_rp c) = Some m /\ r_util (c_rp c) = Some u /\ r_fit_error (c_rp c) = Some f /\
    (m = nZ 0 \/ nZ 0 <' m = true) /\
    (u = nZ 0 \/ (nZ 0 <=' u = true /\ u <=' nZ 1 = true)) /\
    (f = nlit 1 (-4) \/ nZ 0 <=' f = true))).
  - rewrite (init_rp _ _ _ _ H0). cbn. do 3 eexists. repeat split; auto.
  - intros c o (m & u & f & Em & Eu & Ef & Hm & Hu & Hf).
    destruct o; try (rewrite step_rp by discriminate; exists m, u, f; auto 10; fail).
    cbn [cal_step]. unfold set_ransac_properties.
    destruct a as [a1 a2 a3 a4 a5 a6 a7 am au af]; cbn.
    destruct am as [vm|]; [destruct (nZ 0 <' vm) eqn:Evm|]; cbn;
      try (exists m, u, f; auto 10; fail);
    (destruct au as [vu|]; [destruct (nZ 0 <=' vu) eqn:Evu; [destruct (vu <=' nZ 1) eqn:Evv|]|]; cbn;
     try (rewrite ?Em; cbn; do 3 eexists; repeat split; eauto; fail);
     (destruct af as [vf|]; [destruct (nZ 0 <=' vf) eqn:Evf|]; cbn;
      rewrite ?Em, ?Eu, ?Ef; cbn; do 3 eexists; repeat split; eauto)).
Qed.

(** C43: after any history, also one with rejected calls, in IEEE doubles. *)
Lemma ransac_properties_valid_main :
  forall (fexp : f64 -> f64) (e : env f64) peaks spectrum c0 h,
    let N := F64num fexp in
    calib_init (e_hull e) peaks spectrum = Ok c0 ->
    let r := c_rp (cal_run e c0 h) in
    exists m u f, r_matches r = Some m /\ r_util r = Some u /\ r_fit_error r = Some f /\
      (m = nZ 0 \/ nZ 0 <' m = true) /\
      (nZ 0 <=' u = true /\ u <=' nZ 1 = true) /\ nZ 0 <=' f = true.
Proof.
  intros fexp e peaks spectrum c0 h N H0 r.
  destruct (ransac_valid_gen f64 N e peaks spectrum c0 h H0)
    as (m & u & f & Em & Eu & Ef & Hm & Hu & Hf).
  exists m, u, f. split; [exact Em|]. split; [exact Eu|]. split; [exact Ef|].
  split; [exact Hm|]. split.
  - destruct Hu as [->|Hu]; [split; vm_compute; reflexivity|exact Hu].
  - destruct Hf as [->|Hf]; [vm_compute; reflexivity|exact Hf].
Qed.

(** Non-vacuity of C43: a history with a rejected and an accepted call. *)
Example ransac_properties_valid_example_main :
  exists c0, calib_init (N := F64c) all_inside [fz 10; fz 20] None = Ok c0 /\
    let h := [ORansac (mkRA None None None None None None None (Some (fz (-1))) None None);
              ORansac (mkRA None None None None None None None (Some (fz 4)) (Some (fz 2)) None)] in
    snd (cal_step env0 c0 (hd OUsePlotly h)) = Raise AssertionError /\
    r_matches (c_rp (cal_run env0 c0 h)) = Some (fz 4) /\
    r_util (c_rp (cal_run env0 c0 h)) = Some (fz 0).
Proof. eexists. split; [vm_compute; reflexivity|]. vm_compute. auto. Qed.

(** C44: refuted: a rejected call has already replaced other properties. *)
Lemma rejected_call_atomic_refuted_main :
  exists (c0 : calib f64) a,
    calib_init all_inside [fz 10; fz 20] None = Ok c0 /\
    snd (set_ransac_properties c0 a) = Raise AssertionError /\
    r_sample (c_rp (fst (set_ransac_properties c0 a))) <> r_sample (c_rp c0).
Proof.
  eexists. exists (mkRA (Some 9%nat) None None None None None None None (Some (fz 2)) None).
  split; [vm_compute; reflexivity|]. vm_compute. split; [auto|discriminate].
Qed.

(** C44, what does hold: a rejected call never stores the rejected values, changes
    no property it was not given, and touches nothing but the RANSAC properties. *)
Lemma rejected_call_partial_main :
  forall (A : Type) (N : Num A) (c : calib A) (a : ransac_args A) ex,
    snd (set_ransac_properties c a) = Raise ex ->
    r_matches (c_rp c) <> None -> r_util (c_rp c) <> None -> r_fit_error (c_rp c) <> None ->
    let c' := fst (set_ransac_properties c a) in
    ex = AssertionError /\
    ((exists v, ra_matches a = Some v /\ nZ 0 <' v = false /\ r_matches (c_rp c') = r_matches (c_rp c)) \/
     (exists v, ra_util a = Some v /\ (nZ 0 <=' v) && (v <=' nZ 1) = false /\ r_util (c_rp c') = r_util (c_rp c)) \/
     (exists v, ra_fit_error a = Some v /\ nZ 0 <=' v = false)) /\
    r_fit_error (c_rp c') = r_fit_error (c_rp c) /\
    (ra_matches a = None -> r_matches (c_rp c') = r_matches (c_rp c)) /\
    (ra_util a = None -> r_util (c_rp c') = r_util (c_rp c)) /\
    (ra_sample a = None -> r_sample (c_rp c) <> None -> r_sample (c_rp c') = r_sample (c_rp c)) /\
    c' = set_c_rp (c_rp c') c.
Proof.
  intros A N c a ex H Hm Hu Hf. cbv zeta.
  destruct (r_matches (c_rp c)) as [m|] eqn:Em; [|congruence].
  destruct (r_util (c_rp c)) as [u|] eqn:Eu; [|congruence].
  destruct (r_fit_error (c_rp c)) as [f|] eqn:Ef; [|congruence].
  revert H. unfold set_ransac_properties.
  destruct a as [a1 a2 a3 a4 a5 a6 a7 am au af]; cbn.
  assert (KS : forall o : option nat, o = None -> r_sample (c_rp c) <> None ->
              keep o (r_sample (c_rp c)) 5%nat = r_sample (c_rp c)).
  { intros o -> Hn. cbn. destruct (r_sample (c_rp c)); congruence. }
  destruct (match am with Some v => nZ 0 <' v | None => true end) eqn:E1; cbn.
  2:{ intros H; injection H as <-. destruct am as [v|]; [|discriminate].
      split; [auto|]. split; [left; eauto|]. rewrite Em, Eu, Ef. repeat split; auto. }
  destruct (match au with Some v => (nZ 0 <=' v) && (v <=' nZ 1) | None => true end) eqn:E2; cbn.
  2:{ intros H; injection H as <-. destruct au as [v|]; [|discriminate].
      split; [auto|]. split; [right; left; eauto|]. rewrite Em, Eu, Ef. repeat split; auto.
      intros ->; reflexivity. }
  destruct (match af with Some v => nZ 0 <=' v | None => true end) eqn:E3; cbn; [discriminate|].
  intros H; injection H as <-. destruct af as [v|]; [|discriminate].
  split; [auto|]. split; [right; right; eauto|]. rewrite Em, Eu, Ef. repeat split; auto.
  - intros ->; reflexivity.
  - intros ->; reflexivity.
Qed.

Lemma Rabs_le_inv (x a : R) : (Rabs x <= a -> - a <= x <= a)%R.
Proof. unfold Rabs. destruct (Rcase_abs x); lra. Qed.

Lemma np_ptp_Fin (px : list R) p q : In p px -> In q px -> (p < q)%R ->
  exists a b, In a px /\ In b px /\ (forall x, In x px -> a <= x <= b)%R /\ (a < b)%R /\
    np_ptp (map Fin px) = Ok (Fin (b - a)).
Proof.
  intros Hp Hq L. destruct px as [|x v]; [destruct Hp|].
  destruct (np_amin_Fin v x) as (a & Ea & Ia & La).
  destruct (np_amax_Fin v x) as (b & Eb & Ib & Lb).
  exists a, b. split; auto. split; auto. split; [intros y Hy; split; auto|].
  split.
  - pose proof (La p Hp). pose proof (Lb q Hq). lra.
  - unfold np_ptp. rewrite Ea, Eb. reflexivity.
Qed.

(** The limits written by set_hough_properties, over the reals. *)
Lemma limits_Fin (hull : hull_test xr) c a c' px p q minw maxw rt lt :
  set_hough_properties hull c a = (c', Ok tt) ->
  g_pixels (c_gp c') = Some (map Fin px) -> In p px -> In q px -> (p < q)%R ->
  h_minw (c_hp c') = Some (Fin minw) -> h_maxw (c_hp c') = Some (Fin maxw) ->
  h_rt (c_hp c') = Some (Fin rt) -> h_lt (c_hp c') = Some (Fin lt) ->
  exists first last, In first px /\ In last px /\
    (forall x, In x px -> first <= x <= last)%R /\ (first < last)%R /\
    h_min_slope (c_hp c') = Some (Fin ((maxw - minw - rt - 2 * lt) / (last - first))) /\
    h_max_slope (c_hp c') = Some (Fin ((maxw - minw + 3 * rt + 2 * lt) / (last - first))) /\
    h_min_intercept (c_hp c') = Some (Fin (minw - rt)) /\
    h_max_intercept (c_hp c') = Some (Fin (minw + rt)).
Proof.
  intros H Hg Hp Hq L H1 H2 H3 H4.
  pose proof (set_hough_hp hull c a) as E. rewrite H in E. cbn [fst snd] in E.
  destruct (E eq_refl) as (px' & ptp & ns & Gp & Gt & _ & Eh). clear E. cbv zeta in Eh.
  assert (G' : g_pixels (c_gp c') = g_pixels (c_gp c)).
  { pose proof (step_gp (mkEnv (fun _ => []) (mkCatalogue [] (fun _ => None)) hull) c (OHough a)) as F.
    cbn [cal_step e_hull] in F. rewrite H in F. cbn [fst] in F. rewrite F; auto; discriminate. }
  rewrite G', Gp in Hg. injection Hg as ->.
  destruct (np_ptp_Fin px p q Hp Hq L) as (first & last & If & Il & Lf & Lt & Et).
  rewrite Et in Gt. injection Gt as <-.
  exists first, last. split; auto. split; auto. split; auto. split; auto.
  rewrite Eh in *. cbn [h_minw h_maxw h_rt h_lt h_min_slope h_max_slope h_min_intercept h_max_intercept] in *.
  rewrite H1, H2, H3, H4. cbn [oval].
  unfold min_slope_of, max_slope_of.
  cbn [nsub nadd ndiv XRnum xsub xadd xopp xdiv].
  destruct (Reqb_spec (last - first) 0) as [Z|Z]; [lra|].
  repeat split; f_equal; f_equal; try lra; field; auto.
Qed.

(** C45: refuted: with the default settings (3000-9000, range_tolerance 500,
    linearity_tolerance 100) and 100 pixels, the straight solution from 3500 to
    8500 (both ends 500 off) is below min_slope. *)
Lemma slope_lower_limit_refuted_main :
  exists (c' : calib xr) lo w0 w1,
    g_pixels (c_gp c') = Some [Fin 0; Fin 99] /\
    snd (set_hough_properties all_inside c' no_hough_args) = Ok tt /\
    (let hp := c_hp (fst (set_hough_properties all_inside c' no_hough_args)) in
     h_minw hp = Some (Fin 3000) /\ h_maxw hp = Some (Fin 9000) /\ h_rt hp = Some (Fin 500) /\
     h_lt hp = Some (Fin 100) /\ h_min_slope hp = Some (Fin lo)) /\
    within w0 3000 500 /\ within w1 9000 500 /\
    (straight_slope w0 w1 99 < lo)%R.
Proof.
  set (c := fst (set_calibrator_properties (calib_blank [Fin 1] None) (Some (Fin 100))
                   (Some [Fin 0; Fin 99]) None)).
  assert (G : g_pixels (c_gp c) = Some [Fin 0; Fin 99]) by reflexivity.
  assert (O : snd (set_hough_properties all_inside c no_hough_args) = Ok tt).
  { unfold set_hough_properties. cbn [ha_num_slopes no_hough_args]. rewrite G.
    assert (P : exists t, np_ptp [Fin 0; Fin 99] = Ok t).
    { destruct (np_ptp_Fin [0; 99]%R 0 99) as (?&?&?&?&?&?&E); [cbn; auto|cbn; auto|lra|].
      eexists. exact E. }
    destruct P as [t ->]. reflexivity. }
  destruct (set_hough_properties all_inside c no_hough_args) as [c' r] eqn:E. cbn [snd] in O. subst r.
  assert (V : h_minw (c_hp c') = Some (Fin 3000) /\ h_maxw (c_hp c') = Some (Fin 9000) /\
              h_rt (c_hp c') = Some (Fin 500) /\ h_lt (c_hp c') = Some (Fin 100)).
  { pose proof (set_hough_hp all_inside c no_hough_args) as F. rewrite E in F.
    destruct (F eq_refl) as (px & ptp & ns & _ & _ & _ & Eh). cbn [fst] in Eh. rewrite Eh. clear F Eh.
    change (c_hp c) with (c_hp (calib_blank [Fin 1] None)).
    cbn [h_minw h_maxw h_rt h_lt no_hough_args ha_minw ha_maxw ha_rt ha_lt keep calib_blank c_hp].
    rewrite !nZ_Fin. auto. }
  destruct V as (V1 & V2 & V3 & V4).
  assert (G' : g_pixels (c_gp c') = Some (map Fin [0; 99]%R)).
  { pose proof (step_gp (mkEnv (fun _ => []) (mkCatalogue [] (fun _ => None)) all_inside) c (OHough no_hough_args)) as F.
    cbn [cal_step e_hull] in F. rewrite E in F. cbn [fst] in F. rewrite F; auto; discriminate. }
  destruct (limits_Fin all_inside c no_hough_args c' [0; 99]%R 0 99 3000 9000 500 100 E G')
    as (f & l & If & Il & Lfl & Ltfl & S1 & _); auto; try (cbn; tauto); try lra.
  assert (f = 0%R /\ l = 99%R) as [-> ->].
  { pose proof (Lfl 0%R (or_introl eq_refl)). pose proof (Lfl 99%R (or_intror (or_introl eq_refl))).
    cbn in If, Il. destruct If as [<-|[<-|[]]], Il as [<-|[<-|[]]]; split; lra. }
  exists c, ((9000 - 3000 - 500 - 2 * 100) / (99 - 0))%R, 3500%R, 8500%R.
  split; [exact G|]. rewrite E. split; [reflexivity|]. cbn [fst].
  split; [auto|].
  unfold within, straight_slope.
  split; [rewrite Rabs_pos_eq; lra|]. split; [rewrite Rabs_left; lra|]. lra.
Qed.

(** C45, what does hold: the upper limit always brackets, and the lower limit
    brackets exactly when range_tolerance <= 2 * linearity_tolerance. *)
Lemma slope_limits_partial_main :
  forall (hull : hull_test xr) (c c' : calib xr) a px p q minw maxw rt lt,
    set_hough_properties hull c a = (c', Ok tt) ->
    g_pixels (c_gp c') = Some (map Fin px) -> In p px -> In q px -> (p < q)%R ->
    h_minw (c_hp c') = Some (Fin minw) -> h_maxw (c_hp c') = Some (Fin maxw) ->
    h_rt (c_hp c') = Some (Fin rt) -> h_lt (c_hp c') = Some (Fin lt) -> (0 <= lt)%R ->
    exists first last lo hi, In first px /\ In last px /\
      (forall x, In x px -> first <= x <= last)%R /\
      h_min_slope (c_hp c') = Some (Fin lo) /\ h_max_slope (c_hp c') = Some (Fin hi) /\
      (forall w0 w1, within w0 minw rt -> within w1 maxw rt ->
         straight_slope w0 w1 (last - first) <= hi)%R /\
      ((0 <= rt)%R ->
       ((forall w0 w1, within w0 minw rt -> within w1 maxw rt ->
          lo <= straight_slope w0 w1 (last - first))%R <-> (rt <= 2 * lt)%R)).
Proof.
  intros hull c c' a px p q minw maxw rt lt H Hg Hp Hq L H1 H2 H3 H4 Hlt.
  destruct (limits_Fin hull c a c' px p q minw maxw rt lt H Hg Hp Hq L H1 H2 H3 H4)
    as (first & last & If & Il & Lfl & Lt & S1 & S2 & _).
  exists first, last, ((maxw - minw - rt - 2 * lt) / (last - first))%R,
    ((maxw - minw + 3 * rt + 2 * lt) / (last - first))%R.
  split; auto. split; auto. split; auto. split; auto. split; auto.
  assert (D : (0 < last - first)%R) by lra.
  assert (I : (0 < / (last - first))%R) by (apply Rinv_0_lt_compat; auto).
  unfold straight_slope, within. split.
  - intros w0 w1 A0 A1. unfold Rdiv. apply Rmult_le_compat_r; [lra|].
    apply Rabs_le_inv in A0. apply Rabs_le_inv in A1. lra.
  - intros Hrt. split.
    + intros K. specialize (K (minw + rt)%R (maxw - rt)%R).
      assert ((maxw - minw - rt - 2 * lt) / (last - first) <=
              (maxw - rt - (minw + rt)) / (last - first))%R as K'.
      { apply K; [replace (minw + rt - minw)%R with rt by ring|replace (maxw - rt - maxw)%R with (- rt)%R by ring;
          rewrite Rabs_Ropp]; rewrite Rabs_pos_eq; lra. }
      unfold Rdiv in K'. apply Rmult_le_reg_r in K'; lra.
    + intros K w0 w1 A0 A1. unfold Rdiv. apply Rmult_le_compat_r; [lra|].
      apply Rabs_le_inv in A0. apply Rabs_le_inv in A1. lra.
Qed.

(** C46: the limits are ordered and the Hough transform accepts them. *)
Lemma limits_consistent_main :
  forall (hull : hull_test xr) (c c' : calib xr) a px p q minw maxw rt lt,
    set_hough_properties hull c a = (c', Ok tt) ->
    g_pixels (c_gp c') = Some (map Fin px) -> In p px -> In q px -> (p < q)%R ->
    h_minw (c_hp c') = Some (Fin minw) -> h_maxw (c_hp c') = Some (Fin maxw) ->
    h_rt (c_hp c') = Some (Fin rt) -> h_lt (c_hp c') = Some (Fin lt) ->
    (0 < rt)%R -> (0 < lt)%R ->
    exists slo shi ilo ihi,
      h_min_slope (c_hp c') = Some (Fin slo) /\ h_max_slope (c_hp c') = Some (Fin shi) /\
      h_min_intercept (c_hp c') = Some (Fin ilo) /\ h_max_intercept (c_hp c') = Some (Fin ihi) /\
      (slo < shi)%R /\ (ilo < ihi)%R /\
      (forall t, snd (set_constraints t (h_min_slope (c_hp c')) (h_max_slope (c_hp c'))
                 (h_min_intercept (c_hp c')) (h_max_intercept (c_hp c'))) = Ok tt).
Proof.
  intros hull c c' a px p q minw maxw rt lt H Hg Hp Hq L H1 H2 H3 H4 Hrt Hlt.
  destruct (limits_Fin hull c a c' px p q minw maxw rt lt H Hg Hp Hq L H1 H2 H3 H4)
    as (first & last & If & Il & Lfl & Lt & S1 & S2 & S3 & S4).
  do 4 eexists. split; [exact S1|]. split; [exact S2|]. split; [exact S3|]. split; [exact S4|].
  assert (I : (0 < / (last - first))%R) by (apply Rinv_0_lt_compat; lra).
  split; [unfold Rdiv; apply Rmult_lt_compat_r; lra|]. split; [lra|].
  intros t. rewrite S1, S2, S3, S4. reflexivity.
Qed.

(** Non-vacuity of C45 and C46. *)
Example limits_example_main :
  exists (c c' : calib xr),
    set_hough_properties all_inside c (mkHA None None None (Some (Fin 4000)) (Some (Fin 6000))
      (Some (Fin 100)) (Some (Fin 50))) = (c', Ok tt) /\
    g_pixels (c_gp c') = Some (map Fin [0; 1; 99]%R) /\
    h_minw (c_hp c') = Some (Fin 4000) /\ h_maxw (c_hp c') = Some (Fin 6000) /\
    h_rt (c_hp c') = Some (Fin 100) /\ h_lt (c_hp c') = Some (Fin 50).
Proof.
  set (c := fst (set_calibrator_properties (calib_blank [Fin 1] None) (Some (Fin 100))
                   (Some (map Fin [0; 1; 99]%R)) None)).
  exists c.
  destruct (np_ptp_Fin [0; 1; 99]%R 0 99) as (?&?&?&?&?&?&E); [cbn; auto|cbn; auto|lra|].
  eexists. split.
  - unfold set_hough_properties. cbn [ha_num_slopes].
    change (g_pixels (c_gp c)) with (Some (map Fin [0; 1; 99]%R)). cbv beta iota. rewrite E.
    change (c_atlas c) with (@None (atlas xr)). cbv iota. reflexivity.
  - repeat split; reflexivity.
Qed.

(** C47: refuted: for every n, a later num_pix leaves the pixel list as it was at
    construction and so has no influence on the limits. *)
Lemma num_pix_ignored_refuted_main :
  forall (A : Type) (N : Num A) (e : env A) peaks spectrum c0 (n : A) lib,
    calib_init (e_hull e) peaks spectrum = Ok c0 ->
    let c := cal_run e c0 [OGeneral (Some n) None lib] in
    g_num_pix (c_gp c) = Some n /\ g_pixels (c_gp c) = g_pixels (c_gp c0) /\
    forall a, c_hp (fst (set_hough_properties (e_hull e) c a)) =
              c_hp (fst (set_hough_properties (e_hull e) c0 a)).
Proof.
  intros A N e peaks spectrum c0 n lib H0. destruct (init_gp _ _ _ _ H0) as (n0 & _ & G).
  destruct (init_others _ _ _ _ H0) as (_ & _ & _ & _ & Ha & _).
  cbv zeta. unfold cal_run. cbn [fold_left cal_step].
  unfold set_calibrator_properties. rewrite G.
  cbn [g_num_pix g_pixels g_library g_mpl g_plotly keep fst].
  match goal with |- context [set_c_gp ?g c0] => set (g2 := g) end.
  assert (E1 : g_num_pix g2 = Some n /\ g_pixels g2 = Some (np_arange0 n0)).
  { unfold g2. destruct (String.eqb _ "matplotlib"); [auto|].
    destruct (String.eqb _ "plotly"); auto. }
  destruct E1 as [E1 E2]. split; [exact E1|]. split; [exact E2|].
  intros a. unfold set_hough_properties.
  change (c_hp (set_c_gp g2 c0)) with (c_hp c0).
  change (c_gp (set_c_gp g2 c0)) with g2. rewrite E2, G. cbn [g_pixels].
  change (c_atlas (set_c_gp g2 c0)) with (c_atlas c0). rewrite Ha.
  destruct (match ha_num_slopes a with Some v => _ | None => _ end); [|reflexivity].
  destruct (np_ptp (np_arange0 n0)); reflexivity.
Qed.

(** C47: the same with numbers: 100 pixels are asked for, 22 are used. *)
Example num_pix_ignored_example_main :
  exists c0 : calib f64, calib_init all_inside [fz 10; fz 20] None = Ok c0 /\
    g_pixels (c_gp (cal_run env0 c0 [OGeneral (Some (fz 100)) None None])) <> Some (np_arange0 (fz 100)) /\
    (exists l, g_pixels (c_gp (cal_run env0 c0 [OGeneral (Some (fz 100)) None None])) = Some l /\
       List.length l = 22%nat /\ List.length (np_arange0 (fz 100)) = 100%nat).
Proof.
  eexists. split; [vm_compute; reflexivity|]. split; [vm_compute; discriminate|].
  eexists. split; [vm_compute; reflexivity|]. split; vm_compute; reflexivity.
Qed.

(** C47, what does hold: a given pixel_list is used by the next
    set_hough_properties, after any history. *)
Lemma pixel_list_used_partial_main :
  forall (A : Type) (N : Num A) (e : env A) (c : calib A) np px lib a,
    let c1 := fst (set_calibrator_properties c np (Some px) lib) in
    let c2 := fst (set_hough_properties (e_hull e) c1 a) in
    snd (set_calibrator_properties c np (Some px) lib) = Ok tt ->
    snd (set_hough_properties (e_hull e) c1 a) = Ok tt ->
    g_pixels (c_gp c1) = Some px /\
    exists minw maxw rt lt ptp,
      h_minw (c_hp c2) = Some minw /\ h_maxw (c_hp c2) = Some maxw /\
      h_rt (c_hp c2) = Some rt /\ h_lt (c_hp c2) = Some lt /\ np_ptp px = Ok ptp /\
      h_min_slope (c_hp c2) = Some (((maxw -' rt -' lt) -' (minw -' rt +' rt +' lt)) /' ptp) /\
      h_max_slope (c_hp c2) = Some (((maxw +' rt +' lt) -' (minw -' rt -' rt -' lt)) /' ptp).
Proof.
  intros A N e c np px lib a c1 c2 H1 H2.
  assert (G : g_pixels (c_gp c1) = Some px).
  { unfold c1. clear c2 H2. revert H1. clear c1. unfold set_calibrator_properties. cbv zeta.
    match goal with |- snd (match ?x with _ => _ end) = _ -> _ => destruct x; [|discriminate] end.
    intros _. cbn [keep fst set_c_gp c_gp].
    destruct (String.eqb _ "matplotlib"); [reflexivity|].
    destruct (String.eqb _ "plotly"); reflexivity. }
  split; auto.
  destruct (set_hough_hp _ _ _ H2) as (px' & ptp & ns & Gp & Gt & _ & Eh).
  rewrite G in Gp. injection Gp as <-. unfold c2. rewrite Eh. cbv zeta.
  cbn [h_minw h_maxw h_rt h_lt h_min_slope h_max_slope].
  destruct (keep_some (ha_minw a) (h_minw (c_hp c1)) (nZ 3000)) as [minw ->].
  destruct (keep_some (ha_maxw a) (h_maxw (c_hp c1)) (nZ 9000)) as [maxw ->].
  destruct (keep_some (ha_rt a) (h_rt (c_hp c1)) (nZ 500)) as [rt ->].
  destruct (keep_some (ha_lt a) (h_lt (c_hp c1)) (nZ 100)) as [lt ->].
  exists minw, maxw, rt, lt, ptp. repeat split; auto.
Qed.

(** C48: exactly one library at all times; an unknown name does not change the
    selection. *)
Lemma one_library_main :
  forall (A : Type) (N : Num A) (e : env A) peaks spectrum c0 h,
    calib_init (e_hull e) peaks spectrum = Ok c0 ->
    let c := cal_run e c0 h in
    (which_plotting_library c = Some "matplotlib"%string \/
     which_plotting_library c = Some "plotly"%string) /\
    g_mpl (c_gp c) = negb (g_plotly (c_gp c)) /\
    (which_plotting_library (use_plotly c) = Some "plotly"%string /\
     which_plotting_library (use_matplotlib c) = Some "matplotlib"%string) /\
    (forall np px l, let c' := fst (set_calibrator_properties c np px (Some l)) in
       snd (set_calibrator_properties c np px (Some l)) = Ok tt ->
       (l = "plotly"%string -> which_plotting_library c' = Some "plotly"%string) /\
       (l = "matplotlib"%string -> which_plotting_library c' = Some "matplotlib"%string) /\
       (l <> "plotly"%string -> l <> "matplotlib"%string ->
        which_plotting_library c' = which_plotting_library c)).
Proof.
  intros A N e peaks spectrum c0 h H0 c.
  assert (X : g_mpl (c_gp c) = negb (g_plotly (c_gp c))).
  { apply (cal_run_inv e (fun c => g_mpl (c_gp c) = negb (g_plotly (c_gp c)))).
    - destruct (init_gp _ _ _ _ H0) as (n & _ & ->). reflexivity.
    - intros c1 o Hc. destruct o; try (rewrite step_gp by (reflexivity || discriminate); exact Hc).
      + cbn [cal_step]. unfold set_calibrator_properties. cbv zeta.
        match goal with |- context [match ?x with Ok _ => _ | Raise _ => _ end] => destruct x; [|exact Hc] end.
        cbn [fst set_c_gp c_gp].
        destruct (String.eqb _ "matplotlib"); [reflexivity|].
        destruct (String.eqb _ "plotly"); [reflexivity|exact Hc].
      + reflexivity.
      + reflexivity. }
  split; [|split; [exact X|]; split].
  - unfold which_plotting_library. destruct (g_mpl (c_gp c)); auto.
    destruct (g_plotly (c_gp c)); auto. discriminate.
  - split; reflexivity.
  - intros np px l c' Hr.
    assert (E : exists n p, c_gp c' =
      (let g1 := mkG n p (Some l) (g_mpl (c_gp c)) (g_plotly (c_gp c)) in
       if String.eqb l "matplotlib" then use_matplotlib_g g1
       else if String.eqb l "plotly" then use_plotly_g g1 else g1)).
    { unfold c'. revert Hr. clear c'. unfold set_calibrator_properties. cbv zeta.
      match goal with |- snd (match ?x with _ => _ end) = _ -> _ => destruct x; [|discriminate] end.
      intros _. cbn [keep fst set_c_gp c_gp]. do 2 eexists. reflexivity. }
    destruct E as (n & p & E). unfold which_plotting_library. rewrite E. cbv zeta.
    split; [intros ->; reflexivity|]. split; [intros ->; reflexivity|].
    intros N1 N2. apply String.eqb_neq in N1. apply String.eqb_neq in N2. rewrite N1, N2. reflexivity.
Qed.

(** Non-vacuity of C48. *)
Example one_library_example_main :
  exists c0 : calib f64, calib_init all_inside [fz 10; fz 20] None = Ok c0 /\
    which_plotting_library (cal_run env0 c0 [OUsePlotly; OGeneral None None (Some "bokeh"%string)])
      = Some "plotly"%string.
Proof. eexists. split; [vm_compute; reflexivity|]. vm_compute. reflexivity. Qed.

(** C49: refuted: the next set_calibrator_properties goes back to matplotlib. *)
Lemma use_plotly_permanent_refuted_main :
  exists c0 : calib f64, calib_init all_inside [fz 10; fz 20] None = Ok c0 /\
    which_plotting_library (cal_run env0 c0 [OUsePlotly]) = Some "plotly"%string /\
    which_plotting_library (cal_run env0 c0 [OUsePlotly; OGeneral (Some (fz 30)) None None])
      = Some "matplotlib"%string.
Proof. eexists. split; [vm_compute; reflexivity|]. vm_compute. auto. Qed.

(** C49, what does hold: after use_plotly() all other calls leave plotly selected,
    and so do they all after set_calibrator_properties(plotting_library="plotly"). *)
Lemma use_plotly_partial_main :
  forall (A : Type) (N : Num A) (e : env A) (c : calib A) h,
    Forall (fun o => names_library o = false) h ->
    (Forall (fun o => is_general o = false) h ->
     which_plotting_library (cal_run e (use_plotly c) h) = Some "plotly"%string) /\
    (forall np px, snd (set_calibrator_properties c np px (Some "plotly"%string)) = Ok tt ->
     Forall (fun o => match o with OGeneral _ _ (Some _) => False | _ => True end) h ->
     which_plotting_library
       (cal_run e (fst (set_calibrator_properties c np px (Some "plotly"%string))) h)
       = Some "plotly"%string).
Proof.
  intros A N e c h Hn. split.
  - intros Hg.
    apply (cal_run_inv_ops e (fun o => names_library o = false /\ is_general o = false)
             (fun c => which_plotting_library c = Some "plotly"%string)).
    + rewrite Forall_forall in *. auto.
    + reflexivity.
    + intros c1 o [N1 N2] Hc. unfold which_plotting_library in *.
      rewrite step_gp; auto; intros ->; discriminate.
  - intros np px Hr Hl.
    assert (W : forall c1 : calib A, g_library (c_gp c1) = Some "plotly"%string ->
       forall np px, let g := c_gp (fst (set_calibrator_properties c1 np px None)) in
       g_library g = Some "plotly"%string /\
       (g = c_gp c1 \/ (g_mpl g = false /\ g_plotly g = true))).
    { intros c1 Hlib np1 px1. cbv zeta. unfold set_calibrator_properties. cbv zeta. rewrite Hlib. cbn [keep].
      match goal with |- context [match ?x with Ok _ => _ | Raise _ => _ end] => destruct x end.
      - cbn. auto.
      - auto. }
    assert (K : g_library (c_gp (cal_run e (fst (set_calibrator_properties c np px (Some "plotly"%string))) h)) = Some "plotly"%string /\
       g_mpl (c_gp (cal_run e (fst (set_calibrator_properties c np px (Some "plotly"%string))) h)) = false /\
       g_plotly (c_gp (cal_run e (fst (set_calibrator_properties c np px (Some "plotly"%string))) h)) = true).
    { apply (cal_run_inv_ops e (fun o => names_library o = false /\
               match o with OGeneral _ _ (Some _) => False | _ => True end)
             (fun c => g_library (c_gp c) = Some "plotly"%string /\ g_mpl (c_gp c) = false /\ g_plotly (c_gp c) = true)).
      - rewrite Forall_forall in *. intros o Ho. split; [apply Hn; auto|apply (Hl o Ho)].
      - revert Hr. unfold set_calibrator_properties. cbv zeta.
        match goal with |- snd (match ?x with _ => _ end) = _ -> _ => destruct x; [|discriminate] end.
        intros _. cbn. auto.
      - intros c1 o [N1 N2] (L1 & L2 & L3).
        destruct o; try (rewrite step_gp by (reflexivity || discriminate); auto; fail); try discriminate.
        destruct library as [l|]; [destruct N2|].
        cbn [cal_step]. destruct (W c1 L1 num_pix pixel_list) as [W1 [W2|[W2 W3]]]; [rewrite W2; auto|auto]. }
    destruct K as (_ & K1 & K2). unfold which_plotting_library. rewrite K1, K2. reflexivity.
Qed.

(** C50: the stored known pairs are valid after any history, an accepted call
    stores its arguments and a rejected one changes nothing. *)
Lemma known_pairs_valid_main :
  forall (A : Type) (N : Num A) (e : env A) peaks spectrum c0 h,
    calib_init (e_hull e) peaks spectrum = Ok c0 ->
    let c := cal_run e c0 h in
    valid_known (c_known c) /\
    forall p w c' r, set_known_pairs c p w = (c', r) ->
      match r with
      | Ok _ => exists lp lw, p = KList lp /\ w = KList lw /\ valid_known (Some (lp, lw)) /\
                 c_known c' = Some (lp, lw)
      | Raise _ => c' = c /\ forall lp lw, p = KList lp -> w = KList lw -> ~ valid_known (Some (lp, lw))
      end.
Proof.
  intros A N e peaks spectrum c0 h H0.
  assert (S : forall (c : calib A) p w c' r, set_known_pairs c p w = (c', r) ->
      match r with
      | Ok _ => exists lp lw, p = KList lp /\ w = KList lw /\ valid_known (Some (lp, lw)) /\
                 c_known c' = Some (lp, lw)
      | Raise _ => c' = c /\ forall lp lw, p = KList lp -> w = KList lw -> ~ valid_known (Some (lp, lw))
      end).
  { intros c p w c' r H. unfold set_known_pairs in H.
    destruct p as [lp|ex]; [|injection H as <- <-; split; [auto|discriminate]].
    destruct w as [lw|ex]; [|injection H as <- <-; split; [auto|discriminate]].
    assert (X : forall l : list A, existsb nisnan l = true -> exists x, In x l /\ nisnan x = true).
    { intros l Hl. apply existsb_exists in Hl. auto. }
    assert (Y : forall l : list A, existsb nisnan l = false -> forall x, In x l -> nisnan x = false).
    { intros l Hl x Hx. destruct (nisnan x) eqn:E; auto.
      assert (existsb nisnan l = true) by (apply existsb_exists; eauto). congruence. }
    destruct (Nat.eqb_spec (List.length lp) (List.length lw)) as [El|El]; cbn in H.
    2:{ injection H as <- <-. split; auto. intros lp' lw' E1 E2 [V _]. congruence. }
    destruct (existsb nisnan lp) eqn:Ep.
    { injection H as <- <-. split; auto. intros lp' lw' E1 E2 (_ & V & _).
      injection E1 as <-. destruct (X _ Ep) as (x & Hx & Hn). rewrite (V x Hx) in Hn. discriminate. }
    destruct (existsb nisnan lw) eqn:Ew.
    { injection H as <- <-. split; auto. intros lp' lw' E1 E2 (_ & _ & V).
      injection E2 as <-. destruct (X _ Ew) as (x & Hx & Hn). rewrite (V x Hx) in Hn. discriminate. }
    injection H as <- <-. exists lp, lw. cbn. repeat split; eauto. }
  cbv zeta. split; [|intros p w c' r; apply S].
  apply (cal_run_inv e (fun c => valid_known (c_known c))).
  - destruct (init_others _ _ _ _ H0) as (_ & -> & _). exact I.
  - intros c o Hc. destruct o; try (rewrite step_known by discriminate; exact Hc).
    cbn [cal_step]. destruct (set_known_pairs c pix wave) as [c' r] eqn:E.
    specialize (S _ _ _ _ _ E). cbn [fst]. destruct r.
    + destruct S as (lp & lw & _ & _ & V & ->). exact V.
    + destruct S as [-> _]. exact Hc.
Qed.

(** Non-vacuity of C50: an accepted call followed by a rejected one. *)
Example known_pairs_valid_example_main :
  exists c0 : calib f64, calib_init all_inside [fz 10; fz 20] None = Ok c0 /\
    c_known (cal_run env0 c0 [OKnown (KList [fz 3]) (KList [fz 4000]);
                              OKnown (KList [fz 3; fz 5]) (KList [fz 4100])])
      = Some ([fz 3], [fz 4000]).
Proof. eexists. split; [vm_compute; reflexivity|]. vm_compute. reflexivity. Qed.

(** C51: the pairs after set_atlas without constrain_poly. *)
Lemma pairs_full_product_main :
  forall (A : Type) (N : Num A) (hull : hull_test A) (c : calib A) (a : atlas A) ct,
    let c' := fst (set_atlas hull c a ct false) in
    snd (set_atlas hull c a ct false) = Ok tt /\
    (c_peaks c <> [] -> get_lines a <> [] ->
     exists rows, c_pairs c' = PArr rows /\
       List.length rows = (List.length (c_peaks c) * List.length (get_lines a))%nat /\
       (forall i j p w, nth_error (c_peaks c) i = Some p -> nth_error (get_lines a) j = Some w ->
          nth_error rows (i * List.length (get_lines a) + j) = Some (p, w))).
Proof.
  intros A N hull c a ct c'.
  destruct (generate_pairs_plain hull
    (set_c_constrain false (set_c_cand_tol (Some ct) (set_c_atlas (Some a) c))) a eq_refl eq_refl) as [E1 E2].
  split; [exact E1|]. intros Hp Hl. fold (set_atlas hull c a ct false) in E2. unfold c'.
  change (c_peaks (set_c_constrain false (set_c_cand_tol (Some ct) (set_c_atlas (Some a) c)))) with (c_peaks c) in E2.
  destruct (c_pairs (fst (set_atlas hull c a ct false))) as [| |rows].
  - destruct E2.
  - destruct E2; contradiction.
  - destruct E2 as (_ & E2 & E3). eauto.
Qed.

(** Non-vacuity of C51. *)
Definition atlas2 : atlas f64 :=
  mkAtlas [mkAL (fz 4000) "Ar" (fz 1) None; mkAL (fz 5000) "Ar" (fz 1) None] (fz 3000) (fz 9000) (fz 500).
Example pairs_full_product_example_main :
  exists c0 : calib f64, calib_init all_inside [fz 10; fz 20] None = Ok c0 /\
    c_pairs (fst (set_atlas all_inside c0 atlas2 (fz 10) false)) =
      PArr [(fz 10, fz 4000); (fz 10, fz 5000); (fz 20, fz 4000); (fz 20, fz 5000)].
Proof. eexists. split; [vm_compute; reflexivity|]. vm_compute. reflexivity. Qed.

(** The intercept limits always belong to the current wavelength range. *)
Definition intercepts_current {A} {N : Num A} (c : calib A) : Prop :=
  exists minw maxw rt, h_minw (c_hp c) = Some minw /\ h_maxw (c_hp c) = Some maxw /\
    h_rt (c_hp c) = Some rt /\
    h_min_intercept (c_hp c) = Some (minw -' rt) /\ h_max_intercept (c_hp c) = Some (minw +' rt).

Lemma intercepts_inv (A : Type) (N : Num A) (e : env A) peaks spectrum c0 h :
  calib_init (e_hull e) peaks spectrum = Ok c0 -> intercepts_current (cal_run e c0 h).
Proof.
  intros H0. apply cal_run_inv.
  - destruct (init_hp _ _ _ _ H0) as [ptp E]. unfold intercepts_current. rewrite E. cbn. eauto 10.
  - intros c o Hc. destruct o; try (unfold intercepts_current; rewrite step_hp by discriminate; exact Hc).
    cbn [cal_step]. unfold set_hough_properties. cbv zeta.
    match goal with |- context [match ?x with Ok _ => _ | Raise _ => _ end] => destruct x; [|exact Hc] end.
    destruct (keep_some (ha_minw a) (h_minw (c_hp c)) (nZ 3000)) as [minw ->].
    destruct (keep_some (ha_maxw a) (h_maxw (c_hp c)) (nZ 9000)) as [maxw ->].
    destruct (keep_some (ha_rt a) (h_rt (c_hp c)) (nZ 500)) as [rt ->].
    destruct (g_pixels (c_gp c)) as [px|].
    2:{ unfold intercepts_current. cbn. eauto 10. }
    destruct (np_ptp px).
    2:{ unfold intercepts_current. cbn. eauto 10. }
    destruct (c_atlas c).
    + match goal with |- context [generate_pairs ?h ?c] =>
        destruct (generate_pairs_frame h c) as [p ->] end.
      unfold intercepts_current. cbn. eauto 10.
    + unfold intercepts_current. cbn. eauto 10.
Qed.

(** C52: with constrain_poly, for a hull test that decides each point. *)
Lemma pairs_constrained_main :
  forall (A : Type) (N : Num A) (e : env A) (inside : list (A * A) -> A * A -> bool)
         peaks spectrum c0 h (a : atlas A) ct,
    (forall k pts, e_hull e k pts = Ok (map (inside k) pts)) ->
    calib_init (e_hull e) peaks spectrum = Ok c0 ->
    let c := cal_run e c0 h in
    snd (set_atlas (e_hull e) c a ct true) = Ok tt ->
    exists minw maxw rt px m rows,
      h_minw (c_hp c) = Some minw /\ h_maxw (c_hp c) = Some maxw /\ h_rt (c_hp c) = Some rt /\
      g_pixels (c_gp c) = Some px /\ np_amax px = Ok m /\
      is_product (c_peaks c) (get_lines a) rows /\
      c_pairs (fst (set_atlas (e_hull e) c a ct true)) =
        PArr (filter (inside [(nZ 0, minw +' rt +' ct); (nZ 0, minw -' rt -' ct);
                              (m, maxw -' rt -' ct); (m, maxw +' rt +' ct)]) rows).
Proof.
  intros A N e inside peaks spectrum c0 h a ct Hh H0 c Hr.
  destruct (intercepts_inv A N e peaks spectrum c0 h H0) as (minw & maxw & rt & E1 & E2 & E3 & E4 & E5).
  fold c in E1, E2, E3, E4, E5. revert Hr.
  unfold set_atlas, generate_pairs. cbn [c_atlas set_c_constrain set_c_cand_tol set_c_atlas c_constrain].
  unfold corners. cbn [c_cand_tol c_hp c_gp set_c_constrain set_c_cand_tol set_c_atlas].
  rewrite E2, E3, E4, E5. destruct (g_pixels (c_gp c)) as [px|]; [|discriminate].
  destruct (np_amax px) as [m|] eqn:Em; [|discriminate]. cbn [bind].
  unfold product_pairs.
  destruct (list_prod (c_peaks _) (get_lines a)) as [|pr prs] eqn:Ep; [discriminate|].
  rewrite Hh. intros _. exists minw, maxw, rt, px, m, (pr :: prs).
  repeat (split; [auto; fail|]). split.
  - rewrite <- Ep. apply list_prod_is_product.
  - cbn [fst c_pairs set_c_pairs]. f_equal. apply mask_select_map.
Qed.

(** Non-vacuity of C52: a box as hull test that drops one of the four pairs. *)
Example pairs_constrained_example_main :
  let inside := fun (_ : list (f64 * f64)) (q : f64 * f64) => fst q <' fz 15 in
  let e := mkEnv argsort_stable (mkCatalogue [] (fun _ => None)) (fun k pts => Ok (map (inside k) pts)) in
  exists c0 : calib f64, calib_init (e_hull e) [fz 10; fz 20] None = Ok c0 /\
    snd (set_atlas (e_hull e) c0 atlas2 (fz 10) true) = Ok tt /\
    c_pairs (fst (set_atlas (e_hull e) c0 atlas2 (fz 10) true)) =
      PArr [(fz 10, fz 4000); (fz 10, fz 5000)].
Proof. eexists. split; [vm_compute; reflexivity|]. vm_compute. auto. Qed.

(** C53: refuted: removing lines or clearing the atlas leaves the old pairs. *)
Lemma pairs_follow_atlas_refuted_main :
  exists c0 : calib f64, calib_init all_inside [fz 10; fz 20] None = Ok c0 /\
    (let c := cal_run env0 c0 [OSetAtlas atlas2 (fz 10) false; ORemove (fz 4000) (fz 1)] in
     exists a, c_atlas c = Some a /\ get_lines a = [fz 5000] /\
       c_pairs c = PArr [(fz 10, fz 4000); (fz 10, fz 5000); (fz 20, fz 4000); (fz 20, fz 5000)]) /\
    (let c := cal_run env0 c0 [OSetAtlas atlas2 (fz 10) false; OClear] in
     exists a, c_atlas c = Some a /\ get_lines a = [] /\
       c_pairs c = PArr [(fz 10, fz 4000); (fz 10, fz 5000); (fz 20, fz 4000); (fz 20, fz 5000)]).
Proof.
  eexists. split; [vm_compute; reflexivity|]. split.
  - eexists. split; [vm_compute; reflexivity|]. split; vm_compute; reflexivity.
  - eexists. split; [vm_compute; reflexivity|]. split; vm_compute; reflexivity.
Qed.

(** C53, what does hold: in a history of accepted calls without
    remove_atlas_lines_range and clear_atlas, the pairs are those of the current
    atlas (as long as constrain_poly is off). *)
Lemma pairs_follow_atlas_partial_main :
  forall (A : Type) (N : Num A) (e : env A) peaks spectrum c0 h,
    calib_init (e_hull e) peaks spectrum = Ok c0 -> cal_ok e c0 h ->
    Forall (fun o => shrinks_atlas o = false) h ->
    let c := cal_run e c0 h in
    match c_atlas c with
    | None => c_pairs c = PMissing
    | Some a => c_constrain c = false -> pairs_of_atlas peaks a (c_pairs c)
    end.
Proof.
  intros A N e peaks spectrum c0 h H0 Hok Hs. cbv zeta.
  assert (K : c_peaks (cal_run e c0 h) = peaks /\
    match c_atlas (cal_run e c0 h) with
    | None => c_pairs (cal_run e c0 h) = PMissing
    | Some a => c_constrain (cal_run e c0 h) = false -> pairs_of_atlas peaks a (c_pairs (cal_run e c0 h))
    end); [|apply K].
  apply (cal_run_inv_ok e (fun o => shrinks_atlas o = false) (fun c => c_peaks c = peaks /\
    match c_atlas c with
    | None => c_pairs c = PMissing
    | Some a => c_constrain c = false -> pairs_of_atlas peaks a (c_pairs c)
    end)); auto.
  - destruct (init_others _ _ _ _ H0) as (-> & _ & _ & _ & -> & -> & _). auto.
  - intros c o Ho Hr [Hp Hc]. split; [rewrite step_peaks; exact Hp|].
    (* after a successful _generate_pairs on c1 *)
    assert (G : forall c1 : calib A, c_peaks c1 = peaks -> snd (generate_pairs (e_hull e) c1) = Ok tt ->
       match c_atlas (fst (generate_pairs (e_hull e) c1)) with
       | None => c_pairs (fst (generate_pairs (e_hull e) c1)) = PMissing
       | Some a => c_constrain (fst (generate_pairs (e_hull e) c1)) = false ->
                   pairs_of_atlas peaks a (c_pairs (fst (generate_pairs (e_hull e) c1)))
       end).
    { intros c1 Hp1 Hg. destruct (generate_pairs_frame (e_hull e) c1) as [p Ep].
      destruct (c_atlas c1) as [a|] eqn:Ea; [|unfold generate_pairs in Hg; rewrite Ea in Hg; discriminate].
      replace (c_atlas (fst (generate_pairs (e_hull e) c1))) with (Some a) by (rewrite Ep; cbn; auto).
      intros Hk. assert (c_constrain c1 = false) as Hk' by (rewrite Ep in Hk; exact Hk).
      destruct (generate_pairs_plain (e_hull e) c1 a Ea Hk') as [_ X]. rewrite Hp1 in X. exact X. }
    destruct o; cbn [shrinks_atlas] in Ho; try discriminate; cbn [cal_step] in *.
    + unfold set_calibrator_properties in *. cbv zeta in *.
      match goal with |- context [match ?x with Ok _ => _ | Raise _ => _ end] => destruct x end; exact Hc.
    + exact Hc.
    + exact Hc.
    + revert Hr. unfold set_hough_properties. cbv zeta.
      match goal with |- context [match ?x with Ok _ => _ | Raise _ => _ end] => destruct x; [|discriminate] end.
      destruct (g_pixels (c_gp c)); [|discriminate]. destruct (np_ptp l); [|discriminate].
      destruct (c_atlas c) eqn:Ea.
      * intros Hr. apply G; auto.
      * intros _. cbn. rewrite Ea. exact Hc.
    + rewrite (set_ransac_rp c a Hr). exact Hc.
    + revert Hr. unfold set_known_pairs.
      destruct pix; [|discriminate]. destruct wave; [|discriminate].
      destruct (negb _); [discriminate|]. destruct (existsb nisnan l); [discriminate|].
      destruct (existsb nisnan l0); [discriminate|]. intros _. exact Hc.
    + apply G; auto.
    + revert Hr. unfold cal_add_atlas. cbv zeta.
      destruct (h_minw (c_hp c)) as [minw|]; [|discriminate].
      destruct (h_maxw (c_hp c)) as [maxw|]; [|discriminate].
      destruct (h_rt (c_hp c)) as [rt|]; [|discriminate].
      destruct (c_atlas c) as [at_|].
      * destruct (atlas_add _ _ _ _) as [at' [[]|]]; [|discriminate]. apply G. exact Hp.
      * destruct (atlas_init _ _ _ _ _ _ _ _ _ _ _ _ _); [|discriminate]. apply G. exact Hp.
    + revert Hr. unfold cal_add_user_atlas. cbv zeta.
      destruct (add_user_atlas _ _) as [at' [[]|]]; [|discriminate]. apply G. exact Hp.
    + unfold do_hough_transform in *.
      repeat match goal with
             | |- context [match ?x with _ => _ end] =>
                 lazymatch x with c_atlas _ => fail | _ => destruct x eqn:?; try discriminate end
             end; cbn [fst snd] in *; try discriminate; try congruence;
      try exact Hc; cbn; match goal with E : c_pairs c = _ |- _ => rewrite E end; exact Hc.
    + unfold load_hough_transform in *. destruct (hough_load _ _ _ _). exact Hc.
Qed.

(** Non-vacuity of C53: lines added later appear in the pairs. *)
Example pairs_follow_atlas_example_main :
  exists c0 : calib f64, calib_init all_inside [fz 10; fz 20] None = Ok c0 /\
    let u := mkUserArgs (UElSeq (SeqList ["Ar"%string])) (SeqList [fz 6000]) (Some (SeqList [fz 1])) false (fz 0) (fz 0) (fz 0) in
    let h := [OSetAtlas atlas2 (fz 10) false; OAddUser u (fz 10) false] in
    cal_ok env0 c0 h /\
    c_pairs (cal_run env0 c0 h) =
      PArr [(fz 10, fz 4000); (fz 10, fz 5000); (fz 10, fz 6000);
            (fz 20, fz 4000); (fz 20, fz 5000); (fz 20, fz 6000)].
Proof.
  eexists. split; [vm_compute; reflexivity|]. cbv zeta. split; vm_compute; repeat split.
Qed.

(** C54: refuted: after the first transform, fit() keeps using the old Hough lines
    although the wavelength range (and with it pairs and limits) has changed ... *)
Definition hough_history : list (cal_op f64) :=
  [OHough (mkHA (Some (fz 10)) (Some 2%nat) (Some 2%nat) None None None None);
   OSetAtlas atlas2 (fz 10) false; OTransform false].
Lemma stale_hough_refuted_main :
  exists c0 : calib f64, calib_init all_inside [fz 10; fz 20] None = Ok c0 /\
    let later := OHough (mkHA None None None (Some (fz 4000)) (Some (fz 5000)) None None) in
    let c := cal_run env0 c0 (hough_history ++ [later]) in
    cal_ok env0 c0 (hough_history ++ [later]) /\
    fit_hough argsort_stable c = (c, Ok tt) /\
    c_lines c <> None /\
    c_lines (fst (do_hough_transform argsort_stable c false)) <> c_lines c.
Proof.
  eexists. split; [vm_compute; reflexivity|]. cbv zeta.
  split; [vm_compute; repeat split|]. split; [vm_compute; reflexivity|].
  split; vm_compute; discriminate.
Qed.

(** ... and a transform loaded by the user is thrown away by fit(). *)
Lemma loaded_hough_discarded_refuted_main :
  exists c0 : calib f64, calib_init all_inside [fz 10; fz 20] None = Ok c0 /\
    let c1 := cal_run env0 c0 hough_history in
    let fs := fst (save_hough_transform c1 (fun _ => None) "t" "npy" true) in
    let other := OHough (mkHA (Some (fz 10)) (Some 2%nat) (Some 2%nat) (Some (fz 4000)) (Some (fz 5000)) None None) in
    let h := [other; OSetAtlas atlas2 (fz 10) false; OLoad fs "t" "npy"] in
    let c2 := cal_run env0 c0 h in
    cal_ok env0 c0 h /\ ho_points (c_ht c2) = ho_points (c_ht c1) /\
    ho_points (c_ht c2) <> None /\
    snd (fit_hough argsort_stable c2) = Ok tt /\
    ho_points (c_ht (fst (fit_hough argsort_stable c2))) <> ho_points (c_ht c2).
Proof.
  eexists. split; [vm_compute; reflexivity|]. cbv zeta.
  split; [vm_compute; repeat split|]. split; [vm_compute; reflexivity|].
  split; [vm_compute; discriminate|]. split; [vm_compute; reflexivity|].
  vm_compute; discriminate.
Qed.

(** C54, what does hold: as long as no transform has been computed, fit() computes
    one from the current pairs, limits and settings, whatever happened before. *)
Lemma fit_hough_current_partial_main :
  forall (A : Type) (N : Num A) (e : env A) peaks spectrum c0 h,
    calib_init (e_hull e) peaks spectrum = Ok c0 ->
    Forall (fun o => transforms o = false) h ->
    let c := cal_run e c0 h in
    let (c', r) := fit_hough (e_argsort e) c in
    r = Ok tt ->
    exists rows ns xb yb t1 t2,
      c_pairs c = PArr rows /\ h_num_slopes (c_hp c) = Some ns /\ (0 <= ns)%Z /\
      h_xbins (c_hp c) = Some xb /\ h_ybins (c_hp c) = Some yb /\
      set_constraints (c_ht c) (h_min_slope (c_hp c)) (h_max_slope (c_hp c))
        (h_min_intercept (c_hp c)) (h_max_intercept (c_hp c)) = (t1, Ok tt) /\
      generate_hough_points t1 (map fst rows) (map snd rows) (Z.to_nat ns) = (t2, Ok tt) /\
      bin_hough_points (e_argsort e) t2 xb yb = (c_ht c', Ok tt) /\
      c_lines c' = ho_lines (c_ht c') /\ c_points c' = ho_points (c_ht c').
Proof.
  intros A N e peaks spectrum c0 h H0 Ht. cbv zeta.
  assert (K : c_lines (cal_run e c0 h) = None /\ c_points (cal_run e c0 h) = None).
  { apply (cal_run_inv_ops e (fun o => transforms o = false)
             (fun c => c_lines c = None /\ c_points c = None)); auto.
    - destruct (init_others _ _ _ _ H0) as (_ & _ & -> & -> & _). auto.
    - intros c o Ho [Hl Hq]. destruct (step_lines e c o Ho) as [-> ->]. auto. }
  set (c := cal_run e c0 h) in *. destruct K as [K1 K2].
  unfold fit_hough. rewrite K1.
  destruct (do_hough_transform (e_argsort e) c false) as [c' r] eqn:E. intros ->.
  unfold do_hough_transform in E.
  destruct (set_constraints _ _ _ _ _) as [t1 [[]|]]; destruct (c_pairs c) as [| |rows] eqn:Ep; try discriminate.
  cbv zeta in E.
  destruct (h_num_slopes (c_hp c)) as [ns|]; [|discriminate].
  destruct ns as [|ns|ns]; [| |discriminate].
  all: match type of E with context [generate_hough_points ?a ?b ?c ?d] =>
         destruct (generate_hough_points a b c d) as [t2 [[]|]] eqn:E2; [|discriminate] end;
       destruct (h_xbins (c_hp c)) as [xb|]; [|discriminate];
       destruct (h_ybins (c_hp c)) as [yb|]; [|discriminate];
       destruct (bin_hough_points (e_argsort e) t2 xb yb) as [t3 [[]|]] eqn:E3; [|discriminate];
       injection E as <-;
       exists rows; eexists; exists xb, yb, t1, t2;
       (split; [reflexivity|]); (split; [reflexivity|]); (split; [lia|]);
       (split; [reflexivity|]); (split; [reflexivity|]); (split; [reflexivity|]);
       (split; [exact E2|]); (split; [exact E3|]); split; reflexivity.
Qed.

(** Non-vacuity of C54: a history after which fit() can compute the transform. *)
Example fit_hough_current_example_main :
  exists c0 : calib f64, calib_init all_inside [fz 10; fz 20] None = Ok c0 /\
    snd (fit_hough argsort_stable (cal_run env0 c0 (firstn 2 hough_history))) = Ok tt.
Proof. eexists. split; [vm_compute; reflexivity|]. vm_compute. reflexivity. Qed.

(** C84: refuted: save_hough_transform(to_disk=False) returns nothing, for every
    transform and format. *)
Lemma save_returns_data_refuted_main :
  forall (A : Type) (N : Num A) (c : calib A) fs name fmt v,
    snd (save_hough_transform c fs name fmt false) = Ok v -> v = SvNone.
Proof.
  intros A N c fs name fmt v. unfold save_hough_transform.
  destruct (hough_save (c_ht c) fs name fmt false) as [fs' [x|ex]]; cbn; intros H.
  - injection H as <-. reflexivity.
  - discriminate.
Qed.

(** C84 (part that holds): with to_disk=False no file is touched; with to_disk=True
    the data go to the named file, from where any calibrator can load them. *)
Lemma save_to_disk_partial_main :
  forall (A : Type) (N : Num A) (c d : calib A) fs name fmt,
    fst (save_hough_transform c fs name fmt false) = fs /\
    (complete (c_ht c) -> str_in "npy"%string (split_plus fmt) = true -> str_last 4 name <> ".npy"%string ->
     exists d', load_hough_transform d (fst (save_hough_transform c fs name fmt true)) name "npy"%string = (d', Ok tt) /\
       same_stored (c_ht c) (c_ht d')).
Proof.
  intros A N c d fs name fmt. split.
  - unfold save_hough_transform, hough_save. rewrite andb_false_r.
    destruct (str_in "json"%string (split_plus fmt)); [destruct (json_of (c_ht c))|]; reflexivity.
  - intros C Hn Hs. unfold save_hough_transform, load_hough_transform.
    destruct (hough_save (c_ht c) fs name fmt true) as [fs' r] eqn:E. cbn [fst].
    destruct (hough_load (c_ht d) fs' name "npy"%string) as [g rl] eqn:El.
    destruct (Main_Hough.npy_round_trip_main _ _ _ _ _ _ _ _ _ _ _ C Hn Hs E El) as (-> & H & _).
    eexists. split; [reflexivity|]. destruct d; exact H.
Qed.

(** A transform computed in a session is complete. *)
Example save_to_disk_example_main :
  exists c0 : calib f64, calib_init all_inside [fz 10; fz 20] None = Ok c0 /\
    complete (c_ht (cal_run env0 c0 hough_history)) /\ str_last 4 "hough" <> ".npy"%string.
Proof. eexists. split; [vm_compute; reflexivity|]. split; [vm_compute; repeat split; discriminate|discriminate]. Qed.

(** C84: while the HoughTransform itself returns its content. *)
Example save_returns_data_example_main :
  exists c0 : calib f64, calib_init all_inside [fz 10; fz 20] None = Ok c0 /\
    let c := cal_run env0 c0 hough_history in
    (exists d, snd (hough_save (c_ht c) (fun _ => None) "t" "npy" false) = Ok (SvNpy d)) /\
    snd (save_hough_transform c (fun _ => None) "t" "npy" false) = Ok SvNone.
Proof.
  eexists. split; [vm_compute; reflexivity|]. cbv zeta. split; [eexists|]; vm_compute; reflexivity.
Qed.

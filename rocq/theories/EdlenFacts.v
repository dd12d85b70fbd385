(** * EdlenFacts: the air/vacuum conversions over the reals. *)

From Coq Require Import ZArith Bool List Lia Reals Lra Psatz.
From Verif Require Import Num XReal Py Np NpFacts Util.
Import ListNotations.
Local Open Scope R_scope.

Lemma Rlit_neg m p : Rlit m (Zneg p) = IZR m / IZR (Z.pow_pos 10 p).
Proof.
  unfold Rlit, Rdiv. f_equal. cbn [powerRZ]. f_equal.
  change 10 with (IZR 10). rewrite pow_IZR. f_equal. rewrite positive_nat_Z. reflexivity.
Qed.
Lemma Rlit_pos m p : Rlit m (Zpos p) = IZR m * IZR (Z.pow_pos 10 p).
Proof.
  unfold Rlit. f_equal. cbn [powerRZ].
  change 10 with (IZR 10). rewrite pow_IZR. f_equal. rewrite positive_nat_Z. reflexivity.
Qed.

(** Literals to explicit quotients. *)
Ltac rlit :=
  unfold nZ, nnat; cbn [nlit XRnum];
  rewrite ?Rlit_0, ?Rlit_neg, ?Rlit_pos;
  repeat match goal with
  | |- context[Z.pow_pos 10 ?p] =>
      let v := eval vm_compute in (Z.pow_pos 10 p) in change (Z.pow_pos 10 p) with v
  end.

Lemma xadd_F a b : nadd (Fin a) (Fin b) = Fin (a + b). Proof. reflexivity. Qed.
Lemma xsub_F a b : nsub (Fin a) (Fin b) = Fin (a - b). Proof. reflexivity. Qed.
Lemma xmul_F a b : nmul (Fin a) (Fin b) = Fin (a * b). Proof. reflexivity. Qed.
Lemma xopp_F a : nopp (Fin a) = Fin (- a). Proof. reflexivity. Qed.
Lemma xabs_F a : nabs (Fin a) = Fin (Rabs a). Proof. reflexivity. Qed.
Lemma xexp_F a : nexp (Fin a) = Fin (exp a). Proof. reflexivity. Qed.
Lemma xdiv_F a b : b <> 0 -> ndiv (Fin a) (Fin b) = Fin (a / b).
Proof. intros. cbn. destruct (Reqb_spec b 0); [tauto|reflexivity]. Qed.
Lemma xsqrt_F a : 0 <= a -> nsqrt (Fin a) = Fin (sqrt a).
Proof. intros. cbn. destruct (Rltb_spec a 0); [lra|reflexivity]. Qed.

Ltac xop := repeat progress rewrite ?xadd_F, ?xsub_F, ?xmul_F, ?xopp_F, ?xabs_F, ?xexp_F.

(** ** Water vapour *)

Lemma vapour_finite t : -273 <= t <= 400 ->
  exists v, get_vapour_pressure (Fin t) = Fin v.
Proof.
  intros Ht. unfold get_vapour_pressure. cbv zeta. rlit. xop.
  assert (Hd : t - 650175348448 / 1000000000 < -250) by lra.
  rewrite xdiv_F by lra. xop.
  set (om := t + -238555575678 / 1000000000000 / (t - 650175348448 / 1000000000)).
  assert (Hom : t <= om <= t + 0.001).
  { unfold om.
    assert (0 <= -238555575678 / 1000000000000 / (t - 650175348448 / 1000000000) <= 0.001); [|lra].
    assert (Hi : / (t - 650175348448 / 1000000000) < 0) by (apply Rinv_lt_0_compat; lra).
    assert (Hi2 : -0.004 <= / (t - 650175348448 / 1000000000)).
    { set (d := t - 650175348448 / 1000000000) in *.
      assert (/ - d <= / 250) by (apply Rinv_le_contravar; lra).
      rewrite Rinv_opp in H. lra. }
    unfold Rdiv at 1 4. split; nra. }
  clearbody om. xop.
  set (a := om * om + 116705214528 / 100000000 * om + -724213167032 / 1000000) in *.
  set (b := -170738469401 / 10000000000 * (om * om) + 120208247025 / 10000000 * om + -323255503223 / 100000) in *.
  set (c := 149151086135 / 10000000000 * (om * om) + -482326573616 / 100000000 * om + 405113405421 / 1000000) in *.
  assert (Hc : 0 < c) by (unfold c; pose proof (Rle_0_sqr (om - 161)) as Hq; unfold Rsqr in Hq; nra).
  assert (Ha : a < 0) by (unfold a; nra).
  set (disc := b * b - 4 * a * c) in *.
  assert (Hb : b * b < disc) by (unfold disc; nra).
  rewrite xsqrt_F by nra. xop.
  assert (Hs : Rabs b < sqrt disc).
  { rewrite <- sqrt_Rsqr_abs. apply sqrt_lt_1; unfold Rsqr; nra. }
  assert (- b + sqrt disc > 0) by (revert Hs; unfold Rabs; destruct (Rcase_abs b); lra).
  rewrite xdiv_F by lra. xop. eauto.
Qed.

(** ** The index of refraction of dry air *)

(** 10^8 (n_s - 1) as a function of the squared wave number (1/micron^2). *)
Definition disp (s : R) : R := 834254 / 100 + 2406147 / (130 - s) + 15998 / (389 / 10 - s).
Definition wavenum2 (w : R) : R := 1 / (w / 10000 * (w / 10000)).
Definition xfac (t p : R) : R := (1 + 1 / 100000000 * (601 / 1000 - 972 / 100000 * t) * p) / (1 + 3661 / 1000000 * t).
Definition dry_index (w t p : R) : R :=
  1 + p * (1 / 100000000 * disp (wavenum2 w)) * xfac t p / (9609543 / 100).

Lemma refraction_dry w T p :
  -273 <= T - 273.15 <= 400 -> w <> 0 ->
  wavenum2 w <> 130 -> wavenum2 w <> 389 / 10 ->
  refraction_at (Fin w) (Fin T) (Fin p) (Fin 0) = Fin (dry_index w (T - 273.15) p).
Proof.
  intros Ht Hw H130 H38. unfold refraction_at. cbv zeta.
  replace (nsub (Fin T) (nlit 27315 (-2))) with (Fin (T - 273.15)) by (rlit; xop; f_equal; lra).
  set (t := T - 273.15) in *.
  destruct (vapour_finite t Ht) as [v Ev]. rewrite Ev. unfold get_vapour_partial_pressure.
  unfold edlen_refraction. cbv zeta. rlit. xop.
  rewrite (xdiv_F 0 100) by lra. rewrite (xdiv_F w) by lra. xop.
  replace (1 * 10000) with 10000 by lra.
  assert (w / 10000 <> 0) by lra.
  rewrite (xdiv_F 1) by nra. fold (wavenum2 w). set (s := wavenum2 w) in *. xop.
  repeat (rewrite xdiv_F by lra; xop). unfold dry_index. fold s. unfold disp, xfac. f_equal.
  assert (t + 27315 / 100 <> 0) by lra. assert (1 + 3661 / 1000000 * t <> 0) by lra.
  assert (130 - s <> 0) by lra. assert (389 / 10 - s <> 0) by lra.
  field. repeat split; lra.
Qed.

Lemma wavenum2_lt w : 2000 < w -> 0 < wavenum2 w < 25.
Proof.
  intros H. unfold wavenum2.
  assert (0.04 < w / 10000 * (w / 10000)) by nra.
  split.
  - apply Rdiv_lt_0_compat; lra.
  - unfold Rdiv at 1. rewrite Rmult_1_l. replace 25 with (/ 0.04) by lra.
    apply Rinv_lt_contravar; nra.
Qed.

Lemma Rdiv_le_denom a d1 d2 : 0 < a -> 0 < d1 <= d2 -> a / d2 <= a / d1.
Proof.
  intros. unfold Rdiv. apply Rmult_le_compat_l; [lra|]. apply Rinv_le_contravar; lra.
Qed.
Lemma Rdiv_lt_denom a d1 d2 : 0 < a -> 0 < d1 < d2 -> a / d2 < a / d1.
Proof.
  intros. unfold Rdiv. apply Rmult_lt_compat_l; [lra|]. apply Rinv_lt_contravar; nra.
Qed.

Lemma disp_bounds s : 0 <= s <= 25 -> 0 < disp s < 32500.
Proof.
  intros H. unfold disp.
  assert (0 < 2406147 / (130 - s) <= 2406147 / 105).
  { split; [apply Rdiv_lt_0_compat; lra|apply Rdiv_le_denom; lra]. }
  assert (0 < 15998 / (389 / 10 - s) <= 15998 / 13.9).
  { split; [apply Rdiv_lt_0_compat; lra|apply Rdiv_le_denom; lra]. }
  lra.
Qed.

(** The dispersion grows with the wave number, by less than 302 per unit. *)
Lemma disp_incr s1 s2 : 0 <= s1 < s2 -> s2 <= 25 ->
  0 < disp s2 - disp s1 < 302 * (s2 - s1).
Proof.
  intros H1 H2. unfold disp.
  assert (E1 : 2406147 / (130 - s2) - 2406147 / (130 - s1) =
               (s2 - s1) * (2406147 * (/ (130 - s2) * / (130 - s1)))) by (field; lra).
  assert (E2 : 15998 / (389 / 10 - s2) - 15998 / (389 / 10 - s1) =
               (s2 - s1) * (15998 * (/ (389 / 10 - s2) * / (389 / 10 - s1)))) by (field; lra).
  assert (Hinv : forall a d, 0 < d <= a -> 0 < / a <= / d).
  { intros. split; [apply Rinv_0_lt_compat; lra|apply Rinv_le_contravar; lra]. }
  pose proof (Hinv (130 - s1) 105 ltac:(lra)). pose proof (Hinv (130 - s2) 105 ltac:(lra)).
  pose proof (Hinv (389 / 10 - s1) 13.9 ltac:(lra)). pose proof (Hinv (389 / 10 - s2) 13.9 ltac:(lra)).
  assert (P1 : 0 < / (130 - s2) * / (130 - s1) <= / 105 * / 105).
  { split; [apply Rmult_lt_0_compat; lra|apply Rmult_le_compat; lra]. }
  assert (P2 : 0 < / (389 / 10 - s2) * / (389 / 10 - s1) <= / 13.9 * / 13.9).
  { split; [apply Rmult_lt_0_compat; lra|apply Rmult_le_compat; lra]. }
  set (u := / (130 - s2) * / (130 - s1)) in *. set (v := / (389 / 10 - s2) * / (389 / 10 - s1)) in *.
  replace (834254 / 100 + 2406147 / (130 - s2) + 15998 / (389 / 10 - s2) -
           (834254 / 100 + 2406147 / (130 - s1) + 15998 / (389 / 10 - s1)))
    with ((s2 - s1) * (2406147 * u + 15998 * v)) by lra.
  assert (0 < 2406147 * u + 15998 * v < 302) by lra.
  split; nra.
Qed.

Lemma xfac_pos t p : 0 <= t <= 60 -> 0 < p -> 0 < xfac t p.
Proof. intros. unfold xfac. apply Rdiv_lt_0_compat; nra. Qed.

Lemma xfac_le t p : 0 <= t <= 60 -> 0 < p <= 120000 -> xfac t p < 1.001.
Proof.
  intros. unfold xfac. apply Rmult_lt_reg_r with (1 + 3661 / 1000000 * t); [lra|].
  unfold Rdiv. rewrite Rmult_assoc, Rinv_l, Rmult_1_r by lra. nra.
Qed.

(** The factor in front of the dispersion. *)
Definition kfac (t p : R) : R := p * (1 / 100000000) * xfac t p / (9609543 / 100).
Lemma kfac_pos t p : 0 <= t <= 60 -> 0 < p -> 0 < kfac t p.
Proof.
  intros. unfold kfac. pose proof (xfac_pos t p H H0). 
  assert (0 < p * (1 / 100000000) * xfac t p) by (apply Rmult_lt_0_compat; lra). lra.
Qed.
Lemma kfac_le t p : 0 <= t <= 60 -> 0 < p <= 120000 -> kfac t p < 0.0000000126.
Proof.
  intros. unfold kfac. pose proof (xfac_pos t p H ltac:(lra)). pose proof (xfac_le t p H H0).
  assert (p * (1 / 100000000) * xfac t p <= 0.0012 * 1.001).
  { apply Rmult_le_compat; lra. }
  lra.
Qed.
Lemma dry_index_k w t p : dry_index w t p = 1 + kfac t p * disp (wavenum2 w).
Proof. unfold dry_index, kfac. field. Qed.

Lemma dry_index_gt1 w t p : 2000 < w -> 0 <= t <= 60 -> 0 < p -> 1 < dry_index w t p.
Proof.
  intros. rewrite dry_index_k. pose proof (kfac_pos t p H0 H1).
  pose proof (wavenum2_lt w H). pose proof (disp_bounds (wavenum2 w) ltac:(lra)). nra.
Qed.

Lemma wavenum2_decr w1 w2 : 2000 < w1 -> w1 < w2 -> wavenum2 w2 < wavenum2 w1.
Proof. intros. unfold wavenum2. apply Rdiv_lt_denom; nra. Qed.

Lemma dry_index_decr w1 w2 t p : 2000 < w1 -> w1 < w2 -> 0 <= t <= 60 -> 0 < p ->
  dry_index w2 t p < dry_index w1 t p.
Proof.
  intros. rewrite !dry_index_k. pose proof (kfac_pos t p H1 H2).
  pose proof (wavenum2_decr w1 w2 H H0). pose proof (wavenum2_lt w1 H).
  pose proof (wavenum2_lt w2 ltac:(lra)).
  pose proof (disp_incr (wavenum2 w2) (wavenum2 w1) ltac:(lra) ltac:(lra)). nra.
Qed.

(** ** The conversions *)

Definition vac2air (w t p : R) : R := w / dry_index w t p.
Definition air2vac (w t p : R) : R := w * dry_index w t p.

Lemma refraction_dry' w t p : 2000 < w -> 0 <= t <= 60 ->
  refraction_at (Fin w) (Fin (t + 273.15)) (Fin p) (Fin 0) = Fin (dry_index w t p).
Proof.
  intros Hw Ht. pose proof (wavenum2_lt w Hw).
  rewrite refraction_dry by lra. f_equal. f_equal. lra.
Qed.

Lemma vac2air_shorter w t p : 2000 < w -> 0 <= t <= 60 -> 0 < p -> 0 < vac2air w t p < w.
Proof.
  intros. pose proof (dry_index_gt1 w t p H H0 H1). unfold vac2air. split.
  - apply Rdiv_lt_0_compat; lra.
  - apply Rmult_lt_reg_r with (dry_index w t p); [lra|]. unfold Rdiv.
    rewrite Rmult_assoc, Rinv_l, Rmult_1_r by lra. nra.
Qed.

Lemma air2vac_longer w t p : 2000 < w -> 0 <= t <= 60 -> 0 < p -> w < air2vac w t p.
Proof. intros. pose proof (dry_index_gt1 w t p H H0 H1). unfold air2vac. nra. Qed.

Lemma vac2air_mono w1 w2 t p : 2000 < w1 -> w1 < w2 -> 0 <= t <= 60 -> 0 < p ->
  vac2air w1 t p < vac2air w2 t p.
Proof.
  intros. pose proof (dry_index_gt1 w1 t p H H1 H2). pose proof (dry_index_gt1 w2 t p ltac:(lra) H1 H2).
  pose proof (dry_index_decr w1 w2 t p H H0 H1 H2). unfold vac2air, Rdiv.
  apply Rlt_trans with (w2 * / dry_index w1 t p).
  - apply Rmult_lt_compat_r; auto. apply Rinv_0_lt_compat; lra.
  - apply Rmult_lt_compat_l; [lra|]. apply Rinv_lt_contravar; nra.
Qed.

Lemma air2vac_mono w1 w2 t p : 2000 < w1 -> w1 < w2 -> 0 <= t <= 60 -> 0 < p <= 120000 ->
  air2vac w1 t p < air2vac w2 t p.
Proof.
  intros. pose proof (dry_index_gt1 w2 t p ltac:(lra) H1 ltac:(lra)) as Hn2.
  unfold air2vac. rewrite !dry_index_k in *.
  pose proof (kfac_pos t p H1 ltac:(lra)) as Hk0. pose proof (kfac_le t p H1 H2) as Hk.
  set (k := kfac t p) in *.
  pose proof (wavenum2_decr w1 w2 H H0). pose proof (wavenum2_lt w1 H).
  pose proof (wavenum2_lt w2 ltac:(lra)).
  pose proof (disp_incr (wavenum2 w2) (wavenum2 w1) ltac:(lra) ltac:(lra)) as Hd.
  (* w1 * (s1 - s2) <= 50 (w2 - w1) *)
  assert (Hs : w1 * (wavenum2 w1 - wavenum2 w2) <= 50 * (w2 - w1)).
  { assert (E : w1 * (wavenum2 w1 - wavenum2 w2) =
                (w2 - w1) * (100000000 * (/ w2 * / w1 + / w2 * / w2))).
    { unfold wavenum2. field. lra. }
    assert (I1 : 0 < / w1 < / 2000).
    { split; [apply Rinv_0_lt_compat; lra|apply Rinv_lt_contravar; nra]. }
    assert (I2 : 0 < / w2 < / 2000).
    { split; [apply Rinv_0_lt_compat; lra|apply Rinv_lt_contravar; nra]. }
    rewrite E.
    assert (/ w2 * / w1 <= / 2000 * / 2000) by (apply Rmult_le_compat; lra).
    assert (/ w2 * / w2 <= / 2000 * / 2000) by (apply Rmult_le_compat; lra).
    assert (100000000 * (/ w2 * / w1 + / w2 * / w2) <= 50) by lra.
    nra. }
  set (d1 := disp (wavenum2 w1)) in *. set (d2 := disp (wavenum2 w2)) in *.
  set (s1 := wavenum2 w1) in *. set (s2 := wavenum2 w2) in *.
  assert (Hw : w1 * (d1 - d2) <= 302 * (50 * (w2 - w1))) by nra.
  assert (k * (w1 * (d1 - d2)) < w2 - w1).
  { apply Rle_lt_trans with (k * (302 * (50 * (w2 - w1)))); [apply Rmult_le_compat_l; lra|]. nra. }
  nra.
Qed.

Lemma round_trip w t p : 2000 < w -> 0 <= t <= 60 -> 0 < p <= 120000 ->
  0 < vac2air (air2vac w t p) t p - w < w * 0.0000001.
Proof.
  intros Hw Ht Hp. pose proof (air2vac_longer w t p Hw Ht ltac:(lra)) as Hv.
  set (v := air2vac w t p) in *.
  pose proof (dry_index_gt1 w t p Hw Ht ltac:(lra)) as Gw.
  pose proof (dry_index_gt1 v t p ltac:(lra) Ht ltac:(lra)) as Gv.
  pose proof (dry_index_decr w v t p Hw Hv Ht ltac:(lra)) as Hd.
  assert (E : vac2air v t p - w = w * ((dry_index w t p - dry_index v t p) / dry_index v t p)).
  { unfold vac2air. unfold v at 1. unfold air2vac. field. lra. }
  rewrite E.
  assert (B : dry_index w t p - dry_index v t p < 0.0000001).
  { rewrite !dry_index_k in *. 
    pose proof (kfac_pos t p Ht ltac:(lra)) as Hk0. pose proof (kfac_le t p Ht Hp) as Hk.
    set (k := kfac t p) in *.
    pose proof (wavenum2_decr w v Hw Hv). pose proof (wavenum2_lt w Hw).
    pose proof (wavenum2_lt v ltac:(lra)).
    pose proof (disp_incr (wavenum2 v) (wavenum2 w) ltac:(lra) ltac:(lra)) as Hdd.
    pose proof (disp_bounds (wavenum2 w) ltac:(lra)) as Hb.
    assert (Es : wavenum2 v = wavenum2 w / ((1 + k * disp (wavenum2 w)) * (1 + k * disp (wavenum2 w)))).
    { unfold v, air2vac. rewrite dry_index_k. fold k. set (D := disp (wavenum2 w)) in *. unfold wavenum2. field.
      split; [nra|lra]. }
    set (n := 1 + k * disp (wavenum2 w)) in *.
    assert (Hn : 1 < n < 1.00041).
    { split; auto. unfold n. nra. }
    assert (Hdiff : wavenum2 w - wavenum2 v < 25 * 0.00083).
    { rewrite Es. set (s := wavenum2 w) in *.
      assert (s - s / (n * n) = s * ((n - 1) * (n + 1) * / (n * n))) by (field; lra).
      rewrite H2.
      assert (0 < / (n * n) < 1).
      { split; [apply Rinv_0_lt_compat; nra|]. rewrite <- Rinv_1. apply Rinv_lt_contravar; nra. }
      assert (0 < (n - 1) * (n + 1) < 0.000821) by nra.
      assert (0 < (n - 1) * (n + 1) * / (n * n) < 0.000821) by nra.
      nra. }
    set (dl := disp (wavenum2 w) - disp (wavenum2 v)) in *.
    assert (Hdl : 0 < dl < 6.3) by lra.
    assert (k * dl <= 0.0000000126 * 6.3) by (apply Rmult_le_compat; lra).
    replace (n - (1 + k * disp (wavenum2 v))) with (k * dl) by (unfold n, dl; ring). lra. }
  assert (0 < (dry_index w t p - dry_index v t p) / dry_index v t p < 0.0000001).
  { split; [apply Rdiv_lt_0_compat; lra|].
    apply Rmult_lt_reg_r with (dry_index v t p); [lra|]. unfold Rdiv.
    rewrite Rmult_assoc, Rinv_l, Rmult_1_r by lra. nra. }
  nra.
Qed.

(** ** No atmosphere *)

Lemma dry_index_vacuum w t : dry_index w t 0 = 1.
Proof. unfold dry_index. lra. Qed.

(** ** gauss *)

Definition gauss_exponent (x x0 sigma : R) : R :=
  - ((x - x0) * (x - x0)) / (2 * (sigma * sigma) + 1 / 1000000000).

Lemma gauss_real x a x0 sigma :
  gauss (Fin x) (Fin a) (Fin x0) (Fin sigma) = Fin (a * exp (gauss_exponent x x0 sigma)).
Proof.
  unfold gauss. rlit. xop.
  assert (2 * (sigma * sigma) + 1 / 1000000000 <> 0) by nra.
  rewrite xdiv_F by auto. xop. unfold gauss_exponent. reflexivity.
Qed.

Lemma gauss_den sigma : 0 < 2 * (sigma * sigma) + 1 / 1000000000.
Proof. nra. Qed.

Lemma gauss_exponent_le x x0 sigma : gauss_exponent x x0 sigma <= 0.
Proof.
  unfold gauss_exponent. pose proof (gauss_den sigma) as D.
  apply Rinv_0_lt_compat in D. pose proof (Rle_0_sqr (x - x0)) as Q. unfold Rsqr in Q.
  unfold Rdiv. set (q := (x - x0) * (x - x0)) in *. nra.
Qed.

Lemma gauss_exponent_mono x y x0 sigma :
  Rabs (x - x0) <= Rabs (y - x0) -> gauss_exponent y x0 sigma <= gauss_exponent x x0 sigma.
Proof.
  intros H. unfold gauss_exponent, Rdiv. apply Rmult_le_compat_r.
  - apply Rlt_le, Rinv_0_lt_compat, gauss_den.
  - apply Ropp_le_contravar. apply Rsqr_le_abs_1 in H. exact H.
Qed.

Lemma exp_le_mono a b : a <= b -> exp a <= exp b.
Proof. intros [H|H]; [left; apply exp_increasing; auto|subst; lra]. Qed.

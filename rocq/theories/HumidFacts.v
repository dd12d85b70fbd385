(** * HumidFacts: the index of refraction of humid air. *)

From Coq Require Import ZArith List Reals Lra Lia.
From Verif Require Import Num XReal Py Np Util EdlenFacts.
Import ListNotations.
Local Open Scope R_scope.

(** The saturation pressure the conversions use is between 0 and 700 Pa. *)
Lemma vapour_bounds t : 0 <= t <= 60 ->
  exists v, get_vapour_pressure (Fin t) = Fin v /\ 0 < v <= 700.
Proof.
  intros Ht. unfold get_vapour_pressure. cbv zeta. rlit. xop.
  assert (Hd : t - 650175348448 / 1000000000 < -250) by lra.
  rewrite xdiv_F by lra. xop.
  set (om := t + -238555575678 / 1000000000000 / (t - 650175348448 / 1000000000)).
  assert (Hom : t <= om <= t + 0.001).
  { unfold om.
    assert (0 <= -238555575678 / 1000000000000 / (t - 650175348448 / 1000000000) <= 0.001); [|lra].
    assert (Hi : / (t - 650175348448 / 1000000000) < 0) by (apply Rinv_lt_0_compat; lra).
    assert (Hi2 : -0.004 <= / (t - 650175348448 / 1000000000)).
    { set (d := t - 650175348448 / 1000000000) in *.
      assert (/ - d <= / 250) by (apply Rinv_le_contravar; lra).
      rewrite Rinv_opp in H. lra. }
    unfold Rdiv at 1 4. split; nra. }
  clearbody om. xop.
  set (a := om * om + 116705214528 / 100000000 * om + -724213167032 / 1000000) in *.
  set (b := -170738469401 / 10000000000 * (om * om) + 120208247025 / 10000000 * om + -323255503223 / 100000) in *.
  set (c := 149151086135 / 10000000000 * (om * om) + -482326573616 / 100000000 * om + 405113405421 / 1000000) in *.
  assert (Hc : 0 < c <= 405114) by (unfold c; split; nra).
  assert (Ha : a < 0) by (unfold a; nra).
  assert (Hb0 : b <= -2500000) by (unfold b; nra).
  set (disc := b * b - 4 * a * c) in *.
  assert (Hb : b * b < disc) by (unfold disc; nra).
  rewrite xsqrt_F by nra. xop.
  assert (Hs : - b < sqrt disc).
  { replace (- b) with (sqrt (Rsqr (- b))) by (apply sqrt_Rsqr; lra).
    apply sqrt_lt_1; unfold Rsqr; nra. }
  set (sd := sqrt disc) in *.
  rewrite xdiv_F by lra. xop. eexists. split; [reflexivity|].
  set (x := - b + sd) in *. assert (Hx : 5000000 <= x) by (unfold x; lra).
  assert (Hq : 0 < 2 * c / x <= 0.1621).
  { split; [apply Rdiv_lt_0_compat; lra|].
    apply Rmult_le_reg_r with x; [lra|]. unfold Rdiv. rewrite Rmult_assoc, Rinv_l by lra. lra. }
  set (q := 2 * c / x) in *.
  assert (Hq2 : 0 < q * q <= 0.02628) by nra.
  assert (0 < q * q * (q * q) <= 0.000691) by nra.
  lra.
Qed.

(** The humidity term of the index, per Pa of vapour. *)
Definition vapour_term (w t : R) : R :=
  1 / 10000000000 * (292.75 / (t + 273.15)) * (3.7345 - 0.0401 * wavenum2 w).
Definition moist_index (w t p e : R) : R := dry_index w t p - vapour_term w t * e.

Lemma refraction_moist w t p rh v : 2000 < w -> 0 <= t <= 60 -> get_vapour_pressure (Fin t) = Fin v ->
  refraction_at (Fin w) (Fin (t + 273.15)) (Fin p) (Fin rh) = Fin (moist_index w t p (rh / 100 * v)).
Proof.
  intros Hw Ht Ev. pose proof (wavenum2_lt w Hw) as Hs. unfold refraction_at. cbv zeta.
  replace (nsub (Fin (t + 273.15)) (nlit 27315 (-2))) with (Fin t) by (rlit; xop; f_equal; lra).
  rewrite Ev. unfold get_vapour_partial_pressure, edlen_refraction. cbv zeta. rlit. xop.
  rewrite (xdiv_F rh 100) by lra. rewrite (xdiv_F w) by lra. xop.
  replace (1 * 10000) with 10000 by lra.
  assert (w / 10000 <> 0) by lra.
  rewrite (xdiv_F 1) by nra. fold (wavenum2 w).
  unfold moist_index, dry_index, vapour_term, disp, xfac. set (s := wavenum2 w) in *. xop.
  repeat (rewrite xdiv_F by lra; xop). f_equal.
  replace 292.75 with (29275 / 100) by lra. replace 273.15 with (27315 / 100) by lra.
  replace 3.7345 with (37345 / 10000) by lra. replace 0.0401 with (401 / 10000) by lra.
  field. repeat split; lra.
Qed.

Lemma vapour_term_bounds w t : 2000 < w -> 0 <= t <= 60 -> 0 < vapour_term w t < 0.00000000041.
Proof.
  intros Hw Ht. pose proof (wavenum2_lt w Hw). unfold vapour_term.
  assert (0 < / (t + 273.15) <= / 273.15).
  { split; [apply Rinv_0_lt_compat; lra|apply Rinv_le_contravar; lra]. }
  assert (0 < 292.75 / (t + 273.15) < 1.072) by (unfold Rdiv; split; nra).
  set (u := 292.75 / (t + 273.15)) in *. split; nra.
Qed.

Lemma disp_low s : 0 <= s <= 25 -> 27000 < disp s.
Proof.
  intros H. unfold disp.
  assert (2406147 / 130 <= 2406147 / (130 - s)) by (apply Rdiv_le_denom; lra).
  assert (15998 / 38.9 <= 15998 / (389 / 10 - s)) by (apply Rdiv_le_denom; lra).
  lra.
Qed.

Lemma kfac_low t p : 0 <= t <= 60 -> 0 < p -> 0.00000000000008 * p < kfac t p.
Proof.
  intros Ht Hp. unfold kfac.
  assert (0.8 < xfac t p).
  { unfold xfac. set (q := 1 + 3661 / 1000000 * t). set (a := 1 + _).
    assert (Hq : 1 <= q < 1.22) by (unfold q; lra). assert (Ha : 1 <= a) by (unfold a; nra).
    apply Rmult_lt_reg_r with q; [lra|].
    replace (a / q * q) with a by (field; lra). lra. }
  set (x := xfac t p) in *. unfold Rdiv. nra.
Qed.

Lemma moist_gt1 w t p e : 2000 < w -> 0 <= t <= 60 -> 0 < p -> 0 <= e <= p -> 1 < moist_index w t p e.
Proof.
  intros Hw Ht Hp He. unfold moist_index. rewrite dry_index_k.
  pose proof (wavenum2_lt w Hw). pose proof (disp_low (wavenum2 w) ltac:(lra)) as Hd.
  pose proof (kfac_low t p Ht Hp) as Hk. pose proof (vapour_term_bounds w t Hw Ht) as Hv.
  set (D := disp (wavenum2 w)) in *. set (k := kfac t p) in *. set (u := vapour_term w t) in *.
  assert (0.00000000000008 * p * 27000 < k * D).
  { apply Rlt_trans with (k * 27000); [nra|]. assert (0 < k) by nra. nra. }
  assert (u * e <= 0.00000000041 * p) by (apply Rmult_le_compat; lra). lra.
Qed.

Lemma vapour_term_incr w1 w2 t : 2000 < w1 -> w1 < w2 -> 0 <= t <= 60 ->
  0 < vapour_term w2 t - vapour_term w1 t < 0.0000000000044 * (wavenum2 w1 - wavenum2 w2).
Proof.
  intros Hw H12 Ht. pose proof (wavenum2_decr w1 w2 Hw H12) as Hd. unfold vapour_term.
  assert (0 < / (t + 273.15) <= / 273.15).
  { split; [apply Rinv_0_lt_compat; lra|apply Rinv_le_contravar; lra]. }
  assert (0 < 292.75 / (t + 273.15) < 1.072) by (unfold Rdiv; split; nra).
  set (u := 292.75 / (t + 273.15)) in *. set (s1 := wavenum2 w1) in *. set (s2 := wavenum2 w2) in *.
  replace (1 / 10000000000 * u * (3.7345 - 0.0401 * s2) - 1 / 10000000000 * u * (3.7345 - 0.0401 * s1))
    with (1 / 10000000000 * 0.0401 * u * (s1 - s2)) by lra.
  split; nra.
Qed.

Lemma moist_decr w1 w2 t p e : 2000 < w1 -> w1 < w2 -> 0 <= t <= 60 -> 0 < p -> 0 <= e ->
  moist_index w2 t p e < moist_index w1 t p e.
Proof.
  intros Hw H12 Ht Hp He. pose proof (dry_index_decr w1 w2 t p Hw H12 Ht Hp).
  pose proof (vapour_term_incr w1 w2 t Hw H12 Ht). unfold moist_index. nra.
Qed.

(** More vapour, smaller index. *)
Lemma moist_vapour w t p e1 e2 : 2000 < w -> 0 <= t <= 60 -> e1 < e2 -> moist_index w t p e2 < moist_index w t p e1.
Proof. intros Hw Ht H. pose proof (vapour_term_bounds w t Hw Ht). unfold moist_index. nra. Qed.

Lemma inv_steps w1 w2 : 2000 < w1 -> w1 < w2 -> w1 * (wavenum2 w1 - wavenum2 w2) <= 50 * (w2 - w1).
Proof.
  intros H H0. assert (E : w1 * (wavenum2 w1 - wavenum2 w2) =
                (w2 - w1) * (100000000 * (/ w2 * / w1 + / w2 * / w2))).
  { unfold wavenum2. field. lra. }
  assert (I1 : 0 < / w1 < / 2000).
  { split; [apply Rinv_0_lt_compat; lra|apply Rinv_lt_contravar; nra]. }
  assert (I2 : 0 < / w2 < / 2000).
  { split; [apply Rinv_0_lt_compat; lra|apply Rinv_lt_contravar; nra]. }
  rewrite E.
  assert (/ w2 * / w1 <= / 2000 * / 2000) by (apply Rmult_le_compat; lra).
  assert (/ w2 * / w2 <= / 2000 * / 2000) by (apply Rmult_le_compat; lra).
  assert (100000000 * (/ w2 * / w1 + / w2 * / w2) <= 50) by lra.
  nra.
Qed.

(** The index falls by at most 5e-6 per unit of the squared wave number. *)
Lemma moist_slope w1 w2 t p e : 2000 < w1 -> w1 < w2 -> 0 <= t <= 60 -> 0 < p <= 120000 -> 0 <= e <= p ->
  moist_index w1 t p e - moist_index w2 t p e <= 0.0000045 * (wavenum2 w1 - wavenum2 w2).
Proof.
  intros Hw H12 Ht Hp He. unfold moist_index. rewrite !dry_index_k.
  pose proof (kfac_pos t p Ht ltac:(lra)) as Hk0. pose proof (kfac_le t p Ht Hp) as Hk.
  pose proof (wavenum2_decr w1 w2 Hw H12). pose proof (wavenum2_lt w1 Hw). pose proof (wavenum2_lt w2 ltac:(lra)).
  pose proof (disp_incr (wavenum2 w2) (wavenum2 w1) ltac:(lra) ltac:(lra)) as Hd.
  pose proof (vapour_term_incr w1 w2 t Hw H12 Ht) as Hv.
  set (s1 := wavenum2 w1) in *. set (s2 := wavenum2 w2) in *. set (k := kfac t p) in *.
  set (dl := disp s1 - disp s2) in *. set (dv := vapour_term w2 t - vapour_term w1 t) in *.
  replace (1 + k * disp s1 - vapour_term w1 t * e - (1 + k * disp s2 - vapour_term w2 t * e))
    with (k * dl + dv * e) by (unfold dl, dv; ring).
  assert (k * dl <= 0.0000000126 * (302 * (s1 - s2))) by (apply Rmult_le_compat; lra).
  assert (dv * e <= 0.0000000000044 * (s1 - s2) * 120000) by (apply Rmult_le_compat; lra).
  lra.
Qed.

Lemma moist_air2vac_mono w1 w2 t p e : 2000 < w1 -> w1 < w2 -> 0 <= t <= 60 -> 0 < p <= 120000 -> 0 <= e <= p ->
  w1 * moist_index w1 t p e < w2 * moist_index w2 t p e.
Proof.
  intros Hw H12 Ht Hp He. pose proof (moist_gt1 w2 t p e ltac:(lra) Ht ltac:(lra) He).
  pose proof (moist_slope w1 w2 t p e Hw H12 Ht Hp He). pose proof (inv_steps w1 w2 Hw H12). nra.
Qed.

Lemma moist_vac2air_mono w1 w2 t p e : 2000 < w1 -> w1 < w2 -> 0 <= t <= 60 -> 0 < p -> 0 <= e <= p ->
  w1 / moist_index w1 t p e < w2 / moist_index w2 t p e.
Proof.
  intros. pose proof (moist_gt1 w1 t p e H H1 H2 H3). pose proof (moist_gt1 w2 t p e ltac:(lra) H1 H2 H3).
  pose proof (moist_decr w1 w2 t p e H H0 H1 H2 ltac:(lra)). unfold Rdiv.
  apply Rlt_trans with (w2 * / moist_index w1 t p e).
  - apply Rmult_lt_compat_r; auto. apply Rinv_0_lt_compat; lra.
  - apply Rmult_lt_compat_l; [lra|]. apply Rinv_lt_contravar; nra.
Qed.

Lemma moist_round_trip w t p e : 2000 < w -> 0 <= t <= 60 -> 0 < p <= 120000 -> 0 <= e <= p ->
  let v := w * moist_index w t p e in
  0 < v / moist_index v t p e - w < w * 0.0000001.
Proof.
  intros Hw Ht Hp He v.
  pose proof (moist_gt1 w t p e Hw Ht ltac:(lra) He) as Gw.
  assert (Hv : w < v) by (unfold v; nra).
  pose proof (moist_gt1 v t p e ltac:(lra) Ht ltac:(lra) He) as Gv.
  pose proof (moist_decr w v t p e Hw Hv Ht ltac:(lra) ltac:(lra)) as Hd.
  assert (E : v / moist_index v t p e - w = w * ((moist_index w t p e - moist_index v t p e) / moist_index v t p e)).
  { unfold v at 1. field. lra. }
  rewrite E.
  assert (B : moist_index w t p e - moist_index v t p e < 0.0000001).
  { pose proof (moist_slope w v t p e Hw Hv Ht Hp He) as Hs.
    pose proof (wavenum2_lt w Hw) as Hsw.
    set (n := moist_index w t p e) in *.
    assert (Hn : 1 < n < 1.00041).
    { split; auto. unfold n, moist_index. rewrite dry_index_k.
      pose proof (kfac_pos t p Ht ltac:(lra)) as Hk0. pose proof (kfac_le t p Ht Hp) as Hk.
      pose proof (disp_bounds (wavenum2 w) ltac:(lra)) as Hb. pose proof (vapour_term_bounds w t Hw Ht) as Hvt.
      set (u := vapour_term w t) in *. set (D := disp (wavenum2 w)) in *. set (k := kfac t p) in *.
      assert (0 <= u * e) by nra. nra. }
    assert (Es : wavenum2 v = wavenum2 w / (n * n)).
    { unfold v. unfold wavenum2. field. split; lra. }
    assert (Hdiff : wavenum2 w - wavenum2 v < 25 * 0.00083).
    { rewrite Es. set (s := wavenum2 w) in *.
      assert (H2 : s - s / (n * n) = s * ((n - 1) * (n + 1) * / (n * n))) by (field; lra).
      rewrite H2.
      assert (0 < / (n * n) < 1).
      { split; [apply Rinv_0_lt_compat; nra|]. rewrite <- Rinv_1. apply Rinv_lt_contravar; nra. }
      assert (0 < (n - 1) * (n + 1) < 0.000821) by nra.
      assert (0 < (n - 1) * (n + 1) * / (n * n) < 0.000821) by nra.
      nra. }
    lra. }
  assert (0 < (moist_index w t p e - moist_index v t p e) / moist_index v t p e < 0.0000001).
  { split; [apply Rdiv_lt_0_compat; lra|].
    apply Rmult_lt_reg_r with (moist_index v t p e); [lra|]. unfold Rdiv.
    rewrite Rmult_assoc, Rinv_l, Rmult_1_r by lra. nra. }
  nra.
Qed.

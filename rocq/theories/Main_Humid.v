(** * Main_Humid: conversions in humid air (C127). *)

From Coq Require Import ZArith List Reals Lra Lia.
From Verif Require Import Num XReal Py Np Util EdlenFacts HumidFacts.
Import ListNotations.
Local Open Scope R_scope.

Lemma vapour_share t rh : 0 <= t <= 60 -> 0 <= rh <= 100 ->
  exists v, get_vapour_pressure (Fin t) = Fin v /\ 0 < v /\ 0 <= rh / 100 * v <= 700.
Proof.
  intros Ht Hr. destruct (vapour_bounds t Ht) as (v & E & Hv). exists v. split; [exact E|]. split; [lra|].
  assert (0 <= rh / 100 <= 1) by lra. set (q := rh / 100) in *. split; nra.
Qed.

Lemma div_lt_self w n : 0 < w -> 1 < n -> 0 < w / n < w.
Proof.
  intros Hw Hn. split; [apply Rdiv_lt_0_compat; lra|].
  apply Rmult_lt_reg_r with n; [lra|]. replace (w / n * n) with w by (field; lra). nra.
Qed.

(** C127: at any humidity vacuum_to_air strictly shortens and air_to_vacuum
    strictly lengthens a wavelength. *)
Lemma humid_air_shorter_main :
  forall w t p rh : R, 2000 < w -> 0 <= t <= 60 -> 1000 <= p -> 0 <= rh <= 100 ->
    (exists a, vacuum_to_air [Fin w] (Fin (t + 273.15)) (Fin p) (Fin rh) = [Fin a] /\ 0 < a < w) /\
    (exists v, air_to_vacuum [Fin w] (Fin (t + 273.15)) (Fin p) (Fin rh) = [Fin v] /\ w < v).
Proof.
  intros w t p rh Hw Ht Hp Hr. destruct (vapour_share t rh Ht Hr) as (v & E & Hv & He).
  pose proof (moist_gt1 w t p (rh / 100 * v) Hw Ht ltac:(lra) ltac:(lra)) as G.
  unfold vacuum_to_air, air_to_vacuum. cbn [map]. rewrite (refraction_moist w t p rh v) by auto.
  set (n := moist_index w t p (rh / 100 * v)) in *. split.
  - exists (w / n). split; [rewrite xdiv_F by lra; reflexivity|apply div_lt_self; lra].
  - exists (w * n). split; [reflexivity|nra].
Qed.

(** C127: both conversions preserve the strict order of wavelengths. *)
Lemma humid_order_main :
  forall w1 w2 t p rh : R, 2000 < w1 -> w1 < w2 -> 0 <= t <= 60 -> 1000 <= p -> 0 <= rh <= 100 ->
    (exists a1 a2, vacuum_to_air [Fin w1; Fin w2] (Fin (t + 273.15)) (Fin p) (Fin rh) = [Fin a1; Fin a2]
                   /\ a1 < a2) /\
    (p <= 120000 ->
     exists v1 v2, air_to_vacuum [Fin w1; Fin w2] (Fin (t + 273.15)) (Fin p) (Fin rh) = [Fin v1; Fin v2]
                   /\ v1 < v2).
Proof.
  intros w1 w2 t p rh Hw H12 Ht Hp Hr. destruct (vapour_share t rh Ht Hr) as (v & E & Hv & He).
  set (e := rh / 100 * v) in *.
  pose proof (moist_gt1 w1 t p e Hw Ht ltac:(lra) ltac:(lra)) as G1.
  pose proof (moist_gt1 w2 t p e ltac:(lra) Ht ltac:(lra) ltac:(lra)) as G2.
  unfold vacuum_to_air, air_to_vacuum. cbn [map].
  rewrite (refraction_moist w1 t p rh v), (refraction_moist w2 t p rh v) by (auto; lra). fold e. split.
  - eexists _, _. split; [rewrite !xdiv_F by lra; reflexivity|]. apply moist_vac2air_mono; auto; lra.
  - intros Hq. eexists _, _. split; [reflexivity|]. apply moist_air2vac_mono; auto; lra.
Qed.

(** C127: air to vacuum and back lengthens a wavelength by less than one part in
    10^7. *)
Lemma humid_round_trip_main :
  forall w t p rh : R, 2000 < w -> 0 <= t <= 60 -> 1000 <= p <= 120000 -> 0 <= rh <= 100 ->
    exists v a, air_to_vacuum [Fin w] (Fin (t + 273.15)) (Fin p) (Fin rh) = [Fin v] /\
      vacuum_to_air [Fin v] (Fin (t + 273.15)) (Fin p) (Fin rh) = [Fin a] /\
      0 < a - w < w * 0.0000001.
Proof.
  intros w t p rh Hw Ht Hp Hr. destruct (vapour_share t rh Ht Hr) as (v & E & Hv & He).
  set (e := rh / 100 * v) in *.
  pose proof (moist_gt1 w t p e Hw Ht ltac:(lra) ltac:(lra)) as G.
  set (u := w * moist_index w t p e). assert (Hu : w < u) by (unfold u; nra).
  pose proof (moist_gt1 u t p e ltac:(lra) Ht ltac:(lra) ltac:(lra)) as G2.
  exists u, (u / moist_index u t p e). split; [|split].
  - unfold air_to_vacuum. cbn [map]. rewrite (refraction_moist w t p rh v) by auto. reflexivity.
  - unfold vacuum_to_air. cbn [map]. rewrite (refraction_moist u t p rh v) by (auto; lra). fold e.
    rewrite xdiv_F by lra. reflexivity.
  - apply (moist_round_trip w t p e); auto; lra.
Qed.

(** C127: the more humid the air, the smaller the shift of both conversions. *)
Lemma humidity_shrinks_shift_main :
  forall w t p rh1 rh2 : R, 2000 < w -> 0 <= t <= 60 -> 1000 <= p -> 0 <= rh1 -> rh1 < rh2 -> rh2 <= 100 ->
    exists a1 a2 v1 v2,
      vacuum_to_air [Fin w] (Fin (t + 273.15)) (Fin p) (Fin rh1) = [Fin a1] /\
      vacuum_to_air [Fin w] (Fin (t + 273.15)) (Fin p) (Fin rh2) = [Fin a2] /\
      air_to_vacuum [Fin w] (Fin (t + 273.15)) (Fin p) (Fin rh1) = [Fin v1] /\
      air_to_vacuum [Fin w] (Fin (t + 273.15)) (Fin p) (Fin rh2) = [Fin v2] /\
      a1 < a2 < w /\ w < v2 < v1.
Proof.
  intros w t p rh1 rh2 Hw Ht Hp H1 H12 H2.
  destruct (vapour_share t rh1 Ht ltac:(lra)) as (v & E & Hv & He1).
  destruct (vapour_share t rh2 Ht ltac:(lra)) as (v' & E' & _ & He2).
  assert (v' = v) by congruence. subst v'.
  assert (Hee : rh1 / 100 * v < rh2 / 100 * v) by (apply Rmult_lt_compat_r; lra).
  pose proof (moist_gt1 w t p (rh1 / 100 * v) Hw Ht ltac:(lra) ltac:(lra)) as G1.
  pose proof (moist_gt1 w t p (rh2 / 100 * v) Hw Ht ltac:(lra) ltac:(lra)) as G2.
  pose proof (moist_vapour w t p _ _ Hw Ht Hee) as Hm.
  unfold vacuum_to_air, air_to_vacuum. cbn [map].
  rewrite (refraction_moist w t p rh1 v), (refraction_moist w t p rh2 v) by auto.
  set (n1 := moist_index w t p (rh1 / 100 * v)) in *. set (n2 := moist_index w t p (rh2 / 100 * v)) in *.
  exists (w / n1), (w / n2), (w * n1), (w * n2).
  rewrite !xdiv_F by lra. do 4 (split; [reflexivity|]).
  pose proof (div_lt_self w n2 ltac:(lra) G2). split; split; try nra.
  apply Rmult_lt_compat_l; [lra|]. apply Rinv_lt_contravar; nra.
Qed.

Example humid_example_main :
  2000 < 5000 /\ 5000 < 5001 /\ 0 <= 10 <= 60 /\ 1000 <= 101325 <= 120000 /\ 0 <= 30 /\ 30 < 80 /\ 80 <= 100.
Proof. lra. Qed.

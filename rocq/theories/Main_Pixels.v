(** * Main_Pixels: the detector a new calibrator assumes, with the proofs.  The
    statements are repeated, without proofs, in Props_Pixels.v. *)

From Coq Require Import ZArith Bool List String Lia Reals Lra.
From Verif Require Import Num F64 XReal Py Np NpFacts Util UtilFacts RecoverFacts Atlas SpecAtlas AtlasFacts Main_Atlas Hough Calib SpecCalib CalibFacts Main_Calib.
Import ListNotations.
Local Open Scope R_scope.

Lemma arange0_real r : exists z, (r <= IZR z < r + 1) /\
  np_arange0 (Fin r) = map Fin (map INR (seq 0 (Z.to_nat z))).
Proof.
  unfold np_arange0, np_arange1.
  replace (nsub (Fin r) (nZ (A := xr) 0)) with (Fin r).
  2:{ rewrite nZ_Fin. cbn. f_equal. cbn. lra. }
  destruct (nceil_Fin r) as (z & Ez & Hz). rewrite Ez. exists z. split; auto.
  rewrite map_map. apply map_ext. intros i. rewrite !nZ_Fin, nnat_Fin. cbn. f_equal. ring.
Qed.

Lemma slopes_of hull (c1 c2 : calib xr) a b :
  set_hough_properties hull c1 no_hough_args = (c2, Ok tt) -> c_hp c1 = c_hp (calib_blank [] None) ->
  forall px, g_pixels (c_gp c1) = Some (map Fin px) -> In a px -> In b px -> a < b ->
  (forall x, In x px -> a <= x <= b) ->
  h_min_slope (c_hp c2) = Some (Fin (5300 / (b - a))) /\ h_max_slope (c_hp c2) = Some (Fin (7700 / (b - a))).
Proof.
  intros H E px Hp Ha Hb L Hx.
  pose proof (set_hough_hp hull c1 no_hough_args) as K. rewrite H in K. cbn [fst snd] in K.
  destruct (K eq_refl) as (px' & ptp & ns & Hpx & Hptp & Hns & Ehp).
  rewrite Hp in Hpx. injection Hpx as <-.
  destruct (np_ptp_Fin px a b Ha Hb L) as (a' & b' & Ia & Ib & Hall & _ & Ep).
  assert (a' = a). { apply Rle_antisym; [apply (Hall a Ha)|apply (Hx a' Ia)]. }
  assert (b' = b). { apply Rle_antisym; [apply (Hx b' Ib)|apply (Hall b Hb)]. }
  subst a' b'. rewrite Ep in Hptp. injection Hptp as <-.
  rewrite Ehp, E. cbn [h_min_slope h_max_slope h_minw h_maxw h_rt h_lt keep ha_minw ha_maxw ha_rt ha_lt no_hough_args
     c_hp calib_blank].
  unfold min_slope_of, max_slope_of. rewrite !nZ_Fin. cbn -[IZR].
  replace (Reqb (b - a) 0) with false by (symmetry; unfold Reqb; destruct (Req_EM_T (b - a) 0); auto; lra).
  split; f_equal; f_equal; field; lra.
Qed.

Lemma init_first hull peaks spectrum (c0 : calib xr) :
  calib_init hull peaks spectrum = Ok c0 ->
  exists c1 c2, c_gp c1 = c_gp c0 /\ c_hp c1 = c_hp (calib_blank (A := xr) [] None) /\
    set_hough_properties hull c1 no_hough_args = (c2, Ok tt) /\ c_hp c2 = c_hp c0.
Proof.
  intros H. apply calib_init_inv in H. destruct H as (c1 & c2 & H1 & H2 & H3). exists c1, c2.
  pose proof (set_ransac_rp c2 no_ransac_args) as E. rewrite H3 in E. cbn [fst snd] in E.
  split; [|split; [|split; [exact H2|]]].
  - rewrite E by auto. cbn [c_gp set_c_rp].
    pose proof (step_gp (mkEnv (fun _ => []) (mkCatalogue [] (fun _ => None)) hull) c1 (OHough no_hough_args)) as F.
    cbn [cal_step e_hull] in F. rewrite H2 in F. symmetry. apply F; [reflexivity| |]; discriminate.
  - pose proof (step_hp (mkEnv (fun _ => []) (mkCatalogue [] (fun _ => None)) hull) (calib_blank peaks spectrum) (OGeneral None None None)) as F.
    cbn [cal_step e_hull] in F. rewrite H1 in F. cbn [fst] in F. rewrite F; [reflexivity|discriminate].
  - rewrite E by auto. reflexivity.
Qed.

Lemma pixels_slopes hull peaks spectrum (c0 : calib xr) n :
  calib_init hull peaks spectrum = Ok c0 -> (2 <= n)%nat ->
  g_pixels (c_gp c0) = Some (map Fin (map INR (seq 0 n))) ->
  h_min_slope (c_hp c0) = Some (Fin (5300 / INR (n - 1))) /\ h_max_slope (c_hp c0) = Some (Fin (7700 / INR (n - 1))).
Proof.
  intros H Hn Hp. destruct (init_first _ _ _ _ H) as (c1 & c2 & E1 & E2 & H2 & E3).
  rewrite <- E3. rewrite <- E1 in Hp.
  replace (INR (n - 1)) with (INR (n - 1) - 0) by lra.
  apply (slopes_of hull c1 c2 0 (INR (n - 1)) H2 E2 _ Hp).
  - apply in_map_iff. exists 0%nat. split; [reflexivity|]. apply in_seq. lia.
  - apply in_map_iff. exists (n - 1)%nat. split; [reflexivity|]. apply in_seq. lia.
  - apply lt_0_INR. lia.
  - intros x Hx. apply in_map_iff in Hx. destruct Hx as (i & <- & Hi). apply in_seq in Hi.
    split; [apply pos_INR|apply le_INR; lia].
Qed.

(** C136: a calibrator built with a spectrum of n samples works on the pixels 0 to n-1,
    and the default limits on the dispersion are 5300/(n-1) and 7700/(n-1). *)
Lemma default_pixels_spectrum_main :
  forall hull (peaks : list xr) (spectrum : list xr) (c0 : calib xr),
    calib_init hull peaks (Some spectrum) = Ok c0 ->
    let n := List.length spectrum in
    g_num_pix (c_gp c0) = Some (Fin (INR n)) /\
    g_pixels (c_gp c0) = Some (map Fin (map INR (seq 0 n))) /\
    ((2 <= n)%nat ->
     h_min_slope (c_hp c0) = Some (Fin (5300 / INR (n - 1))) /\
     h_max_slope (c_hp c0) = Some (Fin (7700 / INR (n - 1)))).
Proof.
  intros hull peaks sp c0 H n. destruct (init_gp _ _ _ _ H) as (m & -> & Eg).
  assert (Hp : g_pixels (c_gp c0) = Some (map Fin (map INR (seq 0 n)))).
  { rewrite Eg. cbn [g_pixels]. rewrite nnat_Fin. fold n. destruct (arange0_real (INR n)) as (z & Hz & ->).
    assert (z = Z.of_nat n) as ->.
    { rewrite INR_IZR_INZ in Hz. destruct Hz as [Hz1 Hz2]. apply le_IZR in Hz1. rewrite <- plus_IZR in Hz2. apply lt_IZR in Hz2. lia. }
    rewrite Nat2Z.id. reflexivity. }
  split; [rewrite Eg; cbn [g_num_pix]; rewrite nnat_Fin; reflexivity|]. split; auto.
  intros Hn. eapply pixels_slopes; eauto.
Qed.

(** C136: without a spectrum the pixels run from 0 in steps of one up to (not including)
    1.1 times the largest peak.  They reach the largest peak if that is at least 10 or a
    whole number above 0. *)
Lemma default_pixels_peaks_main :
  forall hull (peaks : list R) (c0 : calib xr) m,
    calib_init hull (map Fin peaks) None = Ok c0 ->
    In m peaks -> (forall p, In p peaks -> p <= m) -> 0 < m ->
    exists n, (1 <= n)%nat /\ INR (n - 1) < 11 / 10 * m <= INR n /\
      g_num_pix (c_gp c0) = Some (Fin (11 / 10 * m)) /\
      g_pixels (c_gp c0) = Some (map Fin (map INR (seq 0 n))) /\
      (10 <= m \/ (exists k, m = INR k) ->
       (forall p, In p peaks -> p <= INR (n - 1)) /\
       h_min_slope (c_hp c0) = Some (Fin (5300 / INR (n - 1))) /\
       h_max_slope (c_hp c0) = Some (Fin (7700 / INR (n - 1)))).
Proof.
  intros hull peaks c0 m H Hin Hm Hpos. destruct (init_gp _ _ _ _ H) as (v & (mx & Emx & ->) & Eg).
  assert (mx = Fin m) as ->.
  { destruct (py_max_ge (map Fin peaks) mx Emx) as [I' L'].
    { intros x Hx. apply in_map_iff in Hx. destruct Hx as (r & <- & _). reflexivity. }
    apply in_map_iff in I'. destruct I' as (m' & <- & I').
    pose proof (L' (Fin m) (in_map Fin _ _ Hin)) as K. cbn in K. pose proof (Hm m' I').
    revert K. unfold Rleb. destruct (Rle_dec m m'); [|discriminate]. intros _. f_equal. lra. }
  assert (E11 : nmul (nlit 11 (-1)) (Fin m) = Fin (11 / 10 * m)).
  { cbn. f_equal. unfold Rlit. cbn. change (Pos.to_nat 1) with 1%nat. rewrite pow_1. lra. }
  rewrite E11 in Eg. destruct (arange0_real (11 / 10 * m)) as (z & Hz & Ea).
  assert (Hz0 : (0 < z)%Z) by (apply lt_IZR; lra).
  assert (EI : INR (Z.to_nat z) = IZR z) by (rewrite INR_IZR_INZ, Z2Nat.id by lia; reflexivity).
  exists (Z.to_nat z). split; [lia|].
  assert (EI1 : INR (Z.to_nat z - 1) = IZR z - 1) by (rewrite minus_INR, EI by lia; reflexivity).
  split; [rewrite EI, EI1; lra|].
  assert (Hp : g_pixels (c_gp c0) = Some (map Fin (map INR (seq 0 (Z.to_nat z))))).
  { rewrite Eg. cbn [g_pixels]. rewrite Ea. reflexivity. }
  split; [rewrite Eg; reflexivity|]. split; [exact Hp|].
  intros Hk.
  assert (Hreach : m <= IZR z - 1).
  { destruct Hk as [Hk|[k ->]]; [lra|]. rewrite INR_IZR_INZ in *.
    assert (Hk : (Z.of_nat k < z)%Z) by (apply lt_IZR; lra).
    rewrite <- minus_IZR. apply IZR_le. lia. }
  split.
  - intros p Hp'. rewrite EI1. pose proof (Hm p Hp'). lra.
  - eapply pixels_slopes; eauto. assert (1 < z)%Z by (apply lt_IZR; lra). lia.
Qed.

(** Peaks at 3 and 20 (pixels 0 to 21); with a largest peak of 4.5 the pixels end at 4. *)
Example default_pixels_example_main :
  match calib_init (A := f64) (fun _ p => Ok (map (fun _ => true) p)) [fz 3; fz 20] None,
        calib_init (A := f64) (fun _ p => Ok (map (fun _ => true) p)) [fz 3; fd 45 (-1)] None,
        calib_init (A := f64) (fun _ p => Ok (map (fun _ => true) p)) [fz 3] (Some [fz 7; fz 9; fz 1]) return Prop with
  | Ok c1, Ok c2, Ok c3 =>
      g_pixels (c_gp c1) = Some (map (fun i => fz (Z.of_nat i)) (seq 0 22)) /\
      g_pixels (c_gp c2) = Some [fz 0; fz 1; fz 2; fz 3; fz 4] /\
      g_pixels (c_gp c3) = Some [fz 0; fz 1; fz 2] /\ h_min_slope (c_hp c3) = Some (fz 2650)
  | _, _, _ => False
  end.
Proof. vm_compute. repeat split. Qed.

(** Over the reals: the construction succeeds for every list of peaks with a positive one. *)
Example default_pixels_peaks_example_main :
  forall hull (peaks : list R) p, In p peaks -> 0 < p -> exists c0 : calib xr, calib_init hull (map Fin peaks) None = Ok c0.
Proof.
  intros hull peaks p Hp Hpos.
  assert (Em : exists m, py_max (map Fin peaks) = Ok m).
  { destruct peaks; [destruct Hp|]. eexists. reflexivity. }
  destruct Em as [mx Em]. pose proof (py_max_ge (map Fin peaks) mx Em) as K.
  destruct K as [I' L'].
  { intros x Hx. apply in_map_iff in Hx. destruct Hx as (r & <- & _). reflexivity. }
  apply in_map_iff in I'. destruct I' as (m & <- & I').
  pose proof (L' (Fin p) (in_map Fin _ _ Hp)) as K. cbn in K.
  revert K. unfold Rleb. destruct (Rle_dec p m) as [Hm|]; [|discriminate]. intros _.
  assert (E11 : nmul (nlit 11 (-1)) (Fin m) = Fin (11 / 10 * m)).
  { cbn. f_equal. unfold Rlit. cbn. change (Pos.to_nat 1) with 1%nat. rewrite pow_1. lra. }
  destruct (arange0_real (11 / 10 * m)) as (z & Hz & Ea).
  assert (Hz0 : (0 < z)%Z) by (apply lt_IZR; lra).
  destruct (Z.to_nat z) as [|k] eqn:Ek; [lia|]. cbn [seq map] in Ea.
  unfold calib_init, set_calibrator_properties. cbn [c_gp calib_blank g_num_pix c_spectrum c_peaks].
  rewrite Em. cbn [bind]. rewrite E11. cbn [g_pixels keep]. rewrite Ea.
  cbn [bind g_library keep String.eqb]. unfold set_hough_properties. cbn [ha_num_slopes no_hough_args g_pixels].
  unfold np_ptp. cbn. eexists. reflexivity.
Qed.

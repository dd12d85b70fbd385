(** * Main_Smooth: the curve drawn by plot_calibration_lines (C130). *)

From Coq Require Import ZArith Bool List String Lia Reals Lra Sorted.
From Verif Require Import Num XReal Py Np NpFacts ArgsortFacts Util EdlenFacts SampleFacts RecoverFacts Plot Chart SpecChart Main_Chart Smooth SpecSmooth.
Import ListNotations.
Local Open Scope R_scope.

Lemma arc_kernel_real ps :
  arc_kernel (Fin ps) =
  map (fun m => Fin (exp (gauss_exponent (IZR (Z.of_nat m - 100000) / 1000) 0 (ps * 2.5)))) (seq 0 (Z.to_nat 200001)).
Proof.
  unfold arc_kernel, np_arange_step. cbv zeta. rlit. xop. rewrite xdiv_F by lra.
  destruct (nceil_Fin ((100001 / 1000 + - -100) / (1 / 1000))) as (z & Ez & Hz).
  replace ((100001 / 1000 + - -100) / (1 / 1000)) with 200001 in Hz by lra.
  change (nceil (Fin ((100001 / 1000 + - -100) / (1 / 1000)))) with (nceil (Fin ((100001 / 1000 - -100) / (1 / 1000)))) in Ez.
  rewrite Ez.
  assert (z = 200001%Z).
  { destruct Hz as [H1 H2]. apply le_IZR in H1. replace (200001 + 1) with (IZR 200002) in H2 by lra. apply lt_IZR in H2. lia. }
  subst z. rewrite map_map. apply map_ext. intros m. rewrite ?Rlit_0. xop. rewrite gauss_real.
  f_equal. rewrite Rmult_1_l. f_equal. f_equal.
  - rewrite minus_IZR. lra.
  - lra.
Qed.

Lemma profile_exponent ps d :
  gauss_exponent (IZR d / 1000) 0 (ps * 2.5) =
  - (IZR d / 1000 * (IZR d / 1000)) / (2 * (ps * 2.5 * (ps * 2.5)) + 1 / 1000000000).
Proof. unfold gauss_exponent. f_equal. ring. Qed.

Lemma kernel_profile ps d :
  kernel_at (arc_kernel (Fin ps)) (d + 100000) = Fin (profile ps d).
Proof.
  rewrite arc_kernel_real. unfold kernel_at, profile. destruct (d + 100000 <? 0)%Z eqn:E1.
  - apply Z.ltb_lt in E1. destruct (Z.abs d <=? 100000)%Z eqn:E2; [apply Z.leb_le in E2; lia|]. apply nZ_Fin.
  - apply Z.ltb_ge in E1.
    set (f := fun m => _). destruct (Z.abs d <=? 100000)%Z eqn:E2.
    + apply Z.leb_le in E2.
      rewrite nth_indep with (d' := f 0%nat) by (rewrite map_length, seq_length; lia).
      rewrite map_nth, seq_nth by lia. unfold f. cbn [Nat.add]. rewrite Z2Nat.id by lia.
      replace (d + 100000 - 100000)%Z with d by lia. rewrite profile_exponent. reflexivity.
    + apply Z.leb_gt in E2. rewrite nth_overflow; [apply nZ_Fin|]. rewrite map_length, seq_length. lia.
Qed.

Lemma nth_map_Fin (i : list R) j : nth j (map Fin i) (nZ 0) = Fin (nth j i 0).
Proof. rewrite (nZ_Fin 0). apply map_nth. Qed.

(** C130: the curve is the sum of one Gaussian profile per grid point, as high as the
    intensity there. *)
Lemma arc_curve_profiles_main :
  forall (pixel_scale : R) (i : list R),
    arc_curve (Fin pixel_scale) (map Fin i) = map Fin (map (profile_sum pixel_scale i) (seq 0 (List.length i))).
Proof.
  intros ps i. unfold arc_curve, convolve_same. cbv zeta. rewrite map_length, map_map. apply map_ext. intros k.
  assert (L : List.length (arc_kernel (Fin ps)) = Z.to_nat 200001).
  { rewrite arc_kernel_real, map_length, seq_length. reflexivity. }
  rewrite L, Z2Nat.id by lia. change ((200001 - 1) / 2)%Z with 100000%Z.
  unfold profile_sum. rewrite <- np_sum_Fin_R. rewrite map_map. f_equal. apply map_ext. intros j.
  rewrite nth_map_Fin. replace (Z.of_nat k + 100000 - Z.of_nat j)%Z with ((Z.of_nat k - Z.of_nat j) + 100000)%Z by lia.
  rewrite kernel_profile. reflexivity.
Qed.

Lemma profile_0 ps : profile ps 0 = 1.
Proof.
  unfold profile. cbn [Z.abs Z.leb Z.compare]. transitivity (exp 0); [|apply exp_0]. f_equal.
  unfold Rdiv. replace (0 * / 1000 * (0 * / 1000)) with 0 by ring. rewrite Ropp_0. ring.
Qed.

Lemma den_pos ps : 0 < 2 * (ps * 2.5 * (ps * 2.5)) + 1 / 1000000000.
Proof. pose proof (Rle_0_sqr (ps * 2.5)) as H. unfold Rsqr in H. lra. Qed.

Lemma profile_bounds ps d : 0 <= profile ps d /\ (d <> 0%Z -> profile ps d < 1).
Proof.
  unfold profile. destruct (Z.abs d <=? 100000)%Z; [|lra]. split; [left; apply exp_pos|].
  intros Hd. pose proof (den_pos ps) as Hp.
  set (q := 2 * (ps * 2.5 * (ps * 2.5)) + 1 / 1000000000) in *.
  assert (0 < IZR d / 1000 * (IZR d / 1000)).
  { assert (IZR d / 1000 <> 0). { intros E. apply Hd. apply eq_IZR. lra. }
    pose proof (Rlt_0_sqr (IZR d / 1000) H) as H1. exact H1. }
  set (x := IZR d / 1000 * (IZR d / 1000)) in *.
  assert (0 < x / q) by (apply Rdiv_lt_0_compat; assumption). replace (- x / q) with (- (x / q)) by (unfold Rdiv; ring).
  pose proof (exp_increasing (- (x / q)) 0 ltac:(lra)) as G. rewrite exp_0 in G. exact G.
Qed.

Lemma profile_falls ps d d' : (Z.abs d < Z.abs d')%Z -> (Z.abs d <= 100000)%Z -> profile ps d' < profile ps d.
Proof.
  intros H Hd. unfold profile. replace (Z.abs d <=? 100000)%Z with true by (symmetry; apply Z.leb_le; lia).
  pose proof (den_pos ps) as Hp.
  set (q := 2 * (ps * 2.5 * (ps * 2.5)) + 1 / 1000000000) in *.
  destruct (Z.abs d' <=? 100000)%Z; [|apply exp_pos]. apply exp_increasing.
  assert (Hs : IZR d * IZR d < IZR d' * IZR d') by (rewrite <- !mult_IZR; apply IZR_lt; nia).
  unfold Rdiv. apply Rmult_lt_compat_r; [apply Rinv_0_lt_compat; lra|]. nra.
Qed.

Lemma profile_even ps d : profile ps (- d) = profile ps d.
Proof.
  unfold profile. rewrite Z.abs_opp. destruct (Z.abs d <=? 100000)%Z; auto. rewrite opp_IZR. f_equal. f_equal. f_equal. lra.
Qed.

Lemma sum_zero (f : nat -> R) l : (forall j, In j l -> f j = 0) -> fold_right Rplus 0 (map f l) = 0.
Proof. induction l as [|x l IH]; intros H; cbn; [reflexivity|]. rewrite IH, (H x); cbn; auto; [lra|]. intros; apply H; cbn; auto. Qed.

Lemma sum_single (f : nat -> R) n j : (j < n)%nat -> (forall m, m <> j -> f m = 0) ->
  fold_right Rplus 0 (map f (seq 0 n)) = f j.
Proof.
  intros Hj Hf. replace n with (j + (1 + (n - j - 1)))%nat by lia. rewrite !seq_app, !map_app. cbn [seq map Nat.add].
  assert (A : forall a b, fold_right Rplus 0 (a ++ b) = fold_right Rplus 0 a + fold_right Rplus 0 b).
  { intros a b. induction a as [|x a IH]; cbn; [lra|]. rewrite IH. lra. }
  rewrite A. cbn [app fold_right]. rewrite !sum_zero; [lra| |].
  - intros m Hm. apply in_seq in Hm. apply Hf. lia.
  - intros m Hm. apply in_seq in Hm. apply Hf. lia.
Qed.

Lemma sum_ge (f : nat -> R) l j : (forall m, In m l -> 0 <= f m) -> In j l -> f j <= fold_right Rplus 0 (map f l).
Proof.
  induction l as [|x l IH]; intros Hf Hj; [destruct Hj|]. cbn [map fold_right].
  assert (P : forall l, (forall m, In m l -> 0 <= f m) -> 0 <= fold_right Rplus 0 (map f l)).
  { clear. induction l as [|x l IH]; intros Hf; cbn; [lra|]. pose proof (Hf x (or_introl eq_refl)).
    assert (0 <= fold_right Rplus 0 (map f l)) by (apply IH; intros; apply Hf; cbn; auto). lra. }
  pose proof (Hf x (or_introl eq_refl)). destruct Hj as [<-|Hj].
  - assert (0 <= fold_right Rplus 0 (map f l)) by (apply P; intros; apply Hf; cbn; auto). lra.
  - assert (f j <= fold_right Rplus 0 (map f l)) by (apply IH; auto; intros; apply Hf; cbn; auto). lra.
Qed.

(** C130: a single line gives a curve that is as high as the line's intensity at its
    wavelength, lower everywhere else, falling with the distance up to 100 Angstrom and
    symmetric. *)
Lemma arc_curve_single_main :
  forall (pixel_scale : R) (i : list R) (j : nat) (h : R),
    0 < h -> nth_error i j = Some h -> (forall m, m <> j -> nth m i 0 = 0) ->
    exists curve, arc_curve (Fin pixel_scale) (map Fin i) = map Fin curve /\
      List.length curve = List.length i /\ nth_error curve j = Some h /\
      (forall k v, nth_error curve k = Some v -> k <> j -> 0 <= v < h) /\
      (forall k k' v v', nth_error curve k = Some v -> nth_error curve k' = Some v' ->
         (Z.abs (Z.of_nat k - Z.of_nat j) < Z.abs (Z.of_nat k' - Z.of_nat j))%Z ->
         (Z.abs (Z.of_nat k - Z.of_nat j) <= 100000)%Z -> v' < v) /\
      (forall d v v', nth_error curve (j + d) = Some v -> (d <= j)%nat -> nth_error curve (j - d) = Some v' -> v = v').
Proof.
  intros ps i j h Hh Hj Hz. assert (Hn : (j < List.length i)%nat) by (apply nth_error_Some; congruence).
  exists (map (profile_sum ps i) (seq 0 (List.length i))). split; [apply arc_curve_profiles_main|].
  split; [rewrite map_length, seq_length; reflexivity|].
  assert (V : forall k v, nth_error (map (profile_sum ps i) (seq 0 (List.length i))) k = Some v ->
                     v = h * profile ps (Z.of_nat k - Z.of_nat j)).
  { intros k v Hk. assert (Hl : (k < List.length i)%nat).
    { assert (Hs : nth_error (map (profile_sum ps i) (seq 0 (List.length i))) k <> None) by congruence.
      apply nth_error_Some in Hs. rewrite map_length, seq_length in Hs. exact Hs. }
    rewrite nth_error_map, (nth_error_nth' _ 0%nat) in Hk by (rewrite seq_length; exact Hl).
    rewrite seq_nth in Hk by exact Hl. cbn in Hk. injection Hk as <-. unfold profile_sum.
    rewrite (sum_single _ _ j Hn).
    - f_equal. apply nth_error_nth with (d := 0) in Hj. exact Hj.
    - intros m Hm. rewrite Hz by auto. ring. }
  split; [|split; [|split]].
  - rewrite nth_error_map, (nth_error_nth' _ 0%nat) by (rewrite seq_length; exact Hn).
    rewrite seq_nth by exact Hn. cbn. f_equal.
    assert (E : nth_error (map (profile_sum ps i) (seq 0 (List.length i))) j = Some (profile_sum ps i j)).
    { rewrite nth_error_map, (nth_error_nth' _ 0%nat) by (rewrite seq_length; exact Hn). rewrite seq_nth by exact Hn. reflexivity. }
    rewrite (V j _ E), Z.sub_diag, profile_0. ring.
  - intros k v Hk Hkj. rewrite (V k v Hk). destruct (profile_bounds ps (Z.of_nat k - Z.of_nat j)) as [B1 B2].
    specialize (B2 ltac:(lia)). nra.
  - intros k k' v v' Hk Hk' Hd Hc. rewrite (V k v Hk), (V k' v' Hk'). apply Rmult_lt_compat_l; auto.
    apply profile_falls; auto.
  - intros d v v' Hk Hd Hk'. rewrite (V _ v Hk), (V _ v' Hk'). f_equal. rewrite <- profile_even. f_equal. lia.
Qed.

(** C130: smoothing never hides a line: at every grid point the curve is at least as high as
    the intensity put there; and further than 100 Angstrom from every line it is zero. *)
Lemma arc_curve_bounds_main :
  forall (pixel_scale : R) (i : list R), (forall x, In x i -> 0 <= x) ->
    exists curve, arc_curve (Fin pixel_scale) (map Fin i) = map Fin curve /\
      List.length curve = List.length i /\
      (forall k v x, nth_error curve k = Some v -> nth_error i k = Some x -> x <= v) /\
      (forall k v, nth_error curve k = Some v ->
         (forall j x, nth_error i j = Some x -> x <> 0 -> (100000 < Z.abs (Z.of_nat k - Z.of_nat j))%Z) -> v = 0).
Proof.
  intros ps i Hp. exists (map (profile_sum ps i) (seq 0 (List.length i))). split; [apply arc_curve_profiles_main|].
  split; [rewrite map_length, seq_length; reflexivity|].
  assert (V : forall k v, nth_error (map (profile_sum ps i) (seq 0 (List.length i))) k = Some v ->
      (k < List.length i)%nat /\ v = profile_sum ps i k).
  { intros k v Hk. assert (Hl : (k < List.length i)%nat).
    { assert (Hs : nth_error (map (profile_sum ps i) (seq 0 (List.length i))) k <> None) by congruence.
      apply nth_error_Some in Hs. rewrite map_length, seq_length in Hs. exact Hs. }
    split; auto.
    rewrite nth_error_map, (nth_error_nth' _ 0%nat) in Hk by (rewrite seq_length; exact Hl).
    rewrite seq_nth in Hk by exact Hl. cbn in Hk. congruence. }
  split.
  - intros k v x Hk Hx. destruct (V k v Hk) as [Hl ->]. unfold profile_sum.
    apply nth_error_nth with (d := 0) in Hx.
    eapply Rle_trans; [|apply (sum_ge _ _ k)].
    + cbv beta. rewrite Z.sub_diag, profile_0, Hx. lra.
    + intros m Hm. apply in_seq in Hm. destruct (profile_bounds ps (Z.of_nat k - Z.of_nat m)) as [B1 _].
      assert (0 <= nth m i 0) by (apply Hp, nth_In; lia). nra.
    + apply in_seq. lia.
  - intros k v Hk Hfar. destruct (V k v Hk) as [Hl ->]. unfold profile_sum. apply sum_zero. intros m Hm. apply in_seq in Hm.
    destruct (Req_dec (nth m i 0) 0) as [E|E]; [rewrite E; ring|].
    assert (Hx : nth_error i m = Some (nth m i 0)) by (apply nth_error_nth'; lia).
    specialize (Hfar m _ Hx E). unfold profile.
    replace (Z.abs (Z.of_nat k - Z.of_nat m) <=? 100000)%Z with false by (symmetry; apply Z.leb_gt; lia). ring.
Qed.

Lemma total_real (l : list xr) : (forall x, In x l -> exists r, x = Fin r /\ 0 <= r) ->
  exists t, total_of l = Fin t /\ 0 <= t /\ forall r, In (Fin r) l -> r <= t.
Proof.
  intros H. unfold total_of. rewrite (nZ_Fin 0).
  assert (G : forall l acc, (forall x, In x l -> exists r, x = Fin r /\ 0 <= r) -> 0 <= acc ->
     exists t, fold_left nadd l (Fin acc) = Fin t /\ acc <= t /\ forall r, In (Fin r) l -> r <= t).
  { clear. induction l as [|x l IH]; intros acc H Ha; cbn [fold_left].
    - exists acc. split; auto. split; [lra|]. intros r [].
    - destruct (H x (or_introl eq_refl)) as (r & -> & Hr).
      destruct (IH (acc + r)) as (t & E & Ht & Hin); [intros; apply H; cbn; auto|lra|].
      exists t. split; [exact E|]. split; [lra|]. intros r' [E'|E']; auto.
      assert (r' = r) by congruence. lra. }
  destruct (G l 0 H ltac:(lra)) as (t & E & H0 & H1). eauto.
Qed.

(** C130: on the drawn curve every line of a requested element reaches at least its
    intensity at its grid point (conditions of C100, where the lines are put right). *)
Lemma arc_curve_shows_lines_main :
  forall argsort around (cat : catalogue xr) (a : arc_args xr) (pixel_scale : R) lines sp lab files,
    load_calibration_lines argsort cat (no_limits (ac_load a)) = Ok lines ->
    let grid := wave_grid around (la_min_wl (ac_load a)) (la_max_wl (ac_load a)) in
    let els := la_elements (ac_load a) in
    StronglySorted (fun a b : xr => nltb a b = true) grid ->
    (forall e, In e els -> StronglySorted (fun l l' => nltb (around (l_wl l)) (around (l_wl l')) = true)
                              (filter (fun l => String.eqb (l_el l) e) lines)) ->
    (forall l, In l lines -> exists g, In g grid /\ neqb g (around (l_wl l)) = true) ->
    (forall l, In l lines -> exists r, l_int l = Fin r /\ 0 <= r) ->
    plot_calibration_lines argsort around cat a = Ok (sp, lab, files) ->
    exists curve, arc_curve (Fin pixel_scale) (map snd sp) = map Fin curve /\
      List.length curve = List.length sp /\
      forall k g v l r, nth_error (map fst sp) k = Some g -> nth_error curve k = Some v ->
        In l lines -> In (l_el l) els -> neqb g (around (l_wl l)) = true -> l_int l = Fin r -> r <= v.
Proof.
  intros argsort around cat a ps lines sp lab files Hl grid els Sg Se Hin Hr Hp.
  destruct (arc_spectrum_partial_main xr _ _ argsort around cat a lines Hl Sg Se Hin) as [_ H].
  specialize (H sp lab files Hp). fold grid in H. fold els in H.
  assert (Hpos : forall g x, In x (lines_at around lines els g) -> exists r, x = Fin r /\ 0 <= r).
  { intros g x Hx. unfold lines_at in Hx. apply in_flat_map in Hx. destruct Hx as (e & _ & Hx).
    apply in_map_iff in Hx. destruct Hx as (l & <- & Hx). apply filter_In in Hx. apply Hr. tauto. }
  assert (Hi : exists i, map snd sp = map Fin i /\ (forall x, In x i -> 0 <= x) /\
     forall k g r, nth_error grid k = Some g -> In (Fin r) (lines_at around lines els g) ->
       exists x, nth_error i k = Some x /\ r <= x).
  { rewrite H, map_map. cbn [snd]. clear - Hpos. induction grid as [|g gs IH].
    - exists []. split; auto. split; [intros x []|]. intros [|k] g r Hk; discriminate.
    - destruct IH as (i & E & Hx & Hk). destruct (total_real _ (Hpos g)) as (t & Et & Ht & Hle).
      exists (t :: i). split; [cbn [map]; rewrite Et, E; reflexivity|]. split; [intros x [<-|Hx']; auto|].
      intros [|k] g' r Hg Hin'; cbn in Hg; [|cbn; eauto].
      injection Hg as <-. exists t. split; [reflexivity|auto]. }
  destruct Hi as (i & Ei & Hi0 & Hi).
  destruct (arc_curve_bounds_main ps i Hi0) as (curve & Ec & El & Hb & _).
  exists curve. rewrite Ei. split; [exact Ec|].
  assert (Len : List.length i = List.length sp) by (rewrite <- (map_length Fin i), <- Ei, map_length; reflexivity).
  split; [congruence|]. intros k g v l r Hg Hv Hl1 Hl2 Heq Hint.
  assert (Hg' : nth_error grid k = Some g).
  { rewrite H, map_map in Hg. cbn [fst] in Hg. rewrite map_id in Hg. exact Hg. }
  destruct (Hi k g r Hg') as (x & Hx & Hrx).
  - unfold lines_at. apply in_flat_map. exists (l_el l). split; auto. rewrite <- Hint. apply in_map, filter_In.
    rewrite String.eqb_refl. auto.
  - specialize (Hb k v x Hv Hx). lra.
Qed.

Example arc_curve_example_main :
  0 < 7 /\ nth_error [0; 7; 0] 1 = Some 7 /\ (forall m, m <> 1%nat -> nth m [0; 7; 0] 0 = 0) /\
  (forall x, In x [0; 7; 0] -> 0 <= x).
Proof.
  split; [lra|]. split; [reflexivity|]. split.
  - intros [|[|[|[|m]]]] H; cbn; auto. congruence.
  - intros x [<-|[<-|[<-|[]]]]; lra.
Qed.

Definition one_cat : catalogue xr := mkCatalogue [mkLine "He"%string (Fin 4000) (Fin 3)] (fun _ => None).
Definition one_call : arc_args xr :=
  mkArc (mkLoadArgs ["He"%string] (Fin 4000) (Fin 4000) (ThNum (Fin 1)) (Fin 0) true (Fin 101325) (Fin 273) (Fin 0) (LLStr "nist") None)
    (mkShow false "png" None true false).
Lemma one_grid : wave_grid (fun x => x) (Fin 4000) (Fin 4000) = [Fin 4000].
Proof.
  unfold wave_grid, np_arange_step. cbv zeta. rlit. xop. rewrite xdiv_F by lra.
  destruct (nceil_Fin ((4000 + 1 / 1000 - 4000) / (1 / 1000))) as (z & Ez & Hz). rewrite Ez.
  assert (z = 1%Z).
  { replace ((4000 + 1 / 1000 - 4000) / (1 / 1000)) with 1 in Hz by lra.
    destruct Hz as [H1 H2]. apply le_IZR in H1. replace (1 + 1) with (IZR 2) in H2 by lra. apply lt_IZR in H2. lia. }
  subst z. change (Z.to_nat 1) with 1%nat. cbn [seq map]. change (Z.of_nat 0) with 0%Z. rewrite ?Rlit_0. xop.
  f_equal. f_equal. lra.
Qed.
Ltac real_step :=
  cbv -[Rleb Rltb Reqb Rlit IZR exp Rplus Rminus Rmult Rdiv Ropp]; rewrite ?Rlit_0;
  match goal with
  | |- context[Rleb ?a ?b] => destruct (Rleb_spec a b); try (exfalso; lra)
  | |- context[Rltb ?a ?b] => destruct (Rltb_spec a b); try (exfalso; lra)
  | |- context[Reqb ?a ?b] => destruct (Reqb_spec a b); try (exfalso; lra)
  end.
Lemma one_load : load_calibration_lines argsort_stable one_cat (no_limits (ac_load one_call)) = Ok [mkLine "He"%string (Fin 4000) (Fin 3)].
Proof. repeat real_step; reflexivity. Qed.
Lemma one_plot : exists sp lab files, plot_calibration_lines argsort_stable (fun x => x) one_cat one_call = Ok (sp, lab, files).
Proof.
  unfold plot_calibration_lines. change (arc_load (ac_load one_call)) with (no_limits (ac_load one_call)). rewrite one_load. cbn [bind].
  change (la_min_wl (ac_load one_call)) with (Fin 4000). change (la_max_wl (ac_load one_call)) with (Fin 4000).
  rewrite one_grid. repeat real_step; eauto.
Qed.

(** Non-vacuity: one line of helium on a grid of one point. *)
Example arc_curve_shows_example_main :
  load_calibration_lines argsort_stable one_cat (no_limits (ac_load one_call)) = Ok [mkLine "He"%string (Fin 4000) (Fin 3)] /\
  wave_grid (fun x => x) (la_min_wl (ac_load one_call)) (la_max_wl (ac_load one_call)) = [Fin 4000] /\
  exists sp lab files, plot_calibration_lines argsort_stable (fun x => x) one_cat one_call = Ok (sp, lab, files).
Proof. split; [exact one_load|]. split; [exact one_grid|exact one_plot]. Qed.

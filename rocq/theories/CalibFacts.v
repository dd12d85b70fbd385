(** * CalibFacts: lemmas about the calibrator configuration model. *)

From Coq Require Import ZArith Bool List String Lia Reals Lra.
From Verif Require Import Num F64 XReal Py Np NpFacts Util Atlas Hough SpecHough HoughFacts Calib SpecCalib.
Import ListNotations.
Local Open Scope num_scope.

Section Facts.
  Context {A : Type} {N : Num A}.

  (** _generate_pairs writes only self.pairs. *)
  Lemma generate_pairs_frame (hull : hull_test A) (c : calib A) :
    exists p, fst (generate_pairs hull c) = set_c_pairs p c.
  Proof.
    unfold generate_pairs. destruct (c_atlas c) as [at_|].
    2:{ exists (c_pairs c). destruct c; reflexivity. }
    destruct (c_constrain c).
    - destruct (bind (corners c) _).
      + eexists; reflexivity.
      + exists (c_pairs c). destruct c; reflexivity.
    - eexists; reflexivity.
  Qed.

  Ltac gp_frame :=
    match goal with
    | |- context [fst (generate_pairs ?h ?c)] =>
        let p := fresh "p" in let E := fresh "E" in
        destruct (generate_pairs_frame h c) as [p E]; rewrite E; reflexivity
    end.

  Ltac frame_cases :=
    repeat (match goal with
            | |- context [match ?x with _ => _ end] =>
                lazymatch x with
                | generate_pairs _ _ => fail
                | _ => destruct x eqn:?
                end
            end; cbn [fst snd]);
    try reflexivity; try gp_frame.

  Definition same_outside_gp (c c' : calib A) : Prop :=
    c_hp c' = c_hp c /\ c_rp c' = c_rp c /\ c_known c' = c_known c.

  Lemma step_gp (e : env A) c o :
    is_general o = false -> o <> OUseMatplotlib -> o <> OUsePlotly ->
    c_gp (fst (cal_step e c o)) = c_gp c.
  Proof.
    destruct o; cbn [is_general]; intros H1 H2 H3; try discriminate; try congruence;
      cbn [cal_step].
    - unfold set_hough_properties. frame_cases.
    - unfold set_ransac_properties. frame_cases.
    - unfold set_known_pairs. frame_cases.
    - unfold set_atlas. gp_frame.
    - unfold cal_add_atlas. frame_cases.
    - unfold cal_add_user_atlas. frame_cases.
    - unfold cal_remove_lines. frame_cases.
    - unfold cal_clear_atlas. frame_cases.
    - unfold do_hough_transform. frame_cases.
    - unfold load_hough_transform. frame_cases.
  Qed.

  Lemma step_hp (e : env A) c o :
    (forall a, o <> OHough a) -> c_hp (fst (cal_step e c o)) = c_hp c.
  Proof.
    destruct o; intros H; try (exfalso; eapply H; reflexivity); cbn [cal_step].
    - unfold set_calibrator_properties. frame_cases.
    - reflexivity.
    - reflexivity.
    - unfold set_ransac_properties. frame_cases.
    - unfold set_known_pairs. frame_cases.
    - unfold set_atlas. gp_frame.
    - unfold cal_add_atlas. frame_cases.
    - unfold cal_add_user_atlas. frame_cases.
    - unfold cal_remove_lines. frame_cases.
    - unfold cal_clear_atlas. frame_cases.
    - unfold do_hough_transform. frame_cases.
    - unfold load_hough_transform. frame_cases.
  Qed.

  Lemma step_rp (e : env A) c o :
    (forall a, o <> ORansac a) -> c_rp (fst (cal_step e c o)) = c_rp c.
  Proof.
    destruct o; intros H; try (exfalso; eapply H; reflexivity); cbn [cal_step].
    - unfold set_calibrator_properties. frame_cases.
    - reflexivity.
    - reflexivity.
    - unfold set_hough_properties. frame_cases.
    - unfold set_known_pairs. frame_cases.
    - unfold set_atlas. gp_frame.
    - unfold cal_add_atlas. frame_cases.
    - unfold cal_add_user_atlas. frame_cases.
    - unfold cal_remove_lines. frame_cases.
    - unfold cal_clear_atlas. frame_cases.
    - unfold do_hough_transform. frame_cases.
    - unfold load_hough_transform. frame_cases.
  Qed.

  Lemma step_known (e : env A) c o :
    (forall p w, o <> OKnown p w) -> c_known (fst (cal_step e c o)) = c_known c.
  Proof.
    destruct o; intros H; try (exfalso; eapply H; reflexivity); cbn [cal_step].
    - unfold set_calibrator_properties. frame_cases.
    - reflexivity.
    - reflexivity.
    - unfold set_hough_properties. frame_cases.
    - unfold set_ransac_properties. frame_cases.
    - unfold set_atlas. gp_frame.
    - unfold cal_add_atlas. frame_cases.
    - unfold cal_add_user_atlas. frame_cases.
    - unfold cal_remove_lines. frame_cases.
    - unfold cal_clear_atlas. frame_cases.
    - unfold do_hough_transform. frame_cases.
    - unfold load_hough_transform. frame_cases.
  Qed.

  Lemma step_peaks (e : env A) c o : c_peaks (fst (cal_step e c o)) = c_peaks c.
  Proof.
    destruct o; cbn [cal_step].
    - unfold set_calibrator_properties. frame_cases.
    - reflexivity.
    - reflexivity.
    - unfold set_hough_properties. frame_cases.
    - unfold set_ransac_properties. frame_cases.
    - unfold set_known_pairs. frame_cases.
    - unfold set_atlas. gp_frame.
    - unfold cal_add_atlas. frame_cases.
    - unfold cal_add_user_atlas. frame_cases.
    - unfold cal_remove_lines. frame_cases.
    - unfold cal_clear_atlas. frame_cases.
    - unfold do_hough_transform. frame_cases.
    - unfold load_hough_transform. frame_cases.
  Qed.

  Lemma step_spectrum (e : env A) c o : c_spectrum (fst (cal_step e c o)) = c_spectrum c.
  Proof.
    destruct o; cbn [cal_step].
    - unfold set_calibrator_properties. frame_cases.
    - reflexivity.
    - reflexivity.
    - unfold set_hough_properties. frame_cases.
    - unfold set_ransac_properties. frame_cases.
    - unfold set_known_pairs. frame_cases.
    - unfold set_atlas. gp_frame.
    - unfold cal_add_atlas. frame_cases.
    - unfold cal_add_user_atlas. frame_cases.
    - unfold cal_remove_lines. frame_cases.
    - unfold cal_clear_atlas. frame_cases.
    - unfold do_hough_transform. frame_cases.
    - unfold load_hough_transform. frame_cases.
  Qed.

  (** self.hough_lines and self.hough_points are written by do_hough_transform only. *)
  Lemma step_lines (e : env A) c o : transforms o = false ->
    c_lines (fst (cal_step e c o)) = c_lines c /\ c_points (fst (cal_step e c o)) = c_points c.
  Proof.
    destruct o; cbn [transforms]; intros H; try discriminate; cbn [cal_step].
    - unfold set_calibrator_properties. frame_cases; auto.
    - auto.
    - auto.
    - split; unfold set_hough_properties; frame_cases.
    - split; unfold set_ransac_properties; frame_cases.
    - split; unfold set_known_pairs; frame_cases.
    - split; unfold set_atlas; gp_frame.
    - split; unfold cal_add_atlas; frame_cases.
    - split; unfold cal_add_user_atlas; frame_cases.
    - split; unfold cal_remove_lines; frame_cases.
    - split; unfold cal_clear_atlas; frame_cases.
    - split; unfold load_hough_transform; frame_cases.
  Qed.

  Lemma cal_run_snoc (e : env A) c h o :
    cal_run e c (h ++ [o]) = fst (cal_step e (cal_run e c h) o).
  Proof. unfold cal_run. rewrite fold_left_app. reflexivity. Qed.

  Lemma cal_run_inv (e : env A) (P : calib A -> Prop) c h :
    P c -> (forall c o, P c -> P (fst (cal_step e c o))) -> P (cal_run e c h).
  Proof.
    intros H0 Hs. revert c H0. induction h as [|o r IH]; intros c H0; [exact H0|].
    change (P (cal_run e (fst (cal_step e c o)) r)). auto.
  Qed.

  Lemma cal_run_inv_ops (e : env A) (Q : cal_op A -> Prop) (P : calib A -> Prop) c h :
    Forall Q h -> P c -> (forall c o, Q o -> P c -> P (fst (cal_step e c o))) ->
    P (cal_run e c h).
  Proof.
    intros HQ H0 Hs. revert c H0. induction HQ as [|o r Ho Hr IH]; intros c H0; [exact H0|].
    change (P (cal_run e (fst (cal_step e c o)) r)). auto.
  Qed.

  Lemma cal_run_inv_ok (e : env A) (Q : cal_op A -> Prop) (P : calib A -> Prop) c h :
    Forall Q h -> cal_ok e c h -> P c ->
    (forall c o, Q o -> snd (cal_step e c o) = Ok tt -> P c -> P (fst (cal_step e c o))) ->
    P (cal_run e c h).
  Proof.
    intros HQ HO H0 Hs. revert c H0 HO.
    induction HQ as [|o r Ho Hr IH]; intros c H0 HO; [exact H0|].
    destruct HO. change (P (cal_run e (fst (cal_step e c o)) r)). auto.
  Qed.

  (** A field that each step either keeps or replaces by the given argument. *)
  Lemma last_given_field {T} (e : env A) (f : calib A -> option T) (arg : cal_op A -> option T) :
    (forall c o, f c <> None -> snd (cal_step e c o) = Ok tt ->
       f (fst (cal_step e c o)) = match arg o with Some v => Some v | None => f c end) ->
    forall h c v0, cal_ok e c h -> f c = Some v0 ->
      f (cal_run e c h) = Some (given_or arg h v0).
  Proof.
    intros Hs. induction h as [|o r IH]; intros c v0 Hok H0; [exact H0|].
    destruct Hok as [H1 H2].
    change (cal_run e c (o :: r)) with (cal_run e (fst (cal_step e c o)) r).
    assert (E : f (fst (cal_step e c o)) = Some (match arg o with Some v => v | None => v0 end)).
    { rewrite Hs; auto; [|congruence]. destruct (arg o); auto. }
    rewrite (IH _ _ H2 E). unfold given_or. cbn [last_given].
    destruct (last_given arg r); auto.
  Qed.

  (* -------------------------------------------------------------- *)
  (** Products. *)
  Lemma list_prod_cons {X Y} (x : X) (l : list X) (m : list Y) :
    list_prod (x :: l) m = map (fun y => (x, y)) m ++ list_prod l m.
  Proof. reflexivity. Qed.

  Lemma list_prod_is_product (peaks lines : list A) :
    is_product peaks lines (list_prod peaks lines).
  Proof.
    split.
    - induction peaks as [|p r IH]; cbn [List.length]; auto.
      rewrite list_prod_cons, app_length, map_length, IH. lia.
    - intros i. revert peaks. induction i as [|i IH]; intros [|x r] j p w Hi Hj;
        cbn in Hi; try discriminate; rewrite list_prod_cons.
      + injection Hi as <-. cbn [Nat.mul Nat.add].
        assert (j < List.length lines)%nat by (apply nth_error_Some; congruence).
        rewrite nth_error_app1 by (rewrite map_length; lia).
        rewrite nth_error_map, Hj. reflexivity.
      + rewrite nth_error_app2; rewrite map_length; [|lia].
        replace (S i * List.length lines + j - List.length lines)%nat
          with (i * List.length lines + j)%nat by lia.
        apply IH; auto.
  Qed.

  Lemma list_prod_nil_iff (peaks lines : list A) :
    list_prod peaks lines = [] -> peaks = [] \/ lines = [].
  Proof.
    destruct peaks as [|p r]; auto. destruct lines; auto. discriminate.
  Qed.

  Lemma generate_pairs_plain (hull : hull_test A) (c : calib A) (a : atlas A) :
    c_atlas c = Some a -> c_constrain c = false ->
    snd (generate_pairs hull c) = Ok tt /\
    pairs_of_atlas (c_peaks c) a (c_pairs (fst (generate_pairs hull c))).
  Proof.
    intros Ha Hc. unfold generate_pairs. rewrite Ha, Hc. cbn [fst snd]. split; auto.
    destruct c; cbn in *. unfold product_pairs.
    destruct (list_prod c_peaks (get_lines a)) eqn:E; cbn.
    - apply list_prod_nil_iff; auto.
    - split; [discriminate|]. rewrite <- E. apply list_prod_is_product.
  Qed.

  (* -------------------------------------------------------------- *)
  (** The setters, when they succeed. *)
  Definition oval {T} (o : option T) (d : T) : T := match o with Some v => v | None => d end.

  Lemma keep_some {T} (g o : option T) d : exists v, keep g o d = Some v.
  Proof. unfold keep. destruct g; eauto. destruct o; eauto. Qed.

  (** Every outcome of set_hough_properties but the failure of int(). *)
  Lemma set_hough_hp (hull : hull_test A) (c : calib A) (a : hough_args A) :
    snd (set_hough_properties hull c a) = Ok tt ->
    exists px ptp ns,
      g_pixels (c_gp c) = Some px /\ np_ptp px = Ok ptp /\
      (match ha_num_slopes a with
       | Some v => exists z, ntrunc v = Some z /\ ns = Some z
       | None => ns = keep None (h_num_slopes (c_hp c)) 2000%Z end) /\
      let h := c_hp c in
      let minw := keep (ha_minw a) (h_minw h) (nZ 3000) in
      let maxw := keep (ha_maxw a) (h_maxw h) (nZ 9000) in
      let rt := keep (ha_rt a) (h_rt h) (nZ 500) in
      let lt := keep (ha_lt a) (h_lt h) (nZ 100) in
      let minw' := oval minw (nZ 0) in let maxw' := oval maxw (nZ 0) in
      let rt' := oval rt (nZ 0) in let lt' := oval lt (nZ 0) in
      c_hp (fst (set_hough_properties hull c a)) =
      mkH ns (keep (ha_xbins a) (h_xbins h) 100%nat) (keep (ha_ybins a) (h_ybins h) 100%nat)
          minw maxw rt lt (Some (minw' -' rt')) (Some (minw' +' rt'))
          (Some (min_slope_of minw' maxw' rt' lt' ptp)) (Some (max_slope_of minw' maxw' rt' lt' ptp)).
  Proof.
    unfold set_hough_properties. intros H. cbv zeta.
    destruct (match ha_num_slopes a with Some v => bind (int_of v) (fun z => Ok (Some z))
              | None => Ok (keep None (h_num_slopes (c_hp c)) 2000%Z) end) as [ns|] eqn:En;
      [|discriminate].
    destruct (g_pixels (c_gp c)) as [px|] eqn:Eg; [|discriminate].
    destruct (np_ptp px) as [ptp|] eqn:Ep; [|discriminate].
    exists px, ptp, ns. split; [auto|]. split; [auto|]. split.
    - destruct (ha_num_slopes a) as [v|].
      + unfold int_of in En. destruct (ntrunc v); cbn in En; [|discriminate].
        injection En as <-. eauto.
      + injection En as <-. reflexivity.
    - destruct (c_atlas c); [gp_frame|reflexivity].
  Qed.

  Lemma set_ransac_rp (c : calib A) (a : ransac_args A) :
    snd (set_ransac_properties c a) = Ok tt ->
    let r := c_rp c in
    fst (set_ransac_properties c a) = set_c_rp
      (mkR (keep (ra_sample a) (r_sample r) 5%nat) (keep (ra_top a) (r_top r) 5%nat)
          (keep (ra_linear a) (r_linear r) true) (keep (ra_close a) (r_close r) false)
          (keep (ra_tol a) (r_tol r) (nZ 5)) (keep (ra_weighted a) (r_weighted r) true)
          (keep (ra_hweight a) (r_hweight r) (nZ 1))
          (keep (ra_matches a) (r_matches r) (nZ 0)) (keep (ra_util a) (r_util r) (nZ 0))
          (keep (ra_fit_error a) (r_fit_error r) (nlit 1 (-4)))) c.
  Proof.
    unfold set_ransac_properties. intros H. cbv zeta in *.
    repeat match type of H with context [if ?b then _ else _] => destruct b; [discriminate|] end.
    reflexivity.
  Qed.

  Lemma calib_init_inv (hull : hull_test A) peaks spectrum c0 :
    calib_init hull peaks spectrum = Ok c0 ->
    exists c1 c2,
      set_calibrator_properties (calib_blank peaks spectrum) None None None = (c1, Ok tt) /\
      set_hough_properties hull c1 no_hough_args = (c2, Ok tt) /\
      set_ransac_properties c2 no_ransac_args = (c0, Ok tt).
  Proof.
    unfold calib_init. intros H.
    destruct (set_calibrator_properties _ None None None) as [c1 [[]|]]; [|discriminate].
    cbn [bind] in H. destruct (set_hough_properties hull c1 no_hough_args) as [c2 [[]|]] eqn:E2; [|discriminate].
    cbn [bind] in H. destruct (set_ransac_properties c2 no_ransac_args) as [c3 [[]|]] eqn:E3; [|discriminate].
    cbn [bind] in H. exists c1, c2. injection H as <-. auto.
  Qed.

  Lemma init_gp (hull : hull_test A) peaks spectrum c0 :
    calib_init hull peaks spectrum = Ok c0 ->
    exists n, (match spectrum with Some s => n = nnat (List.length s)
               | None => exists m, py_max peaks = Ok m /\ n = nlit 11 (-1) *' m end) /\
    c_gp c0 = mkG (Some n) (Some (np_arange0 n)) (Some "matplotlib"%string) true false.
  Proof.
    intros H. apply calib_init_inv in H. destruct H as (c1 & c2 & H1 & H2 & H3).
    assert (E3 : c_gp c0 = c_gp c2).
    { pose proof (set_ransac_rp c2 no_ransac_args) as E. rewrite H3 in E. cbn [fst snd] in E.
      rewrite E by auto. reflexivity. }
    assert (E2 : c_gp c2 = c_gp c1).
    { pose proof (step_gp (mkEnv (fun _ => []) (mkCatalogue [] (fun _ => None)) hull) c1 (OHough no_hough_args)) as E.
      cbn [cal_step e_hull] in E. rewrite H2 in E. apply E; [reflexivity| |]; discriminate. }
    rewrite E3, E2. unfold set_calibrator_properties, calib_blank in H1.
    cbn [c_gp g_num_pix g_pixels g_library c_spectrum c_peaks keep] in H1.
    destruct spectrum as [s|].
    - injection H1 as <-. eexists. split; reflexivity.
    - destruct (py_max peaks) as [m|] eqn:Em; cbn [bind] in H1; [|discriminate].
      injection H1 as <-. eexists. split; [eauto|reflexivity].
  Qed.

  Lemma init_rp (hull : hull_test A) peaks spectrum c0 :
    calib_init hull peaks spectrum = Ok c0 ->
    c_rp c0 = mkR (Some 5%nat) (Some 5%nat) (Some true) (Some false) (Some (nZ 5)) (Some true)
                (Some (nZ 1)) (Some (nZ 0)) (Some (nZ 0)) (Some (nlit 1 (-4))).
  Proof.
    intros H. apply calib_init_inv in H. destruct H as (c1 & c2 & H1 & H2 & H3).
    pose proof (set_ransac_rp c2 no_ransac_args) as E. rewrite H3 in E. cbn [fst snd] in E.
    assert (F2 : c_rp c2 = c_rp c1).
    { pose proof (step_rp (mkEnv (fun _ => []) (mkCatalogue [] (fun _ => None)) hull) c1 (OHough no_hough_args)) as F.
      cbn [cal_step e_hull] in F. rewrite H2 in F. apply F. discriminate. }
    assert (F1 : c_rp c1 = c_rp (calib_blank peaks spectrum)).
    { pose proof (step_rp (mkEnv (fun _ => []) (mkCatalogue [] (fun _ => None)) hull) (calib_blank peaks spectrum) (OGeneral None None None)) as F.
      cbn [cal_step e_hull] in F. rewrite H1 in F. apply F. discriminate. }
    rewrite E by auto. cbn [c_rp set_c_rp]. rewrite F2, F1. reflexivity.
  Qed.

  Lemma init_hp (hull : hull_test A) peaks spectrum c0 :
    calib_init hull peaks spectrum = Ok c0 ->
    exists ptp, c_hp c0 = mkH (Some 2000%Z) (Some 100%nat) (Some 100%nat)
        (Some (nZ 3000)) (Some (nZ 9000)) (Some (nZ 500)) (Some (nZ 100))
        (Some (nZ 3000 -' nZ 500)) (Some (nZ 3000 +' nZ 500))
        (Some (min_slope_of (nZ 3000) (nZ 9000) (nZ 500) (nZ 100) ptp))
        (Some (max_slope_of (nZ 3000) (nZ 9000) (nZ 500) (nZ 100) ptp)).
  Proof.
    intros H. apply calib_init_inv in H. destruct H as (c1 & c2 & H1 & H2 & H3).
    pose proof (set_hough_hp hull c1 no_hough_args) as E. rewrite H2 in E. cbn [fst snd] in E.
    destruct (E eq_refl) as (px & ptp & ns & Hpx & Hptp & Hns & Ehp).
    assert (F1 : c_hp c1 = c_hp (calib_blank peaks spectrum)).
    { pose proof (step_hp (mkEnv (fun _ => []) (mkCatalogue [] (fun _ => None)) hull) (calib_blank peaks spectrum) (OGeneral None None None)) as F.
      cbn [cal_step e_hull] in F. rewrite H1 in F. apply F. discriminate. }
    pose proof (set_ransac_rp c2 no_ransac_args) as E3. rewrite H3 in E3. cbn [fst snd] in E3.
    exists ptp. rewrite E3 by auto. cbn [c_hp set_c_rp]. rewrite Ehp. rewrite F1 in *.
    cbn in Hns. subst ns. reflexivity.
  Qed.

  Lemma init_others (hull : hull_test A) peaks spectrum c0 :
    calib_init hull peaks spectrum = Ok c0 ->
    c_peaks c0 = peaks /\ c_known c0 = None /\ c_lines c0 = None /\ c_points c0 = None /\
    c_atlas c0 = None /\ c_pairs c0 = PMissing /\ c_constrain c0 = false.
  Proof.
    intros H. apply calib_init_inv in H. destruct H as (c1 & c2 & H1 & H2 & H3).
    pose proof (set_ransac_rp c2 no_ransac_args) as E3. rewrite H3 in E3. cbn [fst snd] in E3.
    rewrite E3 by auto.
    assert (E1 : exists g, c1 = set_c_gp g (calib_blank peaks spectrum)).
    { unfold set_calibrator_properties in H1. cbv zeta in H1.
      match type of H1 with match ?x with _ => _ end = _ => destruct x; [|discriminate] end.
      injection H1 as <-. eexists; reflexivity. }
    destruct E1 as [g E1].
    assert (E2 : exists h, c2 = set_c_hp h c1).
    { unfold set_hough_properties in H2. cbn [ha_num_slopes no_hough_args] in H2.
      destruct (g_pixels (c_gp c1)); [|discriminate].
      destruct (np_ptp l); [|discriminate].
      rewrite E1 in H2. cbn [c_atlas set_c_gp calib_blank] in H2.
      injection H2 as <-. rewrite E1. eexists; reflexivity. }
    destruct E2 as [h E2]. subst. cbn. tauto.
  Qed.

  Lemma init_spectrum (hull : hull_test A) peaks spectrum c0 :
    calib_init hull peaks spectrum = Ok c0 ->
    c_spectrum c0 = spectrum.
  Proof.
    intros H. apply calib_init_inv in H. destruct H as (c1 & c2 & H1 & H2 & H3).
    pose proof (set_ransac_rp c2 no_ransac_args) as E3. rewrite H3 in E3. cbn [fst snd] in E3.
    rewrite E3 by auto.
    assert (E1 : exists g, c1 = set_c_gp g (calib_blank peaks spectrum)).
    { unfold set_calibrator_properties in H1. cbv zeta in H1.
      match type of H1 with match ?x with _ => _ end = _ => destruct x; [|discriminate] end.
      injection H1 as <-. eexists; reflexivity. }
    destruct E1 as [g E1].
    assert (E2 : exists h, c2 = set_c_hp h c1).
    { unfold set_hough_properties in H2. cbn [ha_num_slopes no_hough_args] in H2.
      destruct (g_pixels (c_gp c1)); [|discriminate].
      destruct (np_ptp l); [|discriminate].
      rewrite E1 in H2. cbn [c_atlas set_c_gp calib_blank] in H2.
      injection H2 as <-. rewrite E1. eexists; reflexivity. }
    destruct E2 as [h E2]. subst. reflexivity.
  Qed.
End Facts.

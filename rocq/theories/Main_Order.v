(** * Main_Order: the order and the repetition of configuring calls (C117, C118). *)

From Coq Require Import ZArith Bool List String Lia.
From Verif Require Import Num F64 XReal Py Np NpFacts ArgsortFacts Util Atlas Hough SpecHough Calib SpecCalib CalibFacts SpecOrder.
From Verif Require Main_Calib.
Import ListNotations.
Local Open Scope num_scope.

Section Order.
  Context {A : Type} {N : Num A}.

  Definition put_g (W : list part) (d c : gprops A) : gprops A :=
    mkG (if mem PGeometry W then g_num_pix d else g_num_pix c)
        (if mem PGeometry W then g_pixels d else g_pixels c)
        (if mem PLibrary W then g_library d else g_library c)
        (if mem PLibrary W then g_mpl d else g_mpl c)
        (if mem PLibrary W then g_plotly d else g_plotly c).

  Definition put (W : list part) (d c : calib A) : calib A :=
    mkCal (if mem PInput W then c_peaks d else c_peaks c)
          (if mem PInput W then c_spectrum d else c_spectrum c)
          (if mem PAtlas W then c_atlas d else c_atlas c)
          (if mem PKnown W then c_known d else c_known c)
          (put_g W (c_gp d) (c_gp c))
          (if mem PHough W then c_hp d else c_hp c)
          (if mem PRansac W then c_rp d else c_rp c)
          (if mem PAtlas W then c_cand_tol d else c_cand_tol c)
          (if mem PAtlas W then c_constrain d else c_constrain c)
          (if mem PPairs W then c_pairs d else c_pairs c)
          (if mem PTransform W then c_ht d else c_ht c)
          (if mem PTransform W then c_lines d else c_lines c)
          (if mem PTransform W then c_points d else c_points c)
          (c_mpeaks c) (c_matlas c) (c_coeff c) (c_kind c) (c_deg c) (c_rms c) (c_resid c) (c_putil c) (c_autil c)
          (c_residuals c).

  (** Equal on the parts [R]. *)
  Definition agree (R : list part) (d c : calib A) : Prop :=
    (mem PInput R = true -> c_peaks d = c_peaks c /\ c_spectrum d = c_spectrum c) /\
    (mem PGeometry R = true -> g_num_pix (c_gp d) = g_num_pix (c_gp c) /\ g_pixels (c_gp d) = g_pixels (c_gp c)) /\
    (mem PLibrary R = true -> g_library (c_gp d) = g_library (c_gp c) /\ g_mpl (c_gp d) = g_mpl (c_gp c) /\
                              g_plotly (c_gp d) = g_plotly (c_gp c)) /\
    (mem PHough R = true -> c_hp d = c_hp c) /\
    (mem PRansac R = true -> c_rp d = c_rp c) /\
    (mem PKnown R = true -> c_known d = c_known c) /\
    (mem PAtlas R = true -> c_atlas d = c_atlas c /\ c_cand_tol d = c_cand_tol c /\ c_constrain d = c_constrain c) /\
    (mem PPairs R = true -> c_pairs d = c_pairs c) /\
    (mem PTransform R = true -> c_ht d = c_ht c /\ c_lines d = c_lines c /\ c_points d = c_points c).

  Lemma disjoint_mem W R p : disjoint W R = true -> mem p W = true -> mem p R = false.
  Proof.
    unfold disjoint, mem at 1. intros H M. rewrite forallb_forall in H.
    apply existsb_exists in M. destruct M as (q & Hq & E).
    assert (p = q) as -> by (destruct p, q; auto; discriminate).
    specialize (H q Hq). apply negb_true_iff in H. exact H.
  Qed.

  Lemma disjoint_sym W R p : disjoint W R = true -> mem p R = true -> mem p W = false.
  Proof.
    intros H M. destruct (mem p W) eqn:E; auto. rewrite (disjoint_mem _ _ _ H E) in M. discriminate.
  Qed.

  Lemma agree_put W R d c : disjoint W R = true -> agree R (put W d c) c.
  Proof.
    intros H. unfold agree, put, put_g. cbn.
    repeat split; intros; repeat match goal with
    | M : mem ?p R = true |- _ => rewrite (disjoint_sym _ _ _ H M) in *; clear M
    end; auto.
  Qed.

  Lemma put_swap W1 W2 d1 d2 c :
    (forall p, mem p W1 = true -> mem p W2 = false) ->
    put W2 d2 (put W1 d1 c) = put W1 d1 (put W2 d2 c).
  Proof.
    intros H. unfold put, put_g. cbn.
    repeat match goal with
    | |- context[mem ?p W1] => let E := fresh in destruct (mem p W1) eqn:E; [rewrite (H p E)|]
    end; reflexivity.
  Qed.

  (** The step seen from another calibrator that agrees on what is read. *)
  Definition local (e : env A) (o : cal_op A) : Prop :=
    forall c d, agree (reads o) d c ->
      cal_step e d o = (put (writes o) (fst (cal_step e c o)) d, snd (cal_step e c o)).

  Lemma generate_pairs_local hull c d :
    c_peaks d = c_peaks c -> c_atlas d = c_atlas c -> c_cand_tol d = c_cand_tol c -> c_constrain d = c_constrain c ->
    c_hp d = c_hp c -> g_pixels (c_gp d) = g_pixels (c_gp c) -> c_pairs d = c_pairs c ->
    generate_pairs hull d = (set_c_pairs (c_pairs (fst (generate_pairs hull c))) d, snd (generate_pairs hull c)).
  Proof.
    intros H1 H2 H3 H4 H5 H6 H7.
    assert (Hc : corners d = corners c) by (unfold corners; rewrite H3, H5, H6; reflexivity).
    unfold generate_pairs. rewrite H1, H2, H4, Hc. destruct (c_atlas c) as [at_|].
    2:{ cbn. rewrite <- H7. destruct d; reflexivity. }
    destruct (c_constrain c).
    - destruct (bind (corners c) _); cbn; [reflexivity|]. rewrite <- H7. destruct d; reflexivity.
    - reflexivity.
  Qed.

  (** generate_pairs changes nothing but the pairs. *)
  Lemma generate_pairs_put hull c :
    fst (generate_pairs hull c) = set_c_pairs (c_pairs (fst (generate_pairs hull c))) c.
  Proof.
    pose proof (generate_pairs_local hull c c eq_refl eq_refl eq_refl eq_refl eq_refl eq_refl eq_refl) as H.
    rewrite H at 1. reflexivity.
  Qed.

  Ltac eqs :=
    unfold agree; cbn [mem reads existsb part_eqb orb];
    intros (E1 & E2 & E3 & E4 & E5 & E6 & E7 & E8 & E9);
    repeat match goal with
    | E : true = true -> _ |- _ => specialize (E eq_refl)
    | E : false = true -> _ |- _ => clear E
    end.
  Ltac same d := destruct d as [? ? ? ? [? ? ? ? ?] ? ? ? ? ? ? ? ? ? ? ? ? ? ? ? ? ? ?]; cbn in *; subst; reflexivity.
  Ltac rec d := unfold put, put_g; cbn [mem writes existsb part_eqb orb]; same d.

  Lemma local_all e o : local e o.
  Proof.
    intros c d. destruct o as [np px lib| | |a|a|p w|at_ ct k|a ct k|u ct k|w t| |b|fs n t]; cbn [cal_step].
    - eqs. destruct E1 as [Ep Es]. destruct E2 as [En Ex]. destruct E3 as (El & Em & Eq).
      unfold set_calibrator_properties. cbv zeta. rewrite En, Ex, El, Em, Eq, Ep, Es.
      match goal with |- context[match ?x with Ok n => _ | Raise e => _ end] => destruct x as [v|ex] end;
        cbn [fst snd].
      + destruct (String.eqb _ "matplotlib"); [rec d|]. destruct (String.eqb _ "plotly"); rec d.
      + f_equal. destruct c as [? ? ? ? [? ? ? ? ?] ? ? ? ? ? ? ? ? ? ? ? ? ? ? ? ? ? ?]. rec d.
    - eqs. destruct E3 as (El & Em & Eq). unfold use_matplotlib, use_matplotlib_g. cbn [fst snd]. f_equal.
      destruct c as [? ? ? ? [? ? ? ? ?] ? ? ? ? ? ? ? ? ? ? ? ? ? ? ? ? ? ?]. rec d.
    - eqs. destruct E3 as (El & Em & Eq). unfold use_plotly, use_plotly_g. cbn [fst snd]. f_equal.
      destruct c as [? ? ? ? [? ? ? ? ?] ? ? ? ? ? ? ? ? ? ? ? ? ? ? ? ? ? ?]. rec d.
    - eqs. destruct E1 as [Ep _]. destruct E2 as [_ Ex]. destruct E7 as (Ea & Et & Ek).
      unfold set_hough_properties. cbv zeta. rewrite E4, Ex, Ea.
      match goal with |- context[match ?x with Ok ns => _ | Raise e => _ end] => destruct x as [ns|ex] end; cbn [fst snd].
      2:{ f_equal. destruct c as [? ? ? ? [? ? ? ? ?] ? ? ? ? ? ? ? ? ? ? ? ? ? ? ? ? ? ?]. rec d. }
      destruct (g_pixels (c_gp c)) as [px|] eqn:Px.
      2:{ cbn [fst snd]. f_equal. destruct c as [? ? ? ? [? ? ? ? ?] ? ? ? ? ? ? ? ? ? ? ? ? ? ? ? ? ? ?]. rec d. }
      destruct (np_ptp px) as [ptp|ex].
      2:{ cbn [fst snd]. f_equal. destruct c as [? ? ? ? [? ? ? ? ?] ? ? ? ? ? ? ? ? ? ? ? ? ? ? ? ? ? ?]. rec d. }
      destruct (c_atlas c) as [at_|] eqn:Eat.
      2:{ cbn [fst snd]. f_equal. destruct c as [? ? ? ? [? ? ? ? ?] ? ? ? ? ? ? ? ? ? ? ? ? ? ? ? ? ? ?]. rec d. }
      match goal with |- context[generate_pairs (e_hull e) (set_c_hp ?h c)] =>
        rewrite (generate_pairs_local (e_hull e) (set_c_hp h c) (set_c_hp h d)) by (cbn; congruence);
        rewrite (generate_pairs_put (e_hull e) (set_c_hp h c)) at 2; set (P := c_pairs _) end.
      f_equal.
      all: try reflexivity. 
      destruct c as [? ? ? ? [? ? ? ? ?] ? ? ? ? ? ? ? ? ? ? ? ? ? ? ? ? ? ?]. clearbody P. rec d.
    - eqs. unfold set_ransac_properties. cbv zeta. rewrite E5.
      destruct (negb _); [|destruct (negb _); [|destruct (negb _)]]; cbn [fst snd]; f_equal; rec d.
    - eqs. unfold set_known_pairs.
      assert (K : (d, snd (c, @Ok unit tt)) = (put [PKnown] c d, Ok tt)).
      { f_equal. destruct c as [? ? ? ? [? ? ? ? ?] ? ? ? ? ? ? ? ? ? ? ? ? ? ? ? ? ? ?]. rec d. }
      assert (K1 : d = put [PKnown] c d) by congruence. clear K.
      destruct p as [p|ex]; [|cbn [fst snd writes]; f_equal; auto].
      destruct w as [w|ex]; [|cbn [fst snd writes]; f_equal; auto].
      destruct (negb _); [cbn [fst snd writes]; f_equal; auto|].
      destruct (existsb nisnan p); [cbn [fst snd writes]; f_equal; auto|].
      destruct (existsb nisnan w); [cbn [fst snd writes]; f_equal; auto|].
      cbn [fst snd]. f_equal. rec d.
    - eqs. destruct E1 as [Ep _]. destruct E2 as [_ Ex]. destruct E7 as (Ea & Et & Ek). unfold set_atlas.
      match goal with |- generate_pairs _ (?f d) = _ => idtac | |- generate_pairs _ ?x = _ =>
        match goal with |- context[fst (generate_pairs _ ?y)] =>
          rewrite (generate_pairs_local (e_hull e) y x) by (cbn; congruence);
          rewrite (generate_pairs_put (e_hull e) y) at 2; set (P := c_pairs _) end end.
      f_equal. destruct c as [? ? ? ? [? ? ? ? ?] ? ? ? ? ? ? ? ? ? ? ? ? ? ? ? ? ? ?]. clearbody P. rec d.
    - eqs. destruct E1 as [Ep _]. destruct E2 as [_ Ex]. destruct E7 as (Ea & Et & Ek).
      unfold cal_add_atlas. cbv zeta. rewrite E4, Ea.
      assert (K : d = put [PAtlas; PPairs] c d).
      { destruct c as [? ? ? ? [? ? ? ? ?] ? ? ? ? ? ? ? ? ? ? ? ? ? ? ? ? ? ?]. rec d. }
      assert (G : forall v, generate_pairs (e_hull e) (set_c_constrain k (set_c_cand_tol (Some ct) (set_c_atlas v d))) =
        (put [PAtlas; PPairs] (fst (generate_pairs (e_hull e) (set_c_constrain k (set_c_cand_tol (Some ct) (set_c_atlas v c))))) d,
         snd (generate_pairs (e_hull e) (set_c_constrain k (set_c_cand_tol (Some ct) (set_c_atlas v c)))))).
      { intros v. match goal with |- generate_pairs _ ?x = (put _ (fst (generate_pairs _ ?y)) _, _) =>
          rewrite (generate_pairs_local (e_hull e) y x) by (cbn; congruence);
          rewrite (generate_pairs_put (e_hull e) y) at 2; set (P := c_pairs _) end.
        f_equal. clear K. destruct c as [? ? ? ? [? ? ? ? ?] ? ? ? ? ? ? ? ? ? ? ? ? ? ? ? ? ? ?]. clearbody P. rec d. }
      assert (S : forall v, set_c_atlas v d = put [PAtlas; PPairs] (set_c_atlas v c) d).
      { intros v. clear K G. destruct c as [? ? ? ? [? ? ? ? ?] ? ? ? ? ? ? ? ? ? ? ? ? ? ? ? ? ? ?]. rec d. }
      destruct (h_minw (c_hp c)); [|cbn [fst snd writes]; f_equal; auto].
      destruct (h_maxw (c_hp c)); [|cbn [fst snd writes]; f_equal; auto].
      destruct (h_rt (c_hp c)); [|cbn [fst snd writes]; f_equal; auto].
      destruct (c_atlas c) as [at_|].
      + destruct (atlas_add _ _ _ _) as [at' [v|ex]]; [apply G|cbn [fst snd writes]; f_equal; auto].
      + destruct (atlas_init _ _ _ _ _ _ _ _ _ _ _ _ _) as [at'|ex]; [apply G|cbn [fst snd writes]; f_equal; auto].
    - eqs. destruct E1 as [Ep _]. destruct E2 as [_ Ex]. destruct E7 as (Ea & Et & Ek).
      unfold cal_add_user_atlas. cbv zeta. rewrite Ea.
      assert (G : forall v, generate_pairs (e_hull e) (set_c_constrain k (set_c_cand_tol (Some ct) (set_c_atlas v d))) =
        (put [PAtlas; PPairs] (fst (generate_pairs (e_hull e) (set_c_constrain k (set_c_cand_tol (Some ct) (set_c_atlas v c))))) d,
         snd (generate_pairs (e_hull e) (set_c_constrain k (set_c_cand_tol (Some ct) (set_c_atlas v c)))))).
      { intros v. match goal with |- generate_pairs _ ?x = (put _ (fst (generate_pairs _ ?y)) _, _) =>
          rewrite (generate_pairs_local (e_hull e) y x) by (cbn; congruence);
          rewrite (generate_pairs_put (e_hull e) y) at 2; set (P := c_pairs _) end.
        f_equal. destruct c as [? ? ? ? [? ? ? ? ?] ? ? ? ? ? ? ? ? ? ? ? ? ? ? ? ? ? ?]. clearbody P. rec d. }
      assert (S : forall v, set_c_atlas v d = put [PAtlas; PPairs] (set_c_atlas v c) d).
      { intros v. clear G. destruct c as [? ? ? ? [? ? ? ? ?] ? ? ? ? ? ? ? ? ? ? ? ? ? ? ? ? ? ?]. rec d. }
      destruct (add_user_atlas _ _) as [at' [v|ex]]; [apply G|cbn [fst snd writes]; f_equal; auto].
    - eqs. destruct E7 as (Ea & Et & Ek). unfold cal_remove_lines. rewrite Ea.
      destruct (c_atlas c) as [at_|] eqn:Eat; cbn [fst snd]; f_equal;
        destruct c as [? ? ? ? [? ? ? ? ?] ? ? ? ? ? ? ? ? ? ? ? ? ? ? ? ? ? ?]; rec d.
    - eqs. destruct E7 as (Ea & Et & Ek). unfold cal_clear_atlas. rewrite Ea.
      destruct (c_atlas c) as [at_|] eqn:Eat; cbn [fst snd]; f_equal;
        destruct c as [? ? ? ? [? ? ? ? ?] ? ? ? ? ? ? ? ? ? ? ? ? ? ? ? ? ? ?]; rec d.
    - eqs. destruct E9 as (Eh & El & Epo). unfold do_hough_transform. rewrite E4, E8, Eh.
      assert (K : forall t, set_c_ht t d = put [PTransform] (set_c_ht t c) d).
      { intros t. destruct c as [? ? ? ? [? ? ? ? ?] ? ? ? ? ? ? ? ? ? ? ? ? ? ? ? ? ? ?]. rec d. }
      assert (K0 : d = put [PTransform] c d).
      { clear K. destruct c as [? ? ? ? [? ? ? ? ?] ? ? ? ? ? ? ? ? ? ? ? ? ? ? ? ? ? ?]. rec d. }
      destruct (c_pairs c) as [| |l]; [cbn [fst snd writes]; f_equal; auto| |];
      destruct (set_constraints _ _ _ _ _) as [t1 [v|ex]]; try (cbn [fst snd writes]; f_equal; auto; fail).
      match goal with |- context[let (t2, r2) := ?x in _] => destruct x as [t2 [v2|ex2]] end;
        [|cbn [fst snd writes]; f_equal; auto].
      match goal with |- context[let (t3, r3) := ?x in _] => destruct x as [t3 [v3|ex3]] end;
        [|cbn [fst snd writes]; f_equal; auto].
      cbn [fst snd writes]. f_equal. clear K K0.
      destruct c as [? ? ? ? [? ? ? ? ?] ? ? ? ? ? ? ? ? ? ? ? ? ? ? ? ? ? ?]. rec d.
    - eqs. destruct E9 as (Eh & El & Epo). unfold load_hough_transform. rewrite Eh.
      destruct (hough_load _ _ _ _) as [t' r]. cbn [fst snd]. f_equal.
      destruct c as [? ? ? ? [? ? ? ? ?] ? ? ? ? ? ? ? ? ? ? ? ? ? ? ? ? ? ?]. rec d.
  Qed.
End Order.

(** Two calls neither of which changes what the other looks at can be exchanged
    anywhere in a history: the calibrator ends in the same state, each of the two
    calls has the same outcome in either order, and so do all the others. *)
Lemma configure_order_partial_main :
  forall (A : Type) (N : Num A) (e : env A) (c : calib A) (h1 h2 : list (cal_op A)) (o1 o2 : cal_op A),
    independent o1 o2 = true ->
    let c1 := cal_run e c h1 in
    cal_run e c (h1 ++ [o1; o2] ++ h2) = cal_run e c (h1 ++ [o2; o1] ++ h2) /\
    (exists r1 r2, outcomes e c1 [o1; o2] = [r1; r2] /\ outcomes e c1 [o2; o1] = [r2; r1]) /\
    outcomes e c1 [o1] ++ outcomes e c1 [o2] = outcomes e c1 [o1; o2] /\
    outcomes e (cal_run e c1 [o1; o2]) h2 = outcomes e (cal_run e c1 [o2; o1]) h2.
Proof.
  intros A N e c h1 h2 o1 o2 H c1. unfold independent in H. apply andb_true_iff in H. destruct H as [H1 H2].
  assert (WR : forall (o : cal_op A) p, mem p (writes o) = true -> mem p (reads o) = true).
  { intros o p. destruct o, p; cbn; auto; discriminate. }
  assert (E2 : cal_step e (fst (cal_step e c1 o1)) o2 =
               (put (writes o2) (fst (cal_step e c1 o2)) (fst (cal_step e c1 o1)), snd (cal_step e c1 o2))).
  { apply local_all. rewrite (local_all e o1 c1 c1); [apply agree_put; auto|].
    unfold agree; repeat split; auto. }
  assert (E1 : cal_step e (fst (cal_step e c1 o2)) o1 =
               (put (writes o1) (fst (cal_step e c1 o1)) (fst (cal_step e c1 o2)), snd (cal_step e c1 o1))).
  { apply local_all. rewrite (local_all e o2 c1 c1); [apply agree_put; auto|].
    unfold agree; repeat split; auto. }
  assert (S1 : fst (cal_step e c1 o1) = put (writes o1) (fst (cal_step e c1 o1)) c1).
  { rewrite (local_all e o1 c1 c1) at 1; [reflexivity|]. unfold agree; repeat split; auto. }
  assert (S2 : fst (cal_step e c1 o2) = put (writes o2) (fst (cal_step e c1 o2)) c1).
  { rewrite (local_all e o2 c1 c1) at 1; [reflexivity|]. unfold agree; repeat split; auto. }
  assert (Same : cal_run e c1 [o1; o2] = cal_run e c1 [o2; o1]).
  { unfold cal_run. cbn [fold_left]. rewrite E1, E2. cbn [fst].
    set (x1 := fst (cal_step e c1 o1)) in *. set (x2 := fst (cal_step e c1 o2)) in *. clearbody x1 x2.
    transitivity (put (writes o2) x2 (put (writes o1) x1 c1)); [congruence|].
    transitivity (put (writes o1) x1 (put (writes o2) x2 c1)); [|congruence]. apply put_swap.
    intros p Hp. destruct (mem p (writes o2)) eqn:Eq; auto.
    rewrite (disjoint_sym _ _ _ H1 (WR o2 p Eq)) in Hp. discriminate. }
  split; [|split; [|split]].
  - subst c1. unfold cal_run in *. rewrite !fold_left_app. cbn [app]. f_equal. exact Same.
  - exists (snd (cal_step e c1 o1)), (snd (cal_step e c1 o2)). unfold outcomes. rewrite E1, E2. split; reflexivity.
  - unfold outcomes. rewrite E2. reflexivity.
  - rewrite Same. reflexivity.
Qed.

(** The hypothesis holds of many pairs of calls; here of set_ransac_properties and
    everything but itself, set_known_pairs and everything but itself, and of
    load_hough_transform and every setter and atlas call. *)
Example configure_order_example_main :
  (forall (A : Type) (N : Num A) (a : ransac_args A) (o : cal_op A),
    independent (ORansac a) o = match o with ORansac _ => false | _ => true end) /\
  (forall (A : Type) (N : Num A) p w (o : cal_op A),
    independent (OKnown p w) o = match o with OKnown _ _ => false | _ => true end) /\
  (forall (A : Type) (N : Num A) fs n t (a : hough_args A) at_ ct k,
    independent (OLoad fs n t) (OHough a) = true /\ independent (OLoad fs n t) (OSetAtlas at_ ct k) = true) /\
  exists c0 : calib f64, calib_init Main_Calib.all_inside [fz 10; fz 20] None = Ok c0 /\
    let o1 := ORansac (mkRA (Some 4%nat) None None None (Some (fz 3)) None None (Some (fz 5)) None None) in
    let o2 := OHough (mkHA (Some (fz 10)) (Some 2%nat) (Some 2%nat) (Some (fz 4000)) (Some (fz 5000)) None None) in
    let c := cal_run Main_Calib.env0 c0 [o1; o2] in
    r_tol (c_rp c) = Some (fz 3) /\ h_minw (c_hp c) = Some (fz 4000) /\
    cal_run Main_Calib.env0 c0 [o2; o1] = c.
Proof.
  split; [intros A N a [] ; reflexivity|]. split; [intros A N p w []; reflexivity|].
  split; [intros; split; reflexivity|].
  eexists. split; [vm_compute; reflexivity|]. vm_compute. repeat split.
Qed.

(** The order of set_calibrator_properties and set_hough_properties does matter:
    whatever the calls before, giving the pixel list after the wavelength range leaves
    the slope and intercept limits, and the pairs, as they were computed from the
    earlier pixels. *)
Lemma configure_order_refuted_main :
  (forall (A : Type) (N : Num A) (e : env A) (c : calib A) n px lib,
    let c' := fst (cal_step e c (OGeneral n px lib)) in
    c_hp c' = c_hp c /\ c_pairs c' = c_pairs c) /\
  exists c0 : calib f64, calib_init Main_Calib.all_inside [fz 10; fz 20] None = Ok c0 /\
    let o1 := OGeneral None (Some [fz 0; fz 10; fz 20]) None in
    let o2 := OHough (mkHA None None None (Some (fz 4000)) (Some (fz 5000)) None None) in
    let e := Main_Calib.env0 in
    cal_ok e c0 [o1; o2] /\ cal_ok e c0 [o2; o1] /\
    h_min_slope (c_hp (cal_run e c0 [o1; o2])) <> h_min_slope (c_hp (cal_run e c0 [o2; o1])) /\
    h_max_slope (c_hp (cal_run e c0 [o1; o2])) <> h_max_slope (c_hp (cal_run e c0 [o2; o1])).
Proof.
  split.
  - intros A N e c n px lib. cbn [cal_step]. unfold set_calibrator_properties. cbv zeta.
    match goal with |- context[match ?x with Ok _ => _ | Raise _ => _ end] => destruct x end; split; reflexivity.
  - eexists. split; [vm_compute; reflexivity|]. cbv zeta.
    split; [vm_compute; repeat split|]. split; [vm_compute; repeat split|].
    split; vm_compute; discriminate.
Qed.

Section Again.
  Context {A : Type} {N : Num A}.

  Lemma generate_pairs_again hull (c : calib A) :
    snd (generate_pairs hull c) = Ok tt ->
    generate_pairs hull (fst (generate_pairs hull c)) = (fst (generate_pairs hull c), Ok tt).
  Proof.
    unfold generate_pairs. destruct c as [? ? at_ ? g h ? ct k ? ? ? ? ? ? ? ? ? ? ? ? ? ?]. cbn.
    destruct at_ as [at_|]; [|discriminate]. destruct k; cbn; [|reflexivity].
    unfold corners. cbn.
    match goal with |- context[bind ?x ?f] => destruct (bind x f) eqn:E end; cbn; [|discriminate].
    rewrite E. reflexivity.
  Qed.

  Lemma load_fields_again (h t : hough A) p hi xe ye lims :
    load_fields h p hi xe ye lims = (t, Ok tt) -> load_fields t p hi xe ye lims = (t, Ok tt).
  Proof.
    destruct lims as [[[l1 l2] l3] l4]. unfold load_fields.
    destruct hi, xe, ye, l1, l2, l3, l4; try discriminate. cbn. intros E. injection E as <-. reflexivity.
  Qed.

  Lemma keep_again {T} (a o : option T) d : keep a (keep a o d) d = keep a o d.
  Proof. destruct a, o; reflexivity. Qed.
  Lemma keep_some {T} (a : option T) o d : exists v, keep a o d = Some v.
  Proof. destruct a, o; cbn; eauto. Qed.
  Lemma keep_of {T} (a : option T) o d v : keep a o d = Some v -> keep a (Some v) d = Some v.
  Proof. destruct a, o; cbn; auto. Qed.
End Again.

(** Repeating a call that states a setting changes nothing: the second call succeeds
    like the first and leaves the calibrator exactly as the first left it. *)
Lemma settings_idempotent_main :
  forall (A : Type) (N : Num A) (e : env A) (c : calib A) (o : cal_op A),
    states_setting o = true ->
    snd (cal_step e c o) = Ok tt ->
    cal_step e (fst (cal_step e c o)) o = (fst (cal_step e c o), Ok tt).
Proof.
  intros A N e c o Hs. destruct o as [np px lib| | |a|a|p w|at_ ct k|a ct k|u ct k|w t| |b|fs n t]; try discriminate;
    clear Hs; cbn [cal_step].
  - unfold set_calibrator_properties at 1 3 4. cbv beta zeta.
    match goal with |- context[match ?x with Ok _ => _ | Raise _ => _ end] => destruct x as [v|ex] eqn:E end;
      cbn [snd fst]; [|discriminate]. intros _.
    destruct (keep_some px (g_pixels (c_gp c)) (np_arange0 v)) as [px' Ex]. rewrite Ex.
    destruct (keep_some lib (g_library (c_gp c)) "matplotlib"%string) as [lib' El]. rewrite El.
    pose proof (keep_of _ _ _ _ El) as El'. pose proof (keep_of _ _ _ _ Ex) as Ex'.
    unfold set_calibrator_properties. cbv zeta.
    destruct (String.eqb lib' "matplotlib") eqn:L1; [|destruct (String.eqb lib' "plotly") eqn:L2].
    all: destruct np as [np|]; cbn -[keep String.eqb nlit np_arange0];
         try (injection E as <-); cbn -[keep String.eqb nlit np_arange0];
         rewrite Ex', El'; rewrite ?L1, ?L2; reflexivity.
  - intros _. reflexivity.
  - intros _. reflexivity.
  - unfold set_hough_properties at 1 3 4. cbv beta zeta.
    match goal with |- context[match ?x with Ok _ => _ | Raise _ => _ end] => destruct x as [v|ex] eqn:E end;
      cbn [snd fst]; [|discriminate].
    destruct (g_pixels (c_gp c)) as [px|] eqn:Px; [|discriminate].
    destruct (np_ptp px) as [ptp|ex] eqn:Pt; [|discriminate].
    destruct (keep_some (ha_minw a) (h_minw (c_hp c)) (nZ 3000)) as [v1 K1]. rewrite K1.
    destruct (keep_some (ha_maxw a) (h_maxw (c_hp c)) (nZ 9000)) as [v2 K2]. rewrite K2.
    destruct (keep_some (ha_rt a) (h_rt (c_hp c)) (nZ 500)) as [v3 K3]. rewrite K3.
    destruct (keep_some (ha_lt a) (h_lt (c_hp c)) (nZ 100)) as [v4 K4]. rewrite K4.
    destruct (keep_some (ha_xbins a) (h_xbins (c_hp c)) 100%nat) as [v5 K5]. rewrite K5.
    destruct (keep_some (ha_ybins a) (h_ybins (c_hp c)) 100%nat) as [v6 K6]. rewrite K6.
    apply keep_of in K1, K2, K3, K4, K5, K6.
    match goal with |- context[set_c_hp ?h c] => set (H := h) end.
    assert (Step : forall d, c_hp d = H -> g_pixels (c_gp d) = Some px ->
              set_hough_properties (e_hull e) d a =
              match c_atlas d with None => (d, Ok tt) | Some _ => generate_pairs (e_hull e) d end).
    { intros d Hd Hp. unfold set_hough_properties. cbv zeta. rewrite Hd. unfold H at 1.
      cbn [h_num_slopes].
      assert (Ev : match ha_num_slopes a with
                   | Some v0 => bind (int_of v0) (fun z => Ok (Some z))
                   | None => Ok (keep None v 2000%Z) end = Ok v).
      { destruct (ha_num_slopes a) as [s|]; auto. injection E as <-. destruct (h_num_slopes (c_hp c)); reflexivity. }
      rewrite Ev. rewrite Hp, Pt. unfold H. cbn [h_minw h_maxw h_rt h_lt h_xbins h_ybins].
      rewrite K1, K2, K3, K4, K5, K6. fold H.
      replace (set_c_hp H d) with d; [reflexivity|]. destruct d; cbn in *; subst; reflexivity. }
    destruct (c_atlas c) as [at_|] eqn:Ea; cbn [snd fst].
    + intros Ok1. rewrite (Step (fst (generate_pairs (e_hull e) (set_c_hp H c)))).
      * replace (c_atlas (fst (generate_pairs (e_hull e) (set_c_hp H c)))) with (Some at_).
        -- apply generate_pairs_again; auto.
        -- rewrite generate_pairs_put. cbn. auto.
      * rewrite generate_pairs_put. reflexivity.
      * rewrite generate_pairs_put. exact Px.
    + intros _. rewrite (Step (set_c_hp H c)); [cbn; rewrite Ea; reflexivity|reflexivity|exact Px].
  - unfold set_ransac_properties at 1 3 4. cbv beta zeta.
    match goal with |- context[if negb ?x then _ else _] => destruct x eqn:O1; cbn [negb] end; [|discriminate].
    match goal with |- context[if negb ?x then _ else _] => destruct x eqn:O2; cbn [negb] end; [|discriminate].
    match goal with |- context[if negb ?x then _ else _] => destruct x eqn:O3; cbn [negb] end; [|discriminate].
    intros _. cbn [fst]. unfold set_ransac_properties. cbv zeta. rewrite O1, O2, O3. cbn [negb].
    cbn [c_rp set_c_rp r_sample r_top r_linear r_close r_tol r_weighted r_hweight r_matches r_util r_fit_error].
    rewrite !keep_again. reflexivity.
  - unfold set_known_pairs. destruct p as [p|ex]; [|discriminate]. destruct w as [w|ex]; [|discriminate].
    destruct (negb _); [discriminate|]. destruct (existsb nisnan p); [discriminate|].
    destruct (existsb nisnan w); [discriminate|]. reflexivity.
  - unfold set_atlas. intros H.
    pose proof (generate_pairs_again _ _ H) as G. revert G. rewrite generate_pairs_put. intros G. exact G.
  - unfold cal_clear_atlas. destruct (c_atlas c) eqn:Ea; cbn [fst snd]; [|discriminate]. reflexivity.
  - unfold do_hough_transform at 1 3 4. cbv beta. destruct (c_pairs c) as [| |l] eqn:Ep; [discriminate| |].
    { destruct (set_constraints _ _ _ _ _) as [t1 [v|ex]]; discriminate. }
    unfold set_constraints. destruct (bind _ _) as [[[[s1 s2] s3] s4]|ex] eqn:Ec; [|discriminate].
    match goal with |- context[let (t2, r2) := ?x in _] => destruct x as [t2 [v2|ex2]] eqn:E2 end; [|discriminate].
    match goal with |- context[let (t3, r3) := ?x in _] => destruct x as [t3 [v3|ex3]] eqn:E3 end; [|discriminate].
    intros _. cbn [fst snd].
    unfold do_hough_transform.
    cbn [c_pairs c_hp c_ht set_c_lines set_c_points set_c_ht]. rewrite Ep. unfold set_constraints. rewrite Ec.
    assert (G : exists pts, t2 = ho_set_points (mkHough (ho_points (c_ht c)) (ho_lines (c_ht c)) (ho_hist (c_ht c))
                (ho_xedges (c_ht c)) (ho_yedges (c_ht c)) (Some s1) (Some s2) (Some s3) (Some s4)) (HArr pts) /\
              forall t, (if b then generate_hough_points_brute_force (e_argsort e)
                 (mkHough (ho_points t) (ho_lines t) (ho_hist t) (ho_xedges t) (ho_yedges t) (Some s1) (Some s2) (Some s3) (Some s4))
                 (map fst l) (map snd l)
               else match h_num_slopes (c_hp c) with
                    | Some (Zneg _) => (mkHough (ho_points t) (ho_lines t) (ho_hist t) (ho_xedges t) (ho_yedges t) (Some s1) (Some s2) (Some s3) (Some s4), Raise ValueError)
                    | Some z => generate_hough_points (mkHough (ho_points t) (ho_lines t) (ho_hist t) (ho_xedges t) (ho_yedges t) (Some s1) (Some s2) (Some s3) (Some s4)) (map fst l) (map snd l) (Z.to_nat z)
                    | None => (mkHough (ho_points t) (ho_lines t) (ho_hist t) (ho_xedges t) (ho_yedges t) (Some s1) (Some s2) (Some s3) (Some s4), Raise TypeError)
                    end) = (ho_set_points (mkHough (ho_points t) (ho_lines t) (ho_hist t) (ho_xedges t) (ho_yedges t) (Some s1) (Some s2) (Some s3) (Some s4)) (HArr pts), Ok tt)).
    { revert E2. unfold generate_hough_points_brute_force, generate_hough_points.
      cbn [ho_min_slope ho_max_slope ho_min_intercept ho_max_intercept].
      destruct b.
      - destruct (Nat.ltb _ _); [discriminate|]. destruct (Nat.leb _ _); [discriminate|].
        intros E2. injection E2 as <- _. eexists. split; [reflexivity|]. reflexivity.
      - destruct (h_num_slopes (c_hp c)) as [[|z|z]|]; try discriminate;
        (destruct (negb _); [discriminate|]; destruct (orb _ _); [discriminate|];
         intros E2; injection E2 as <- _; eexists; split; [reflexivity|]; reflexivity). }
    destruct G as (pts & -> & G). rewrite G.
    destruct (h_xbins (c_hp c)) as [xb|]; [|discriminate]. destruct (h_ybins (c_hp c)) as [yb|]; [|discriminate].
    revert E3. unfold bin_hough_points. cbn [ho_points ho_set_points].
    destruct (bin_edges (map fst pts) xb) as [xe|]; [|discriminate].
    destruct (bin_edges (map snd pts) yb) as [ye|]; [|discriminate].
    intros E3. injection E3 as <- _. reflexivity.
  - unfold load_hough_transform. destruct (hough_load (c_ht c) fs n t) as [t' r] eqn:E. cbn [fst snd]. intros ->.
    cbn [c_ht set_c_ht].
    assert (E' : hough_load t' fs n t = (t', Ok tt)).
    { revert E. unfold hough_load. destruct (String.eqb t "npy").
      - destruct (fs _) as [[]|]; try discriminate. apply load_fields_again.
      - destruct (String.eqb t "json"); [|discriminate]. destruct (fs _) as [[]|]; try discriminate. apply load_fields_again. }
    rewrite E'. reflexivity.
Qed.

(** The calls of a history that sets up a transform all succeed, so each may be made
    twice. *)
Example settings_idempotent_example_main :
  exists c0 : calib f64, calib_init Main_Calib.all_inside [fz 10; fz 20] None = Ok c0 /\
    cal_ok Main_Calib.env0 c0 Main_Calib.hough_history /\
    forallb states_setting Main_Calib.hough_history = true /\
    Main_Calib.hough_history <> [] /\
    cal_run Main_Calib.env0 c0 (flat_map (fun o => [o; o]) Main_Calib.hough_history) =
    cal_run Main_Calib.env0 c0 Main_Calib.hough_history.
Proof.
  eexists. split; [vm_compute; reflexivity|]. split; [vm_compute; repeat split|].
  split; [vm_compute; reflexivity|]. split; [vm_compute; discriminate|]. vm_compute. reflexivity.
Qed.

(** * Main_SetterSteps: interrupting the configuring calls. *)

From Coq Require Import ZArith Bool List String Lia Reals Lra.
From Verif Require Import Num F64 XReal Py Np NpFacts Util Models Atlas AtlasFacts SpecAtlas Hough PolyEval Calib SpecCalib CalibFacts Main_Calib ArgsortFacts Main_Atlas SetterSteps SpecSetter.
Import ListNotations.
Local Open Scope string_scope.
Local Open Scope list_scope.
Local Open Scope num_scope.

Section Facts.
  Context {A : Type} {N : Num A}.

  Lemma keep_keep {T} (g o : option T) d : keep g (keep g o d) d = keep g o d.
  Proof. destruct g, o; reflexivity. Qed.

  Lemma generate_eq hull (c : calib A) :
    fst (generate_pairs hull c) = set_c_pairs (c_pairs (fst (generate_pairs hull c))) c.
  Proof.
    unfold generate_pairs. destruct (c_atlas c); [|destruct c; reflexivity]. destruct (c_constrain c).
    - destruct (bind _ _); [reflexivity|destruct c; reflexivity].
    - reflexivity.
  Qed.
  Lemma generate_again hull (c : calib A) : generate_pairs hull (fst (generate_pairs hull c)) = generate_pairs hull c.
  Proof.
    unfold generate_pairs at 2 3. destruct (c_atlas c) eqn:EA; [|unfold generate_pairs; cbn [fst]; rewrite EA; reflexivity].
    cbv zeta. destruct (c_constrain c) eqn:EC.
    - destruct (bind (corners c) _) as [m|e] eqn:EB.
      + cbn [fst]. unfold generate_pairs. cbn [set_c_pairs c_atlas c_constrain c_peaks]. rewrite EA, EC.
        change (corners (set_c_pairs (PArr (mask_select m (product_pairs (c_peaks c) (get_lines a)))) c)) with (corners c).
        cbv zeta. rewrite EB. reflexivity.
      + cbn [fst]. unfold generate_pairs. rewrite EA, EC. cbv zeta. rewrite EB. reflexivity.
    - cbn [fst]. unfold generate_pairs. cbn [set_c_pairs c_atlas c_constrain c_peaks]. rewrite EA, EC. reflexivity.
  Qed.

  Lemma calibrator_all (c : calib A) n p l hull :
    fold_left (fun c f => f c) (calibrator_steps c n p l) c = fst (setting_call hull c (TCalibrator n p l)).
  Proof.
    cbn [setting_call]. unfold calibrator_steps, set_calibrator_properties. cbv zeta.
    destruct (match n with Some v => Ok v | None => _ end) as [v|e]; [|reflexivity].
    destruct p; destruct (g_pixels (c_gp c)); cbn [keep];
      (destruct (String.eqb _ "matplotlib"); [reflexivity|destruct (String.eqb _ "plotly"); reflexivity]).
  Qed.
  Lemma hough_all hull (c : calib A) a :
    fold_left (fun c f => f c) (hough_steps hull c a) c = fst (set_hough_properties hull c a).
  Proof.
    unfold hough_steps, set_hough_properties. cbv zeta.
    destruct (match ha_num_slopes a with Some v => _ | None => _ end) as [ns|e]; [|reflexivity].
    destruct (g_pixels (c_gp c)) as [px|]; [|reflexivity]. destruct (np_ptp px) as [ptp|e]; [|reflexivity].
    destruct (c_atlas c); reflexivity.
  Qed.
  Lemma ransac_all (c : calib A) a :
    fold_left (fun c f => f c) (ransac_steps c a) c = fst (set_ransac_properties c a).
  Proof.
    unfold ransac_steps, set_ransac_properties. cbv zeta.
    destruct (negb _); [reflexivity|]. destruct (negb _); [reflexivity|]. destruct (negb _); reflexivity.
  Qed.
  Lemma known_all (c : calib A) p w :
    fold_left (fun c f => f c) (known_steps c p w) c = fst (set_known_pairs c p w).
  Proof.
    unfold known_steps, set_known_pairs. destruct p as [p|]; [|reflexivity]. destruct w as [w|]; [|reflexivity].
    destruct (negb _); [reflexivity|]. destruct (existsb _ p); [reflexivity|]. destruct (existsb _ w); [reflexivity|].
    cbn [c_known set_c_known]. destruct (c_known c) as [[p0 w0]|]; reflexivity.
  Qed.

  (** What every step keeps holds after any of them. *)
  Lemma fold_inv (P : calib A -> Prop) l : Forall (fun f : cstep A => forall d, P d -> P (f d)) l ->
    forall k c, P c -> P (fold_left (fun c f => f c) (firstn k l) c).
  Proof.
    intros H. induction H as [|f l Hf H IH]; intros k c Hc; destruct k; cbn [firstn fold_left]; auto.
  Qed.

  (** Repeating the calls. *)
  Lemma calibrator_again (c : calib A) n p l k :
    let d := fold_left (fun c f => f c) (firstn k (calibrator_steps c n p l)) c in
    set_calibrator_properties d n p l = set_calibrator_properties c n p l.
  Proof.
    cbv zeta. unfold calibrator_steps. cbv zeta.
    destruct (match n with Some v => Ok v | None => _ end) as [v|e] eqn:EN; [|rewrite firstn_nil; reflexivity].
    assert (L : forall l', exists lib, lib = match keep l l' "matplotlib"%string with Some s => s | None => ""%string end /\ keep l l' "matplotlib"%string = Some lib).
    { intros l'. destruct l, l'; eexists; split; reflexivity. }
    destruct (L (g_library (c_gp c))) as (lib & <- & EL). clear L.
    assert (P : keep p (g_pixels (c_gp c)) (np_arange0 v) = Some (match keep p (g_pixels (c_gp c)) (np_arange0 v) with Some x => x | None => [] end)).
    { destruct p, (g_pixels (c_gp c)); reflexivity. }
    set (P1 := fun d : calib A => d = set_c_gp (c_gp d) c /\ (g_num_pix (c_gp d) = g_num_pix (c_gp c) \/ g_num_pix (c_gp d) = Some v) /\
       (g_pixels (c_gp d) = g_pixels (c_gp c) \/ g_pixels (c_gp d) = keep p (g_pixels (c_gp c)) (np_arange0 v)) /\
       (g_library (c_gp d) = g_library (c_gp c) \/ g_library (c_gp d) = Some lib) /\
       (String.eqb lib "matplotlib" = false -> String.eqb lib "plotly" = false ->
          g_mpl (c_gp d) = g_mpl (c_gp c) /\ g_plotly (c_gp d) = g_plotly (c_gp c))).
    set (d := fold_left _ _ c).
    assert (D : P1 d).
    { apply fold_inv; [|unfold P1; repeat split; auto; destruct c; reflexivity].
      assert (G : forall f : gprops A -> gprops A, (forall g, (g_num_pix (f g) = g_num_pix g \/ g_num_pix (f g) = Some v) /\
         (g_pixels (f g) = g_pixels g \/ g_pixels (f g) = keep p (g_pixels (c_gp c)) (np_arange0 v)) /\
         (g_library (f g) = g_library g \/ g_library (f g) = Some lib) /\
         (String.eqb lib "matplotlib" = false -> String.eqb lib "plotly" = false -> g_mpl (f g) = g_mpl g /\ g_plotly (f g) = g_plotly g)) ->
         forall d, P1 d -> P1 (on_g f d)).
      { intros f Hf d0 (I1 & I2 & I3 & I4 & I5). unfold P1, on_g. cbn [c_gp set_c_gp].
        destruct (Hf (c_gp d0)) as (F2 & F3 & F4 & F5).
        split; [rewrite I1; reflexivity|]. split; [destruct F2 as [F2|F2]; rewrite F2; auto|].
        split; [destruct F3 as [F3|F3]; rewrite F3; auto|]. split; [destruct F4 as [F4|F4]; rewrite F4; auto|].
        intros H1 H2. destruct (F5 H1 H2) as [F6 F7]. rewrite F6, F7. apply I5; assumption. }
      destruct (String.eqb lib "matplotlib") eqn:M1; [|destruct (String.eqb lib "plotly") eqn:M2]; cbn [app];
        repeat apply Forall_cons; try apply Forall_nil; apply G; intros g; cbn; repeat split; auto; intros; congruence. }
    clearbody d. destruct D as (ED & Dn & Dp & Dl & Df). subst P1. rewrite ED. set (g := c_gp d) in *. clearbody g. clear ED d.
    unfold set_calibrator_properties. cbv zeta.
    cbn [c_gp set_c_gp c_spectrum c_peaks].
    assert (EN' : match n with Some v => Ok v | None => match g_num_pix g with Some v => Ok v | None => match c_spectrum c with Some s => Ok (nnat (List.length s)) | None => bind (py_max (c_peaks c)) (fun m => Ok (nlit 11 (-1) *' m)) end end end = Ok v).
    { destruct n; [exact EN|]. destruct Dn as [-> | ->]; [exact EN|reflexivity]. }
    rewrite EN', EN.
    assert (EP : keep p (g_pixels g) (np_arange0 v) = keep p (g_pixels (c_gp c)) (np_arange0 v)).
    { destruct Dp as [-> | ->]; [reflexivity|apply keep_keep]. }
    assert (EL' : keep l (g_library g) "matplotlib"%string = Some lib).
    { destruct Dl as [-> | ->]; [exact EL|]. rewrite <- EL. apply keep_keep. }
    rewrite EP, EL', EL. destruct (String.eqb lib "matplotlib") eqn:E1; [reflexivity|]. destruct (String.eqb lib "plotly") eqn:E2; [reflexivity|].
    destruct (Df eq_refl eq_refl) as [-> ->]. reflexivity.
  Qed.

  Lemma generate_frame hull (c : calib A) : let d := fst (generate_pairs hull c) in
    c_hp d = c_hp c /\ c_gp d = c_gp c /\ c_atlas d = c_atlas c.
  Proof. cbv zeta. rewrite generate_eq. repeat split. Qed.

  Lemma hough_form hull (c1 c2 : calib A) a ns px ptp at_ :
    c_hp c2 = c_hp c1 -> c_gp c2 = c_gp c1 -> c_atlas c1 = Some at_ -> c_atlas c2 = Some at_ ->
    match ha_num_slopes a with Some v => bind (int_of v) (fun z => Ok (Some z)) | None => Ok (keep None (h_num_slopes (c_hp c1)) 2000%Z) end = Ok ns ->
    g_pixels (c_gp c1) = Some px -> np_ptp px = Ok ptp ->
    exists h, set_hough_properties hull c1 a = generate_pairs hull (set_c_hp h c1) /\
      set_hough_properties hull c2 a = generate_pairs hull (set_c_hp h c2).
  Proof.
    intros H1 H2 H3 H4 H5 H6 H7. unfold set_hough_properties. cbv zeta. rewrite H1, H2, H5, H6, H7, H3, H4.
    eexists. split; reflexivity.
  Qed.

  Lemma hough_again hull (c : calib A) a k :
    let d := fold_left (fun c f => f c) (firstn k (hough_steps hull c a)) c in
    set_hough_properties hull d a = set_hough_properties hull c a.
  Proof.
    cbv zeta. assert (HA := hough_all hull c a). revert HA. unfold hough_steps. cbv zeta.
    destruct (match ha_num_slopes a with Some v => _ | None => _ end) as [ns|e] eqn:EN; [|intros _; rewrite firstn_nil; reflexivity].
    set (val := fun o : option A => match o with Some v => v | None => nZ 0 end).
    set (pre := ([sh_num_slopes ns; sh_xbins (keep (ha_xbins a) (h_xbins (c_hp c)) 100%nat);
         sh_ybins (keep (ha_ybins a) (h_ybins (c_hp c)) 100%nat); sh_minw (keep (ha_minw a) (h_minw (c_hp c)) (nZ 3000));
         sh_maxw (keep (ha_maxw a) (h_maxw (c_hp c)) (nZ 9000)); sh_rt (keep (ha_rt a) (h_rt (c_hp c)) (nZ 500));
         sh_lt (keep (ha_lt a) (h_lt (c_hp c)) (nZ 100));
         sh_min_intercept (Some (val (keep (ha_minw a) (h_minw (c_hp c)) (nZ 3000)) -' val (keep (ha_rt a) (h_rt (c_hp c)) (nZ 500))));
         sh_max_intercept (Some (val (keep (ha_minw a) (h_minw (c_hp c)) (nZ 3000)) +' val (keep (ha_rt a) (h_rt (c_hp c)) (nZ 500))))] ++
      match g_pixels (c_gp c) with
      | None => []
      | Some px => match np_ptp px with
         | Raise _ => []
         | Ok ptp => [sh_min_slope (Some (min_slope_of (val (keep (ha_minw a) (h_minw (c_hp c)) (nZ 3000))) (val (keep (ha_maxw a) (h_maxw (c_hp c)) (nZ 9000))) (val (keep (ha_rt a) (h_rt (c_hp c)) (nZ 500))) (val (keep (ha_lt a) (h_lt (c_hp c)) (nZ 100))) ptp));
                      sh_max_slope (Some (max_slope_of (val (keep (ha_minw a) (h_minw (c_hp c)) (nZ 3000))) (val (keep (ha_maxw a) (h_maxw (c_hp c)) (nZ 9000))) (val (keep (ha_rt a) (h_rt (c_hp c)) (nZ 500))) (val (keep (ha_lt a) (h_lt (c_hp c)) (nZ 100))) ptp))]
         end
      end)%list).
    set (post := match g_pixels (c_gp c) with
      | None => []
      | Some px => match np_ptp px with Raise _ => [] | Ok ptp => match c_atlas c with None => [] | Some _ => [pairs_step hull] end end
      end).
    match goal with |- fold_left _ ?l c = _ -> _ => assert (EL : l = (pre ++ post)%list) end.
    { subst pre post. destruct (g_pixels (c_gp c)) as [px|]; [|reflexivity]. destruct (np_ptp px); reflexivity. }
    rewrite EL. clear EL. intros HA.
    set (P1 := fun d : calib A => d = set_c_hp (c_hp d) c /\
       (h_num_slopes (c_hp d) = h_num_slopes (c_hp c) \/ h_num_slopes (c_hp d) = ns) /\
       (h_xbins (c_hp d) = h_xbins (c_hp c) \/ h_xbins (c_hp d) = keep (ha_xbins a) (h_xbins (c_hp c)) 100%nat) /\
       (h_ybins (c_hp d) = h_ybins (c_hp c) \/ h_ybins (c_hp d) = keep (ha_ybins a) (h_ybins (c_hp c)) 100%nat) /\
       (h_minw (c_hp d) = h_minw (c_hp c) \/ h_minw (c_hp d) = keep (ha_minw a) (h_minw (c_hp c)) (nZ 3000)) /\
       (h_maxw (c_hp d) = h_maxw (c_hp c) \/ h_maxw (c_hp d) = keep (ha_maxw a) (h_maxw (c_hp c)) (nZ 9000)) /\
       (h_rt (c_hp d) = h_rt (c_hp c) \/ h_rt (c_hp d) = keep (ha_rt a) (h_rt (c_hp c)) (nZ 500)) /\
       (h_lt (c_hp d) = h_lt (c_hp c) \/ h_lt (c_hp d) = keep (ha_lt a) (h_lt (c_hp c)) (nZ 100)) /\
       (match g_pixels (c_gp c) with Some px => match np_ptp px with Ok _ => True | _ => False end | None => False end \/
        h_min_slope (c_hp d) = h_min_slope (c_hp c) /\ h_max_slope (c_hp d) = h_max_slope (c_hp c))).
    assert (D : forall k, P1 (fold_left (fun c f => f c) (firstn k pre) c)).
    { intros k'. apply fold_inv; [|unfold P1; repeat split; auto; destruct c; reflexivity].
      assert (G : forall f : hprops A -> hprops A, (forall h,
         (h_num_slopes (f h) = h_num_slopes h \/ h_num_slopes (f h) = ns) /\
         (h_xbins (f h) = h_xbins h \/ h_xbins (f h) = keep (ha_xbins a) (h_xbins (c_hp c)) 100%nat) /\
         (h_ybins (f h) = h_ybins h \/ h_ybins (f h) = keep (ha_ybins a) (h_ybins (c_hp c)) 100%nat) /\
         (h_minw (f h) = h_minw h \/ h_minw (f h) = keep (ha_minw a) (h_minw (c_hp c)) (nZ 3000)) /\
         (h_maxw (f h) = h_maxw h \/ h_maxw (f h) = keep (ha_maxw a) (h_maxw (c_hp c)) (nZ 9000)) /\
         (h_rt (f h) = h_rt h \/ h_rt (f h) = keep (ha_rt a) (h_rt (c_hp c)) (nZ 500)) /\
         (h_lt (f h) = h_lt h \/ h_lt (f h) = keep (ha_lt a) (h_lt (c_hp c)) (nZ 100)) /\
         (match g_pixels (c_gp c) with Some px => match np_ptp px with Ok _ => True | _ => False end | None => False end \/
          h_min_slope (f h) = h_min_slope h /\ h_max_slope (f h) = h_max_slope h)) -> forall d, P1 d -> P1 (on_h f d)).
      { intros f Hf d0 (I1 & I2 & I3 & I4 & I5 & I6 & I7 & I8 & I9). unfold P1, on_h. cbn [c_hp set_c_hp].
        destruct (Hf (c_hp d0)) as (F2 & F3 & F4 & F5 & F6 & F7 & F8 & F9).
        split; [rewrite I1; reflexivity|]. split; [destruct F2 as [F2|F2]; rewrite F2; auto|].
        split; [destruct F3 as [F3|F3]; rewrite F3; auto|]. split; [destruct F4 as [F4|F4]; rewrite F4; auto|].
        split; [destruct F5 as [F5|F5]; rewrite F5; auto|]. split; [destruct F6 as [F6|F6]; rewrite F6; auto|].
        split; [destruct F7 as [F7|F7]; rewrite F7; auto|]. split; [destruct F8 as [F8|F8]; rewrite F8; auto|].
        destruct F9 as [F9|[F9 F10]]; [left; exact F9|]. rewrite F9, F10. exact I9. }
      subst pre. cbn [app]. do 9 (apply Forall_cons; [apply G; intros h; cbn; repeat split; auto|]).
      destruct (g_pixels (c_gp c)) as [px|]; [|apply Forall_nil]. destruct (np_ptp px) as [ptp|e]; [|apply Forall_nil].
      do 2 (apply Forall_cons; [apply G; intros h; cbn; repeat split; auto|]). apply Forall_nil. }
    assert (Q : forall d, P1 d -> set_hough_properties hull d a = set_hough_properties hull c a).
    { intros d (ED & D1 & D2 & D3 & D4 & D5 & D6 & D7 & D8). rewrite ED. set (h := c_hp d) in *. clearbody h. clear ED d.
      unfold set_hough_properties. cbv zeta. cbn [c_hp c_gp c_atlas set_c_hp].
      assert (EN' : match ha_num_slopes a with Some v => bind (int_of v) (fun z => Ok (Some z)) | None => Ok (keep None (h_num_slopes h) 2000%Z) end = Ok ns).
      { destruct (ha_num_slopes a) as [v|]; [exact EN|]. destruct D1 as [-> | ->]; [exact EN|].
        assert (E : ns = keep None (h_num_slopes (c_hp c)) 2000%Z) by congruence. rewrite E, keep_keep. reflexivity. }
      rewrite EN', EN.
      assert (K : forall T (g x y : option T) z, (x = y \/ x = keep g y z) -> keep g x z = keep g y z).
      { intros T g x y z [-> | ->]; [reflexivity|apply keep_keep]. }
      rewrite (K _ _ _ _ _ D2), (K _ _ _ _ _ D3), (K _ _ _ _ _ D4), (K _ _ _ _ _ D5), (K _ _ _ _ _ D6), (K _ _ _ _ _ D7).
      destruct (g_pixels (c_gp c)) as [px|].
      2: { destruct D8 as [[]|(-> & ->)]. reflexivity. }
      destruct (np_ptp px) as [ptp|e].
      2: { destruct D8 as [[]|(-> & ->)]. reflexivity. }
      reflexivity. }
    destruct (Compare_dec.le_lt_dec k (List.length pre)) as [Hk|Hk].
    { rewrite firstn_app. replace (k - List.length pre)%nat with O by lia. cbn [firstn]. rewrite app_nil_r. apply Q, D. }
    assert (LP : (List.length post <= 1)%nat).
    { subst post. destruct (g_pixels (c_gp c)) as [px|]; [|cbn; lia]. destruct (np_ptp px); [|cbn; lia]. destruct (c_atlas c); cbn; lia. }
    rewrite firstn_all2 by (rewrite app_length; lia). rewrite fold_left_app.
    set (d := fold_left (fun c f => f c) pre c) in *.
    assert (PD : P1 d) by (subst d; rewrite <- (firstn_all pre); apply D).
    assert (QD := Q d PD). destruct PD as (ED & _). clear Q D.
    assert (HD : fold_left (fun c f => f c) post d = fst (set_hough_properties hull d a)).
    { rewrite QD, <- HA, fold_left_app. reflexivity. }
    rewrite <- QD. match goal with |- set_hough_properties hull (fold_left _ _ ?x) a = _ => change x with d end.
    clear QD HA. clearbody d. subst post.
    destruct (g_pixels (c_gp c)) as [px|] eqn:EP; [|reflexivity].
    destruct (np_ptp px) as [ptp|e] eqn:ET; [|reflexivity].
    destruct (c_atlas c) as [at_|] eqn:EA; [|reflexivity].
    cbn [fold_left] in *. unfold pairs_step in *.
    destruct (generate_frame hull d) as (G1 & G2 & G3).
    assert (AD : c_atlas d = Some at_) by (rewrite ED; exact EA).
    assert (PD : g_pixels (c_gp d) = Some px) by (rewrite ED; exact EP).
    assert (ND : exists ns', match ha_num_slopes a with Some v => bind (int_of v) (fun z => Ok (Some z)) | None => Ok (keep None (h_num_slopes (c_hp d)) 2000%Z) end = Ok ns').
    { destruct (ha_num_slopes a) as [v|]; [eexists; exact EN|eexists; reflexivity]. }
    destruct ND as (ns' & ND).
    assert (AD' : c_atlas (fst (generate_pairs hull d)) = Some at_) by congruence.
    destruct (hough_form hull d (fst (generate_pairs hull d)) a ns' px ptp at_ G1 G2 AD AD' ND PD ET) as (h & F1 & F2).
    rewrite F2, F1. rewrite F1 in HD.
    destruct (generate_frame hull (set_c_hp h d)) as (K1 & _). rewrite <- HD in K1. cbn [set_c_hp c_hp] in K1. rewrite G1 in K1.
    assert (S1 : forall x : calib A, c_hp x = h -> set_c_hp h x = x) by (intros x <-; destruct x; reflexivity).
    rewrite (S1 d K1). rewrite S1 by congruence. apply generate_again.
  Qed.

  Lemma ransac_again (c : calib A) a k :
    let d := fold_left (fun c f => f c) (firstn k (ransac_steps c a)) c in
    set_ransac_properties d a = set_ransac_properties c a.
  Proof.
    cbv zeta. unfold ransac_steps. cbv zeta.
    set (ok1 := match ra_matches a with Some v => nZ 0 <' v | None => true end).
    set (ok2 := match ra_util a with Some v => (nZ 0 <=' v) && (v <=' nZ 1) | None => true end).
    set (ok3 := match ra_fit_error a with Some v => nZ 0 <=' v | None => true end).
    set (P1 := fun d : calib A => d = set_c_rp (c_rp d) c /\
       (r_sample (c_rp d) = r_sample (c_rp c) \/ r_sample (c_rp d) = keep (ra_sample a) (r_sample (c_rp c)) 5%nat) /\
       (r_top (c_rp d) = r_top (c_rp c) \/ r_top (c_rp d) = keep (ra_top a) (r_top (c_rp c)) 5%nat) /\
       (r_linear (c_rp d) = r_linear (c_rp c) \/ r_linear (c_rp d) = keep (ra_linear a) (r_linear (c_rp c)) true) /\
       (r_close (c_rp d) = r_close (c_rp c) \/ r_close (c_rp d) = keep (ra_close a) (r_close (c_rp c)) false) /\
       (r_tol (c_rp d) = r_tol (c_rp c) \/ r_tol (c_rp d) = keep (ra_tol a) (r_tol (c_rp c)) (nZ 5)) /\
       (r_weighted (c_rp d) = r_weighted (c_rp c) \/ r_weighted (c_rp d) = keep (ra_weighted a) (r_weighted (c_rp c)) true) /\
       (r_hweight (c_rp d) = r_hweight (c_rp c) \/ r_hweight (c_rp d) = keep (ra_hweight a) (r_hweight (c_rp c)) (nZ 1)) /\
       (r_matches (c_rp d) = r_matches (c_rp c) \/ ok1 = true /\ r_matches (c_rp d) = keep (ra_matches a) (r_matches (c_rp c)) (nZ 0)) /\
       (r_util (c_rp d) = r_util (c_rp c) \/ ok1 && ok2 = true /\ r_util (c_rp d) = keep (ra_util a) (r_util (c_rp c)) (nZ 0)) /\
       (r_fit_error (c_rp d) = r_fit_error (c_rp c) \/ ok1 && ok2 && ok3 = true /\ r_fit_error (c_rp d) = keep (ra_fit_error a) (r_fit_error (c_rp c)) (nlit 1 (-4)))).
    set (d := fold_left _ _ c).
    assert (D : P1 d).
    { apply fold_inv; [|unfold P1; repeat split; auto; destruct c; reflexivity].
      assert (G : forall f : rprops A -> rprops A, (forall r : rprops A,
         (r_sample (f r) = r_sample r \/ r_sample (f r) = keep (ra_sample a) (r_sample (c_rp c)) 5%nat) /\
         (r_top (f r) = r_top r \/ r_top (f r) = keep (ra_top a) (r_top (c_rp c)) 5%nat) /\
         (r_linear (f r) = r_linear r \/ r_linear (f r) = keep (ra_linear a) (r_linear (c_rp c)) true) /\
         (r_close (f r) = r_close r \/ r_close (f r) = keep (ra_close a) (r_close (c_rp c)) false) /\
         (r_tol (f r) = r_tol r \/ r_tol (f r) = keep (ra_tol a) (r_tol (c_rp c)) (nZ 5)) /\
         (r_weighted (f r) = r_weighted r \/ r_weighted (f r) = keep (ra_weighted a) (r_weighted (c_rp c)) true) /\
         (r_hweight (f r) = r_hweight r \/ r_hweight (f r) = keep (ra_hweight a) (r_hweight (c_rp c)) (nZ 1)) /\
         (r_matches (f r) = r_matches r \/ ok1 = true /\ r_matches (f r) = keep (ra_matches a) (r_matches (c_rp c)) (nZ 0)) /\
         (r_util (f r) = r_util r \/ ok1 && ok2 = true /\ r_util (f r) = keep (ra_util a) (r_util (c_rp c)) (nZ 0)) /\
         (r_fit_error (f r) = r_fit_error r \/ ok1 && ok2 && ok3 = true /\ r_fit_error (f r) = keep (ra_fit_error a) (r_fit_error (c_rp c)) (nlit 1 (-4)))) ->
         forall d, P1 d -> P1 (on_r f d)).
      { intros f Hf d0 (I1 & I2 & I3 & I4 & I5 & I6 & I7 & I8 & I9 & I10 & I11). unfold P1, on_r. cbn [c_rp set_c_rp].
        destruct (Hf (c_rp d0)) as (F2 & F3 & F4 & F5 & F6 & F7 & F8 & F9 & F10 & F11).
        split; [rewrite I1; reflexivity|]. split; [destruct F2 as [F2|F2]; rewrite F2; auto|].
        split; [destruct F3 as [F3|F3]; rewrite F3; auto|]. split; [destruct F4 as [F4|F4]; rewrite F4; auto|].
        split; [destruct F5 as [F5|F5]; rewrite F5; auto|]. split; [destruct F6 as [F6|F6]; rewrite F6; auto|].
        split; [destruct F7 as [F7|F7]; rewrite F7; auto|]. split; [destruct F8 as [F8|F8]; rewrite F8; auto|].
        split; [destruct F9 as [F9|[F9 F9']]; [rewrite F9|rewrite F9']; auto|].
        split; [destruct F10 as [F10|[F10 F10']]; [rewrite F10|rewrite F10']; auto|].
        destruct F11 as [F11|[F11 F11']]; [rewrite F11|rewrite F11']; auto. }
      cbn [app]. do 7 (apply Forall_cons; [apply G; intros r; cbn; repeat split; auto|]).
      destruct ok1 eqn:E1; cbn [negb]; [|apply Forall_nil]. apply Forall_cons; [apply G; intros r; cbn; repeat split; auto|].
      destruct ok2 eqn:E2; cbn [negb]; [|apply Forall_nil]. apply Forall_cons; [apply G; intros r; cbn; repeat split; auto|].
      destruct ok3 eqn:E3; cbn [negb]; [|apply Forall_nil]. apply Forall_cons; [apply G; intros r; cbn; repeat split; auto|]. apply Forall_nil. }
    clearbody d. destruct D as (ED & D1 & D2 & D3 & D4 & D5 & D6 & D7 & D8 & D9 & D10). clear P1. rewrite ED.
    set (r := c_rp d) in *. clearbody r. clear ED d.
    unfold set_ransac_properties. cbv zeta. cbn [c_rp set_c_rp]. fold ok1 ok2 ok3.
    assert (K : forall T (g x y : option T) z, (x = y \/ x = keep g y z) -> keep g x z = keep g y z).
    { intros T g x y z [-> | ->]; [reflexivity|apply keep_keep]. }
    rewrite (K _ _ _ _ _ D1), (K _ _ _ _ _ D2), (K _ _ _ _ _ D3), (K _ _ _ _ _ D4), (K _ _ _ _ _ D5), (K _ _ _ _ _ D6), (K _ _ _ _ _ D7).
    assert (D8' : r_matches r = r_matches (c_rp c) \/ r_matches r = keep (ra_matches a) (r_matches (c_rp c)) (nZ 0)) by tauto.
    assert (D9' : r_util r = r_util (c_rp c) \/ r_util r = keep (ra_util a) (r_util (c_rp c)) (nZ 0)) by tauto.
    assert (D10' : r_fit_error r = r_fit_error (c_rp c) \/ r_fit_error r = keep (ra_fit_error a) (r_fit_error (c_rp c)) (nlit 1 (-4))) by tauto.
    rewrite (K _ _ _ _ _ D8'), (K _ _ _ _ _ D9'), (K _ _ _ _ _ D10').
    destruct ok1; cbn [negb andb] in *.
    2: { destruct D8 as [->|[? _]]; [|discriminate]. destruct D9 as [->|[? _]]; [|discriminate]. destruct D10 as [->|[? _]]; [|discriminate]. reflexivity. }
    destruct ok2; cbn [negb andb] in *.
    2: { destruct D9 as [->|[? _]]; [|discriminate]. destruct D10 as [->|[? _]]; [|discriminate]. reflexivity. }
    destruct ok3; cbn [negb andb] in *; [reflexivity|]. destruct D10 as [->|[? _]]; [|discriminate]. reflexivity.
  Qed.

  Lemma set_atlas_again hull (c : calib A) at_ ct con k :
    set_atlas hull (fold_left (fun c f => f c) (firstn k (set_atlas_steps hull at_ ct con)) c) at_ ct con = set_atlas hull c at_ ct con.
  Proof.
    unfold set_atlas, set_atlas_steps. destruct k as [|[|[|[|k]]]]; try reflexivity.
    rewrite firstn_all2 by (cbn; lia). cbn [fold_left]. unfold pairs_step.
    set (c1 := set_c_constrain con (set_c_cand_tol (Some ct) (set_c_atlas (Some at_) c))).
    assert (E : set_c_constrain con (set_c_cand_tol (Some ct) (set_c_atlas (Some at_) (fst (generate_pairs hull c1)))) = fst (generate_pairs hull c1)).
    { rewrite generate_eq. reflexivity. }
    rewrite E. apply generate_again.
  Qed.

  Lemma known_again (c : calib A) p w k :
    set_known_pairs (fold_left (fun c f => f c) (firstn k (known_steps c p w)) c) p w = set_known_pairs c p w.
  Proof.
    unfold known_steps, set_known_pairs. destruct p as [p|]; [|rewrite firstn_nil; reflexivity]. destruct w as [w|]; [|rewrite firstn_nil; reflexivity].
    destruct (negb _); [rewrite firstn_nil; reflexivity|]. destruct (existsb _ p); [rewrite firstn_nil; reflexivity|].
    destruct (existsb _ w); [rewrite firstn_nil; reflexivity|].
    cbn [c_known set_c_known]. destruct (c_known c) as [[p0 w0]|]; destruct k as [|[|[|k]]]; reflexivity.
  Qed.
End Facts.

(** The assignments of each configuring call, carried out one after the other, leave the
    calibrator as the call does. *)
Lemma setting_steps_are_the_calls_main :
  forall (A : Type) (N : Num A) (hull : hull_test A) (c : calib A) (k : setting A),
    halted hull c k 0 = c /\
    halted hull c k (List.length (setting_steps hull c k)) = fst (setting_call hull c k).
Proof.
  intros A N hull c k. unfold halted. rewrite firstn_all. split; [reflexivity|].
  destruct k; cbn [setting_steps].
  - apply calibrator_all.
  - apply hough_all.
  - apply ransac_all.
  - reflexivity.
  - apply known_all.
Qed.

(** Wherever a configuring call is interrupted, making the same call again leaves the
    calibrator exactly as if it had not been interrupted, with the same answer or exception. *)
Lemma interrupted_setting_retry_main :
  forall (A : Type) (N : Num A) (hull : hull_test A) (c : calib A) (k : setting A) (n : nat),
    setting_call hull (halted hull c k n) k = setting_call hull c k.
Proof.
  intros A N hull c k n. unfold halted. destruct k; cbn [setting_steps setting_call].
  - apply calibrator_again.
  - apply hough_again.
  - apply ransac_again.
  - apply set_atlas_again.
  - apply known_again.
Qed.

(** Until then the calibrator is in a state that no call leaves behind when it is not
    interrupted.  set_hough_properties with a new min_wavelength, interrupted after it is
    stored: the limits of the search are still those of the earlier one.  set_atlas after its
    first assignment: the new atlas with the pairs and the tolerance of the earlier one.
    set_known_pairs between its two: the new pixels with the earlier wavelengths.
    set_calibrator_properties changing the plotting library: both libraries are in use. *)
Lemma interrupted_setting_refuted_main :
  forall (A : Type) (N : Num A) (hull : hull_test A) (c : calib A),
    (forall v, let d := halted hull c (THough (mkHA None None None (Some v) None None None)) 4 in
       h_minw (c_hp d) = Some v /\ h_rt (c_hp d) = h_rt (c_hp c) /\
       h_min_intercept (c_hp d) = h_min_intercept (c_hp c) /\ h_max_intercept (c_hp d) = h_max_intercept (c_hp c) /\
       h_min_slope (c_hp d) = h_min_slope (c_hp c) /\ h_max_slope (c_hp d) = h_max_slope (c_hp c) /\ c_pairs d = c_pairs c) /\
    (forall at_ ct con, let d := halted hull c (TAtlas at_ ct con) 1 in
       c_atlas d = Some at_ /\ c_pairs d = c_pairs c /\ c_cand_tol d = c_cand_tol c) /\
    (forall p0 w0 p w, c_known c = Some (p0, w0) -> snd (set_known_pairs c (KList p) (KList w)) = Ok tt ->
       c_known (halted hull c (TKnown (KList p) (KList w)) 1) = Some (p, w0)) /\
    (forall v, g_num_pix (c_gp c) = Some v -> g_mpl (c_gp c) = true ->
       let d := halted hull c (TCalibrator None None (Some "plotly"%string)) 4 in
       g_library (c_gp d) = Some "plotly"%string /\ g_plotly (c_gp d) = true /\ which_plotting_library d = Some "matplotlib"%string).
Proof.
  intros A N hull c. split; [|split; [|split]].
  - intros v d. subst d. unfold halted. cbn [setting_steps]. unfold hough_steps. cbn [ha_num_slopes ha_minw ha_xbins ha_ybins]. repeat split.
  - intros at_ ct con d. subst d. repeat split.
  - intros p0 w0 p w E H. unfold halted. cbn [setting_steps]. unfold known_steps.
    destruct (set_known_pairs c (KList p) (KList w)) as [c' [u|e]] eqn:EK; [|discriminate].
    assert (EC : c_known c' = Some (p, w)).
    { unfold set_known_pairs in EK. destruct (negb _); [discriminate|]. destruct (existsb _ p); [discriminate|]. destruct (existsb _ w); [discriminate|].
      match type of EK with (?z, _) = _ => assert (Ez : c' = z) by congruence end. rewrite Ez. reflexivity. }
    rewrite EC, E. reflexivity.
  - intros v E1 E2 d. subst d. unfold halted. cbn [setting_steps]. unfold calibrator_steps. rewrite E1. cbn [keep].
    cbn. unfold which_plotting_library. cbn. rewrite E2. repeat split.
Qed.

(** Lines are appended to an atlas one by one.  When Atlas.add or add_user_atlas is
    interrupted after k lines and made again, these k lines are in the atlas twice. *)
Lemma interrupted_atlas_add_refuted_main :
  forall (A : Type) (N : Num A) (argsort : list A -> list nat) (cat : catalogue A) (s : atlas A),
    (forall a s', atlas_add argsort cat s a = (s', Ok tt) ->
       exists new, at_lines s' = (at_lines s ++ new)%list /\
       forall k, (k <= List.length new)%nat ->
         at_lines (atlas_growing s s' k) = (at_lines s ++ firstn k new)%list /\
         (exists s'', atlas_add argsort cat (atlas_growing s s' k) a = (s'', Ok tt) /\
                      at_lines s'' = (at_lines s ++ firstn k new ++ new)%list)) /\
    (forall u s', add_user_atlas s u = (s', Ok tt) ->
       exists new, at_lines s' = (at_lines s ++ new)%list /\
       forall k, (k <= List.length new)%nat ->
         at_lines (atlas_growing s s' k) = (at_lines s ++ firstn k new)%list /\
         (exists s'', add_user_atlas (atlas_growing s s' k) u = (s'', Ok tt) /\
                      at_lines s'' = (at_lines s ++ firstn k new ++ new)%list)).
Proof.
  intros A N argsort cat s.
  assert (F : forall (new : list (atlas_line A)) l k, firstn (List.length l + k) (l ++ new) = (l ++ firstn k new)%list).
  { intros new l k. rewrite firstn_app, firstn_all2 by lia. f_equal. f_equal. lia. }
  assert (LP : forall a lo hi els l l', add_loop argsort cat a lo hi els l = (l', Ok tt) ->
     exists new, l' = (l ++ new)%list /\ forall m, add_loop argsort cat a lo hi els m = ((m ++ new)%list, Ok tt)).
  { intros a lo hi. induction els as [|e els IH]; intros l l' H; cbn [add_loop] in *.
    - exists []. assert (l' = l) by congruence. subst. split; [symmetry; apply app_nil_r|intros m; rewrite app_nil_r; reflexivity].
    - destruct (load_calibration_lines _ _ _) as [rows|ex]; [|discriminate].
      destruct (IH _ _ H) as (new & -> & HN). exists (nist_lines rows ++ new)%list. rewrite app_assoc. split; [reflexivity|].
      intros m. rewrite HN, app_assoc. reflexivity. }
  split.
  - intros a s' H. unfold atlas_add in *. cbv zeta in *.
    destruct (negb (nisfinite (match aa_min a with Some v => v | None => _ end))) eqn:E1; [discriminate|].
    destruct (negb (nisfinite (match aa_max a with Some v => v | None => _ end))) eqn:E2; [discriminate|].
    destruct (add_loop _ _ _ _ _ _ _) as [l r] eqn:EL. assert (ES : s' = at_set_lines s l) by congruence. assert (r = Ok tt) by congruence. subst r.
    destruct (LP _ _ _ _ _ _ EL) as (new & -> & HN). exists new. subst s'. split; [reflexivity|]. intros k Hk.
    unfold atlas_growing, at_set_lines. cbn [at_lines at_min at_max at_range_tol]. rewrite F. split; [reflexivity|].
    rewrite E1, E2, HN. eexists. split; [reflexivity|]. cbn [at_lines]. rewrite app_assoc. reflexivity.
  - intros u s' H. unfold add_user_atlas in *.
    destruct (user_elements_list (ua_elements u)) as [els|]; [|discriminate]. destruct (seq_list (ua_wavelengths u)) as [wls|]; [|discriminate].
    destruct (match ua_intensities u with None => _ | Some a => _ end) as [ints|]; [|discriminate].
    destruct (negb _); [discriminate|]. destruct (negb _); [discriminate|]. cbv zeta in *.
    destruct (py_min _) as [mn|]; [|discriminate]. destruct (py_max _) as [mx|]; [|discriminate].
    match type of H with (?z, _) = _ => assert (ES : s' = z) by congruence end. subst s'. eexists. split; [reflexivity|]. intros k Hk.
    unfold atlas_growing, at_set_lines. cbn [at_lines at_min at_max at_range_tol]. rewrite F. split; [reflexivity|].
    eexists. split; [reflexivity|]. cbn [at_lines]. rewrite app_assoc. reflexivity.
Qed.

(** In binary64: a new calibrator with known pairs uses matplotlib; its setters take 11, 10 and
    5 assignments, and an atlas with two lines of Xe can be interrupted after the first. *)
Example interrupted_setting_example_main :
  match calib_init (fun _ l => Ok (map (fun _ => true) l)) [fz 100; fz 250; fz 400] None with
  | Ok c0 =>
      let c := fst (set_known_pairs c0 (KList [fz 10]) (KList [fz 3100])) in
      c_known c = Some ([fz 10], [fz 3100]) /\ snd (set_known_pairs c (KList [fz 20]) (KList [fz 3200])) = Ok tt /\
      g_mpl (c_gp c) = true /\ g_num_pix (c_gp c) <> None /\
      List.length (setting_steps (fun _ l => Ok (map (fun _ => true) l)) c (THough no_hough_args)) = 11%nat /\
      List.length (setting_steps (fun _ l => Ok (map (fun _ => true) l)) c (TRansac no_ransac_args)) = 10%nat /\
      List.length (setting_steps (fun _ l => Ok (map (fun _ => true) l)) c (TCalibrator None None (Some "plotly"%string))) = 5%nat
  | Raise _ => False
  end /\
  let s := mkAtlas [mkAL (fz 5) "He" (fz 1) None] (fz 3000) (fz 5000) (fz 500) in
  let s' := fst (atlas_add argsort_stable tol_cat s (tol_add (ElStr "Xe") (fz 0))) in
  snd (atlas_add argsort_stable tol_cat s (tol_add (ElStr "Xe") (fz 0))) = Ok tt /\
  get_lines (atlas_growing s s' 1) = [fz 5; fz 2800] /\
  get_lines (fst (atlas_add argsort_stable tol_cat (atlas_growing s s' 1) (tol_add (ElStr "Xe") (fz 0)))) = [fz 5; fz 2800; fz 2800; fz 4000].
Proof. vm_compute. repeat split; discriminate. Qed.

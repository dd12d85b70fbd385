(** * Main_Chart: the properties of plot_search_space and plot_calibration_lines, with
    their proofs.  The statements are repeated, without proofs, in Props_Chart.v. *)

From Coq Require Import ZArith Bool List String Ascii Lia Reals Lra Sorted Permutation.
From Verif Require Import LoadFacts UtilFacts RefineFacts EdlenFacts RecoverFacts Num F64 XReal Py Np NpFacts ArgsortFacts Util SpecUtil Main_Util Models Atlas Hough HoughFacts PolyEval Calib SpecCalib CalibFacts Main_Calib Cand SpecCand CandFacts Main_Cand Ransac RansacFacts SampleFacts Main_Ransac Fit Main_Fit MatchPeaks SpecMatch MatchFacts Main_Match Main_Refine Main_Edit Plot SpecPlot Main_Plot Chart SpecChart.
Import ListNotations.
Local Open Scope num_scope.

(* ------------------------------------------------------------------ *)
(** ** plot_search_space *)

Lemma space_inv {A} {N : Num A} argsort (c : calib A) cands coeff top weighted a sp ou :
  plot_search_space argsort c cands coeff top weighted a = Ok (Some (sp, ou)) ->
  exists cs lib px minw maxw rt pmax pairs sol,
    cands = Some cs /\ selected c lib /\ g_pixels (c_gp c) = Some px /\
    h_minw (c_hp c) = Some minw /\ h_maxw (c_hp c) = Some maxw /\ h_rt (c_hp c) = Some rt /\
    np_amax px = Ok pmax /\ c_pairs c = PArr pairs /\ merge_candidates cs <> [] /\
    (match coeff with
     | None => Ok None
     | Some co => bind (polyvals_of (c_kind c) (c_peaks c) co) (fun vs => Ok (Some (combine (c_peaks c) vs)))
     end) = Ok sol /\
    let best := most_common_candidates argsort cs top weighted in
    sp = mkSpace pairs (first_two (merge_candidates cs)) (combine (fst best) (snd best)) sol
           (map (fun x => (x, region_line minw maxw pmax x)) px)
           (map (fun x => (x, region_upper minw maxw rt pmax x)) px)
           (map (fun x => (x, region_lower minw maxw rt pmax x)) px) /\
    ou = finish lib "rascal_hough_search_space" a (combine (fst best) (snd best)) None.
Proof.
  unfold plot_search_space. intros H. destruct cands as [cs|]; [|discriminate].
  destruct (most_common_candidates argsort cs top weighted) as [bp ba] eqn:Eb.
  destruct (g_pixels (c_gp c)) as [px|] eqn:E1; [|discriminate].
  destruct (h_minw (c_hp c)) as [minw|] eqn:E2; [|discriminate].
  destruct (h_maxw (c_hp c)) as [maxw|] eqn:E3; [|discriminate].
  destruct (h_rt (c_hp c)) as [rt|] eqn:E4; [|discriminate].
  apply bind_Ok in H. destruct H as (pmax & E5 & H).
  match type of H with match ?s with _ => _ end = _ => destruct s as [lib|] eqn:El; [|discriminate] end.
  apply bind_Ok in H. destruct H as (pairs & E6 & H).
  apply bind_Ok in H. destruct H as (cd & E7 & H).
  apply bind_Ok in H. destruct H as (sol & E8 & H).
  exists cs, lib, px, minw, maxw, rt, pmax, pairs, sol. rewrite Eb. cbn [fst snd]. cbv zeta.
  assert (Hc : merge_candidates cs <> [] /\ cd = first_two (merge_candidates cs)).
  { destruct (merge_candidates cs) eqn:Em; [discriminate|]. split; [discriminate|]. congruence. }
  destruct Hc as (Hm & Hcd).
  repeat (apply conj; [first [reflexivity | assumption | idtac]|]); try assumption.
  - destruct (g_mpl (c_gp c)) eqn:E; [assert (lib = Matplotlib) by congruence; subst; exact E|].
    destruct (g_plotly (c_gp c)) eqn:E'; [assert (lib = Plotly) by congruence; subst; split; auto|discriminate].
  - destruct (c_pairs c); [discriminate|discriminate|congruence].
  - rewrite <- Hcd. congruence.
  - congruence.
Qed.

Lemma first_two_length {A} {N : Num A} (cs : list (cand A)) :
  List.length (first_two (merge_candidates cs)) = List.length (List.concat cs).
Proof.
  unfold merge_candidates. induction (List.concat cs) as [|r l IH]; auto. cbn [map first_two flat_map].
  pose proof (sort_by_length (fun x : A => x) [row_x r; row_y r; row_w r]) as L.
  change (sort_by (fun x : A => x) [row_x r; row_y r; row_w r]) with (np_sort [row_x r; row_y r; row_w r]) in L.
  destruct (np_sort [row_x r; row_y r; row_w r]) as [|x [|y m]]; try discriminate. cbn. f_equal. exact IH.
Qed.

(** C99 fails: what is drawn as "Candidate Pairs" are weights and peaks, not peaks and
    wavelengths, for all candidates whose weight is below their peak and whose peak is
    below their wavelength (weights are at most 1 for the usual candidates). *)
Lemma search_space_candidates_refuted_main :
  forall (A : Type) (N : Num A) (O : NumOrder A) argsort (c : calib A) cs coeff top weighted a sp ou,
    plot_search_space argsort c (Some cs) coeff top weighted a = Ok (Some (sp, ou)) ->
    (forall x y w, In (x, y, w) (List.concat cs) -> w <' x = true /\ x <' y = true) ->
    sp_cand sp = map (fun r : A * A * A => let '(x, y, w) := r in (w, x)) (List.concat cs) /\
    sp_cand sp <> [].
Proof.
  intros A N O argsort c cs coeff top weighted a sp ou H Hr.
  destruct (space_inv _ _ _ _ _ _ _ _ _ H) as (cs' & lib & px & minw & maxw & rt & pmax & pairs & sol & Hc & _ & _ & _ & _ & _ & _ & _ & Hm & _ & -> & _).
  injection Hc as <-. cbn [sp_cand]. split.
  - clear H Hm. unfold merge_candidates. induction (List.concat cs) as [|[[x y] w] l IH]; auto.
    cbn [map first_two flat_map]. destruct (Hr x y w (or_introl eq_refl)) as (H1 & H2).
    assert (E : np_sort [row_x (x, y, w); row_y (x, y, w); row_w (x, y, w)] = [w; x; y]).
    { change (row_x (x, y, w)) with x. change (row_y (x, y, w)) with y. change (row_w (x, y, w)) with w.
      assert (K : forall u v : A, u <' v = true -> np_lt u v = true /\ np_lt v u = false).
      { intros u v L. destruct (ltb_nan _ _ L) as (Nu & Nv). rewrite !np_lt_ltb by auto. split; auto.
        destruct (v <' u) eqn:E; auto. pose proof (ltb_trans _ _ _ L E) as F. rewrite ltb_irrefl in F. discriminate. }
      destruct (K _ _ H1) as (K1 & K2). destruct (K _ _ H2) as (K3 & K4). destruct (K _ _ (ltb_trans _ _ _ H1 H2)) as (K5 & K6).
      unfold np_sort. cbn [sort_by fold_right ins_by]. rewrite ?K1, ?K2, ?K3, ?K4, ?K5, ?K6; cbn [ins_by]; rewrite ?K1, ?K2, ?K3, ?K4, ?K5, ?K6; cbn [ins_by]; rewrite ?K1, ?K2, ?K3, ?K4, ?K5, ?K6; reflexivity. }
    rewrite E. cbn. f_equal. apply IH. intros; apply Hr; right; auto.
  - intros E. apply (f_equal (@List.length _)) in E. cbn [sp_cand] in E. rewrite first_two_length in E.
    apply Hm. unfold merge_candidates. destruct (List.concat cs); [reflexivity|discriminate].
Qed.

(** C99, the part that holds: all pairs are drawn as they are, the best candidates are
    genuine candidates of the fit, as many candidates are drawn as there are, the
    solution is the polynomial at the peaks, and before the first fit nothing can be
    drawn. *)
Lemma search_space_partial_main :
  forall (A : Type) (N : Num A) (O : NumOrder A) argsort (c : calib A) cands coeff top weighted a,
    (forall l, is_argsort l (argsort l)) ->
    (cands = None -> plot_search_space argsort c cands coeff top weighted a = Raise AttributeError) /\
    (forall cs sp ou, cands = Some cs ->
       (forall x y w, In (x, y, w) (List.concat cs) -> nisnan x = false /\ nisnan y = false) ->
       plot_search_space argsort c cands coeff top weighted a = Ok (Some (sp, ou)) ->
       c_pairs c = PArr (sp_pairs sp) /\
       List.length (sp_cand sp) = List.length (List.concat cs) /\
       (forall p y, In (p, y) (sp_best sp) -> exists x w, In (x, y, w) (List.concat cs) /\ x ==' p = true) /\
       (sp_solution sp = None <-> coeff = None) /\
       (forall co k pts, coeff = Some co -> c_kind c = Some k -> sp_solution sp = Some pts ->
          pts = map (fun p => (p, eval_kind k p co)) (c_peaks c)) /\
       exists px, g_pixels (c_gp c) = Some px /\ map fst (sp_line sp) = px /\
         map fst (sp_upper sp) = px /\ map fst (sp_lower sp) = px).
Proof.
  intros A N O argsort c cands coeff top weighted a Ha. split; [intros ->; reflexivity|].
  intros cs sp ou -> Hn H.
  destruct (space_inv _ _ _ _ _ _ _ _ _ H) as (cs' & lib & px & minw & maxw & rt & pmax & pairs & sol & Hc & _ & Hpx & _ & _ & _ & _ & Hp & Hm & Hs & -> & _).
  injection Hc as <-. cbn [sp_pairs sp_cand sp_best sp_solution sp_line sp_upper sp_lower].
  split; [exact Hp|]. split; [apply first_two_length|]. split.
  { intros p y Hin.
    destruct (common_candidates_main A N O argsort cs top weighted Ha Hn) as (ps & blocks & _ & F & E1 & E2).
    rewrite E1, E2 in Hin. clear E1 E2 H. induction F as [|q b ps blocks (us & _ & _ & Hb) F IH]; [contradiction|].
    cbn [combine map List.concat fst snd] in Hin.
    assert (K : forall (l1 m1 l2 m2 : list A), List.length l1 = List.length l2 ->
       combine (l1 ++ m1)%list (l2 ++ m2)%list = (combine l1 l2 ++ combine m1 m2)%list).
    { intros l1 m1. induction l1 as [|u l1 I1]; intros [|v l2] m2 E; try discriminate; auto. cbn. f_equal. apply I1. cbn in E. lia. }
    rewrite K in Hin by apply repeat_length. apply in_app_or in Hin. destruct Hin as [Hin|Hin]; [|apply IH; exact Hin].
    pose proof (in_combine_l _ _ _ _ Hin) as L. apply repeat_spec in L. subst p.
    apply in_combine_r in Hin. destruct (Hb y Hin) as (x & w & H1 & H2). eauto. }
  split.
  { destruct coeff as [co|].
    - apply bind_Ok in Hs. destruct Hs as (vs & _ & Hs). split; [|discriminate]. intros ->. discriminate.
    - assert (sol = None) by congruence. subst. split; auto. }
  split.
  { intros co k pts -> Hk ->. apply bind_Ok in Hs. destruct Hs as (vs & Ev & Hs). destruct (polyvals_Ok _ _ _ _ Ev) as (k' & Hk' & Hv).
    assert (k' = k) by congruence. subst k'. assert (Ep : pts = combine (c_peaks c) vs) by congruence. rewrite Ep, Hv.
    clear. induction (c_peaks c) as [|p r IH]; auto. cbn. f_equal. exact IH. }
  exists px. split; [exact Hpx|]. repeat split; rewrite map_map; cbn [fst]; apply map_id.
Qed.

(** The candidates of the fitted calibrator of the examples. *)
Definition space_cands : list (cand f64) := Eval vm_compute in
  match candidates_linear (c_plot true) (fz 10) with Ok cs => cs | Raise _ => [] end.

(** Non-vacuity of C99. *)
Example search_space_example_main :
  candidates_linear (c_plot true) (fz 10) = Ok space_cands /\
  match plot_search_space argsort_stable (c_plot true) (Some space_cands) (Some [fz 100; fz 2]) 1 true
          (mkShow true "png" None false false) return Prop with
  | Ok (Some (sp, ou)) =>
      firstn 2 (List.concat space_cands) = [(fz 190, fz 4897, fz 1); (fz 310, fz 6101, fz 1)] /\
      firstn 2 (sp_cand sp) = [(fz 1, fz 190); (fz 1, fz 310)] /\
      sp_best sp = combine ex_peaks ex_waves /\
      ou_files ou = [("rascal_hough_search_space.png", "png")]%string
  | _ => False
  end.
Proof. vm_compute. auto. Qed.

(* ------------------------------------------------------------------ *)
(** ** The simulated arc spectrum *)

Section Spectrum.
  Context {A : Type} {N : Num A} {O : NumOrder A}.
  Notation lt := (fun a b : A => a <' b = true).

  Definition mask_of (grid ws : list A) : list bool := map (fun g => existsb (fun w => g ==' w) ws) grid.
  (** What the entry at grid point g becomes. *)
  Definition bump (prs : list (A * A)) (g x : A) : A :=
    fold_left nadd (map snd (filter (fun q => g ==' fst q) prs)) x.

  Lemma lt_asym (x y : A) : x <' y = true -> y <' x = false.
  Proof. intros H. destruct (y <' x) eqn:E; auto. pose proof (ltb_trans _ _ _ H E) as F. rewrite ltb_irrefl in F. discriminate. Qed.
  Lemma eq_lt (x y z : A) : x ==' y = true -> y <' z = true -> x <' z = true.
  Proof. intros H. apply leb_ltb_trans. apply eqb_leb in H. tauto. Qed.
  Lemma lt_eq (x y z : A) : x <' y = true -> y ==' z = true -> x <' z = true.
  Proof. intros H E. eapply ltb_leb_trans; eauto. apply eqb_leb in E. tauto. Qed.

  Lemma none_above g (prs : list (A * A)) : Forall (fun q => g <' fst q = true) prs ->
    existsb (fun w => g ==' w) (map fst prs) = false /\ filter (fun q => g ==' fst q) prs = [].
  Proof.
    induction 1 as [|q r H F (IH1 & IH2)]; auto. cbn. rewrite (ltb_neqb _ _ H), IH1, IH2. auto.
  Qed.

  Lemma spread_spec grid : forall (prs : list (A * A)) i,
    StronglySorted lt grid -> StronglySorted lt (map fst prs) ->
    (forall q, In q prs -> exists g, In g grid /\ g ==' fst q = true) ->
    List.length i = List.length grid ->
    List.length (filter (fun b : bool => b) (mask_of grid (map fst prs))) = List.length prs /\
    spread i (mask_of grid (map fst prs)) (map snd prs) = map (fun q => bump prs (fst q) (snd q)) (combine grid i).
  Proof.
    induction grid as [|g gs IH]; intros prs i Sg Sp Hin L.
    - destruct i; [|discriminate]. destruct prs as [|q r]; [auto|].
      destruct (Hin q (or_introl eq_refl)) as (g & [] & _).
    - destruct i as [|x i]; [discriminate|]. apply StronglySorted_inv in Sg. destruct Sg as (Sg & Fg).
      rewrite Forall_forall in Fg. cbn in L.
      destruct prs as [|[w y] prs].
      + destruct (IH [] i Sg Sp (fun q H => match H with end) ltac:(lia)) as (I1 & I2).
        cbn [map mask_of existsb filter spread combine List.length fst snd bump fold_left] in *.
        split; [exact I1|]. f_equal. exact I2.
      + cbn [map fst] in Sp. apply StronglySorted_inv in Sp. destruct Sp as (Sp & Fp). rewrite Forall_forall in Fp.
        destruct (g ==' w) eqn:Egw.
        * (* the first line is here *)
          assert (Hab : Forall (fun q => g <' fst q = true) prs).
          { apply Forall_forall. intros q Hq. eapply eq_lt; eauto. apply Fp. apply in_map. exact Hq. }
          assert (Hin' : forall q, In q prs -> exists g', In g' gs /\ g' ==' fst q = true).
          { intros q Hq. destruct (Hin q (or_intror Hq)) as (g' & [<-|Hg'] & E); [|eauto].
            rewrite Forall_forall in Hab. rewrite (ltb_neqb _ _ (Hab q Hq)) in E. discriminate. }
          destruct (IH prs i Sg Sp Hin' ltac:(lia)) as (I1 & I2).
          assert (Nw : forall g', In g' gs -> g' ==' w = false).
          { intros g' Hg'. destruct (g' ==' w) eqn:E; auto. rewrite eqb_sym in E.
            pose proof (eqb_trans _ _ _ Egw E) as E'. rewrite (ltb_neqb _ _ (Fg g' Hg')) in E'. discriminate. }
          assert (Em : mask_of gs (map fst ((w, y) :: prs)) = mask_of gs (map fst prs)).
          { apply map_ext_in. intros g' Hg'. cbn. rewrite (Nw g' Hg'). reflexivity. }
          change (mask_of (g :: gs) (map fst ((w, y) :: prs))) with (((g ==' w) || existsb (fun w0 => g ==' w0) (map fst prs)) :: mask_of gs (map fst ((w, y) :: prs))).
          rewrite Egw, Em. cbn [orb filter List.length spread map snd combine fst].
          split; [f_equal; exact I1|]. f_equal.
          -- unfold bump. cbn [filter fst]. rewrite Egw. destruct (none_above _ _ Hab) as (_ & ->). reflexivity.
          -- rewrite I2. apply map_ext_in. intros [g' x'] Hq. unfold bump. cbn [fst snd filter].
             rewrite (Nw g' (in_combine_l _ _ _ _ Hq)). reflexivity.
        * assert (Hw : g <' w = true).
          { destruct (Hin (w, y) (or_introl eq_refl)) as (g' & [<-|Hg'] & E); cbn in E; [congruence|].
            exact (lt_eq _ _ _ (Fg g' Hg') E). }
          assert (Hab : Forall (fun q => g <' fst q = true) ((w, y) :: prs)).
          { constructor; [exact Hw|]. apply Forall_forall. intros q Hq. eapply ltb_trans; [exact Hw|]. apply Fp. apply in_map. exact Hq. }
          destruct (none_above _ _ Hab) as (E1 & E2).
          assert (Hin' : forall q, In q ((w, y) :: prs) -> exists g', In g' gs /\ g' ==' fst q = true).
          { intros q Hq. destruct (Hin q Hq) as (g' & [<-|Hg'] & E); [|eauto].
            rewrite Forall_forall in Hab. rewrite (ltb_neqb _ _ (Hab q Hq)) in E. discriminate. }
          assert (Sp' : StronglySorted lt (map fst ((w, y) :: prs))).
          { cbn. constructor; auto. apply Forall_forall. exact Fp. }
          destruct (IH ((w, y) :: prs) i Sg Sp' Hin' ltac:(lia)) as (I1 & I2).
          change (mask_of (g :: gs) (map fst ((w, y) :: prs))) with (existsb (fun w0 => g ==' w0) (map fst ((w, y) :: prs)) :: mask_of gs (map fst ((w, y) :: prs))).
          rewrite E1. split; [exact I1|].
          assert (Eb : bump ((w, y) :: prs) g x = x) by (unfold bump; rewrite E2; reflexivity).
          change (x :: spread i (mask_of gs (map fst ((w, y) :: prs))) (map snd ((w, y) :: prs)) =
                  bump ((w, y) :: prs) g x :: map (fun q => bump ((w, y) :: prs) (fst q) (snd q)) (combine gs i)).
          rewrite Eb, I2. reflexivity.
  Qed.
End Spectrum.

Lemma fold_filter_map {A} {N : Num A} (around : A -> A) (lines : list (line A)) e g x :
  bump (map (fun l => (around (l_wl l), l_int l)) (filter (fun l => String.eqb (l_el l) e) lines)) g x =
  fold_left nadd (map l_int (filter (fun l => String.eqb (l_el l) e && (g ==' around (l_wl l))) lines)) x.
Proof.
  unfold bump. f_equal. induction lines as [|l r IH]; auto. cbn [filter].
  destruct (String.eqb (l_el l) e); cbn [map filter fst andb]; auto.
  destruct (g ==' around (l_wl l)); cbn [map snd]; [f_equal|]; exact IH.
Qed.

Lemma line_spectrum_spec {A} {N : Num A} {O : NumOrder A} (around : A -> A) grid lines els :
  forall i,
    StronglySorted (fun a b : A => a <' b = true) grid ->
    (forall e, In e els -> StronglySorted (fun l l' => around (l_wl l) <' around (l_wl l') = true)
                              (filter (fun l => String.eqb (l_el l) e) lines)) ->
    (forall l, In l lines -> exists g, In g grid /\ g ==' around (l_wl l) = true) ->
    List.length i = List.length grid ->
    line_spectrum around grid lines els i =
      Ok (map (fun q => fold_left nadd (lines_at around lines els (fst q)) (snd q)) (combine grid i)).
Proof.
  induction els as [|e els IH]; intros i Sg Se Hin L.
  - cbn [line_spectrum lines_at flat_map fold_left]. f_equal. revert i L.
    clear. induction grid as [|g gs I]; intros [|x i] L; try discriminate; auto. cbn. f_equal. apply I. cbn in L. lia.
  - cbn [line_spectrum].
    set (sel := filter (fun l => String.eqb (l_el l) e) lines).
    set (prs := map (fun l => (around (l_wl l), l_int l)) sel).
    destruct (spread_spec grid prs i Sg) as (C & E); auto.
    { unfold prs. rewrite map_map. cbn [fst]. pose proof (Se e (or_introl eq_refl)) as S. fold sel in S.
      clear -S. induction S; cbn; constructor; auto. apply Forall_forall. intros x Hx. apply in_map_iff in Hx.
      destruct Hx as (l' & <- & Hl). rewrite Forall_forall in H. apply H; auto. }
    { intros q Hq. apply in_map_iff in Hq. destruct Hq as (l & <- & Hl). apply filter_In in Hl. cbn. apply Hin. tauto. }
    unfold prs in E. rewrite !map_map in E. cbn [fst snd] in E. unfold mask_of in E.
    unfold prs in C. rewrite map_map in C. cbn [fst] in C. unfold mask_of in C. rewrite map_length in C.
    unfold add_at. rewrite map_length, C, Nat.eqb_refl. cbn [bind].
    match goal with |- context[spread i ?m (map l_int sel)] => change (spread i m (map l_int sel)) with (spread i m (map (fun x => l_int x) sel)) end.
    rewrite E. rewrite IH; auto.
    + f_equal.
      assert (K : forall (gs xs : list A) (f : A -> A -> A) (h : A * A -> A), 
        map h (combine gs (map (fun q => f (fst q) (snd q)) (combine gs xs))) = map (fun q => h (fst q, f (fst q) (snd q))) (combine gs xs)).
      { intros gs. induction gs as [|g gs I]; intros [|x xs] f h; auto. cbn. f_equal. apply I. }
      rewrite (K grid i (bump (map (fun l => (around (l_wl l), l_int l)) sel))). apply map_ext. intros [g x]. cbn [fst snd].
      unfold sel. rewrite fold_filter_map. unfold lines_at. cbn [flat_map]. rewrite fold_left_app. reflexivity.
    + intros e' He'. apply Se. right; auto.
    + rewrite map_length, combine_length. lia.
Qed.

(** np.around(_, decimals=3) for the examples: nearest multiple of 0.001 (ties upwards). *)
Definition around3 (x : f64) : f64 :=
  match ntrunc (x *' fz 1000 +' fd 5 (-1)) with Some z => nZ z /' fz 1000 | None => x end.
Definition arc_call (n : option nat) (thr_ : f64) (dist : f64) : arc_args f64 :=
  mkArc (mkLoadArgs ["He"%string] (fz 4000) (fd 4000003 (-3)) (ThNum thr_) dist true (fz 101325) (fd 27315 (-2)) (fz 0) (LLStr "nist") n)
    (mkShow true "png+iframe" None true false).
Definition he (w : Z) (i : Z) : line f64 := mkLine "He" (fd w (-4)) (fz i).

(** C100 fails: with brightest_n_lines the intensities come in the order of brightness
    and are put at the wavelengths in increasing order, so that they are exchanged; and
    two lines of an element less than 0.001 A apart raise ValueError. *)
Lemma arc_spectrum_refuted_main :
  (let cat := mkCatalogue [he 40000010 3; he 40000020 9] (fun _ => None) in
   match plot_calibration_lines argsort_stable around3 cat (arc_call (Some 2%nat) (fz 1) (fz 0)) return Prop with
   | Ok (sp, _, _) =>
       map snd (filter (fun q => fst q ==' fd 4000001 (-3)) sp) = [fz 9] /\
       map snd (filter (fun q => fst q ==' fd 4000002 (-3)) sp) = [fz 3]
   | Raise _ => False
   end) /\
  (let cat := mkCatalogue [he 40000010 3; he 40000012 9] (fun _ => None) in
   plot_calibration_lines argsort_stable around3 cat (arc_call None (fz 1) (fz 0)) = Raise ValueError).
Proof. vm_compute. auto. Qed.

(** C100, the part that holds: if the lines of each element come in increasing order
    and stay apart when rounded, and every line falls on a point of the (increasing)
    grid, the value at each grid point is the sum of the intensities of the lines
    there. *)
Lemma arc_spectrum_partial_main :
  forall (A : Type) (N : Num A) (O : NumOrder A) argsort around (cat : catalogue A) (a : arc_args A) lines,
    load_calibration_lines argsort cat (no_limits (ac_load a)) = Ok lines ->
    let grid := wave_grid around (la_min_wl (ac_load a)) (la_max_wl (ac_load a)) in
    let els := la_elements (ac_load a) in
    StronglySorted (fun a b : A => a <' b = true) grid ->
    (forall e, In e els -> StronglySorted (fun l l' => around (l_wl l) <' around (l_wl l') = true)
                              (filter (fun l => String.eqb (l_el l) e) lines)) ->
    (forall l, In l lines -> exists g, In g grid /\ g ==' around (l_wl l) = true) ->
    (forall e, plot_calibration_lines argsort around cat a = Raise e ->
       (exists e', filter_intensity els lines (la_min_intensity (ac_load a)) = Raise e') \/
       e = IndexError \/ grid = []) /\
    forall sp lab files, plot_calibration_lines argsort around cat a = Ok (sp, lab, files) ->
      sp = map (fun g => (g, total_of (lines_at around lines els g))) grid.
Proof.
  intros A N O argsort around cat a lines Hl grid els Sg Se Hin.
  assert (E : line_spectrum around grid lines els (map (fun _ => nZ 0) grid) =
     Ok (map (fun g => total_of (lines_at around lines els g)) grid)).
  { rewrite line_spectrum_spec; auto; [|apply map_length]. f_equal. clear. unfold total_of.
    induction grid as [|g gs IH]; auto. cbn. f_equal. exact IH. }
  unfold plot_calibration_lines. change (arc_load (ac_load a)) with (no_limits (ac_load a)). rewrite Hl. cbn [bind]. fold grid. fold els. rewrite E. cbn [bind]. split.
  - intros e H. destruct (filter_intensity els lines (la_min_intensity (ac_load a))) as [m|e'] eqn:Ef; [|left; eauto].
    right. cbn [bind] in H.
    destruct (filter_separation (map l_wl (mask_select m lines)) (la_min_distance (ac_load a))) as [m'|e'] eqn:Es.
    + cbn [bind] in H. destruct grid as [|g gs] eqn:Eg; [right; reflexivity|discriminate].
    + left. cbn [bind] in H. assert (e = e') by congruence. subst e'.
      destruct (map l_wl (mask_select m lines)); cbn in Es; congruence.
  - intros sp lab files H. apply bind_Ok in H. destruct H as (m & _ & H). apply bind_Ok in H. destruct H as (m' & _ & H).
    assert (Es : sp = combine grid (map (fun g => total_of (lines_at around lines els g)) grid)) by (destruct grid; [discriminate|congruence]).
    rewrite Es. clear. induction grid as [|g gs IH]; auto. cbn. f_equal. exact IH.
Qed.

Lemma line_spectrum_error {A} {N : Num A} (around : A -> A) grid lines els i e :
  line_spectrum around grid lines els i = Raise e -> e = ValueError.
Proof.
  revert i. induction els as [|el els IH]; intros i H; [discriminate|]. cbn [line_spectrum] in H.
  match type of H with bind ?x _ = _ => destruct x as [i'|e'] eqn:E end; cbn [bind] in H; [eapply IH; exact H|].
  unfold add_at in E. destruct (Nat.eqb _ _); [discriminate|].
  match type of E with match ?v with _ => _ end = _ => destruct v as [|y0 [|z0 v0]] end; congruence.
Qed.

Lemma spread_length {A} {N : Num A} (i : list A) : forall mask v, List.length (spread i mask v) = List.length i.
Proof.
  induction i as [|x i IH]; intros [|b m] v; auto. cbn [spread]. destruct b; [destruct v|]; cbn [List.length]; rewrite IH; auto.
Qed.
Lemma line_spectrum_length {A} {N : Num A} (around : A -> A) grid lines els : forall i j,
  line_spectrum around grid lines els i = Ok j -> List.length j = List.length i.
Proof.
  induction els as [|el els IH]; intros i j H; [cbn in H; congruence|]. cbn [line_spectrum] in H.
  apply bind_Ok in H. destruct H as (i' & E & H). rewrite (IH _ _ H).
  unfold add_at in E. destruct (Nat.eqb _ _); [assert (E' := E); injection E as <-; apply spread_length|].
  match type of E with match ?v with _ => _ end = _ => destruct v as [|y0 [|z0 v0]] end; try discriminate.
  injection E as <-. apply spread_length.
Qed.

(** C100, the grid: steps of 0.001 from min_wavelength to the first point at or after
    max_wavelength, rounded. *)
Lemma arc_grid_partial_main :
  forall argsort around (cat : catalogue xr) (a : arc_args xr) lo hi sp lab files,
    la_min_wl (ac_load a) = Fin lo -> la_max_wl (ac_load a) = Fin hi ->
    plot_calibration_lines argsort around cat a = Ok (sp, lab, files) ->
    exists n, map fst sp = map (fun i => around (Fin (lo + INR i / 1000)%R)) (seq 0 (S n)) /\
      (hi <= lo + INR n / 1000 < hi + 1 / 1000)%R.
Proof.
  intros argsort around cat a lo hi sp lab files H1 H2 H. unfold plot_calibration_lines in H.
  apply bind_Ok in H. destruct H as (l & _ & H). apply bind_Ok in H. destruct H as (i & Ei & H).
  apply bind_Ok in H. destruct H as (m & _ & H). apply bind_Ok in H. destruct H as (m' & _ & H).
  apply line_spectrum_length in Ei. rewrite map_length in Ei. rewrite H1, H2 in *.
  assert (Es : map fst sp = wave_grid around (Fin lo) (Fin hi) /\ wave_grid around (Fin lo) (Fin hi) <> []).
  { destruct (wave_grid around (Fin lo) (Fin hi)) as [|g gs] eqn:Eg; [discriminate|]. split; [|discriminate].
    assert (sp = combine (g :: gs) i) as -> by congruence. clear -Ei. revert i Ei.
    generalize (g :: gs). intros l. induction l as [|x l IH]; intros [|y i] E; try discriminate; auto.
    cbn. f_equal. apply IH. cbn in E. lia. }
  destruct Es as (-> & Hne). clear -Hne. revert Hne.
  unfold wave_grid, np_arange_step. cbv zeta.
  change (@nlit xr _ 1 (-3)) with (Fin (Rlit 1 (-3))).
  replace (Rlit 1 (-3)) with (1 / 1000)%R by (rewrite Rlit_neg; cbn; lra). xop.
  rewrite xdiv_F by lra.
  destruct (nceil_Fin ((hi + 1 / 1000 - lo) / (1 / 1000))) as (z & Ez & Hz). rewrite Ez. cbv zeta.
  intros Hne. rewrite map_map in *.
  destruct (Z.to_nat z) as [|n] eqn:En; [contradiction Hne; reflexivity|]. exists n. split.
  - apply map_ext. intros k. rewrite nnat_Fin. f_equal. xop.
    f_equal. field.
  - assert (Hn : IZR z = (INR n + 1)%R).
    { rewrite <- S_INR, <- En, INR_IZR_INZ, Z2Nat.id; [reflexivity|lia]. }
    rewrite Hn in Hz. lra.
Qed.

Lemma spread_repeat {A} {N : Num A} (y : A) : forall i mask, List.length mask = List.length i ->
  spread i mask (repeat y (List.length (filter (fun b : bool => b) mask))) =
  map (fun q : A * bool => if snd q then fst q +' y else fst q) (combine i mask).
Proof.
  induction i as [|x i IH]; intros [|b m] L; try discriminate; auto. cbn [filter combine map fst snd].
  destruct b; cbn [List.length repeat spread]; rewrite IH by (cbn in L; lia); reflexivity.
Qed.

(** C100, also true: if no element has more than one line, the spectrum is right on any
    grid, even one on which rounding repeats wavelengths. *)
Lemma arc_single_lines_partial_main :
  forall (A : Type) (N : Num A) (O : NumOrder A) argsort around (cat : catalogue A) (a : arc_args A) lines sp lab files,
    load_calibration_lines argsort cat (no_limits (ac_load a)) = Ok lines ->
    (forall e, In e (la_elements (ac_load a)) -> (List.length (filter (fun l => String.eqb (l_el l) e) lines) <= 1)%nat) ->
    plot_calibration_lines argsort around cat a = Ok (sp, lab, files) ->
    forall g v, In (g, v) sp -> v = total_of (lines_at around lines (la_elements (ac_load a)) g).
Proof.
  intros A N O argsort around cat a lines sp lab files Hl Hone H. unfold plot_calibration_lines in H.
  change (arc_load (ac_load a)) with (no_limits (ac_load a)) in H. rewrite Hl in H. cbn [bind] in H.
  set (grid := wave_grid _ _ _) in *. set (els := la_elements (ac_load a)) in *.
  apply bind_Ok in H. destruct H as (i & Ei & H).
  assert (G : forall els i0, (forall e, In e els -> (List.length (filter (fun l => String.eqb (l_el l) e) lines) <= 1)%nat) ->
    List.length i0 = List.length grid ->
    line_spectrum around grid lines els i0 =
      Ok (map (fun q => fold_left nadd (lines_at around lines els (fst q)) (snd q)) (combine grid i0))).
  { clear. induction els as [|e els IH]; intros i0 Hone L.
    - cbn [line_spectrum lines_at flat_map fold_left]. f_equal. revert i0 L.
      induction grid as [|g gs I]; intros [|x i] L; try discriminate; auto. cbn. f_equal. apply I. cbn in L. lia.
    - cbn [line_spectrum]. pose proof (Hone e (or_introl eq_refl)) as H1.
      assert (E : forall g, map l_int (filter (fun l => String.eqb (l_el l) e && (g ==' around (l_wl l))) lines) =
        map l_int (filter (fun l => g ==' around (l_wl l)) (filter (fun l => String.eqb (l_el l) e) lines))).
      { intros g. f_equal. clear. induction lines as [|l r IH]; auto. cbn [filter].
        destruct (String.eqb (l_el l) e); cbn [filter andb]; rewrite IH; reflexivity. }
      set (sel := filter (fun l => String.eqb (l_el l) e) lines) in *.
      set (mask := map _ grid).
      assert (Lm : List.length mask = List.length i0) by (unfold mask; rewrite map_length; lia).
      assert (Ea : add_at i0 mask (map l_int sel) =
        Ok (map (fun q => fold_left nadd (map l_int (filter (fun l => String.eqb (l_el l) e && (fst q ==' around (l_wl l))) lines)) (snd q)) (combine grid i0))).
      { destruct sel as [|l [|l' sel]]; [| |cbn in H1; lia].
        - assert (Em : mask = map (fun _ => false) grid) by (unfold mask; apply map_ext; reflexivity).
          assert (F0 : forall T (gs : list T), filter (fun b : bool => b) (map (fun _ => false) gs) = []) by (clear; induction gs; auto).
          unfold add_at. rewrite Em, F0. cbn [map List.length Nat.eqb]. f_equal. clear Em Lm mask. revert i0 L E. clear.
          induction grid as [|g gs I]; intros [|x i] L E; try discriminate; auto. cbn [map spread combine fst snd].
          rewrite E. cbn [filter map fold_left]. f_equal. apply I; [cbn in L; lia|exact E].
        - assert (Es : add_at i0 mask [l_int l] = Ok (spread i0 mask (repeat (l_int l) (List.length (filter (fun b : bool => b) mask))))).
          { unfold add_at. cbn [List.length]. destruct (List.length (filter (fun b : bool => b) mask)) as [|[|n]]; reflexivity. }
          cbn [map]. rewrite Es, spread_repeat by exact Lm. f_equal. unfold mask. clear -L E. revert i0 L.
          induction grid as [|g gs I]; intros [|x i] L; try discriminate; auto. cbn [map combine fst snd existsb].
          rewrite E. cbn [filter map]. rewrite orb_false_r. f_equal; [|apply I; cbn in L; lia].
          destruct (g ==' around (l_wl l)); reflexivity. }
      rewrite Ea. cbn [bind]. rewrite IH; [|intros; apply Hone; right; auto|rewrite map_length, combine_length; lia].
      f_equal. clear -L. unfold lines_at. cbn [flat_map]. revert i0 L.
      induction grid as [|g gs I]; intros [|x i] L; try discriminate; auto. cbn [map combine fst snd].
      rewrite fold_left_app. f_equal. apply I. cbn in L. lia. }
  rewrite G in Ei; [|exact Hone|apply map_length]. assert (i = map (fun g => total_of (lines_at around lines els g)) grid) as ->.
  { assert (E2 : forall (h : A -> A -> A) gs, map (fun q => h (fst q) (snd q)) (combine gs (map (fun _ => nZ 0) gs)) = map (fun g => h g (nZ 0)) gs).
    { clear. intros h gs. induction gs as [|g gs IH]; auto. cbn. f_equal. exact IH. }
    rewrite (E2 (fun g x => fold_left nadd (lines_at around lines els g) x)) in Ei. unfold total_of. congruence. }
  apply bind_Ok in H. destruct H as (m & _ & H). apply bind_Ok in H. destruct H as (m' & _ & H).
  intros g v Hin. clear G Ei. assert (sp = combine grid (map (fun g => total_of (lines_at around lines els g)) grid)) as -> by (destruct grid; [discriminate|congruence]).
  clear -Hin. induction grid as [|g0 gs IH]; [destruct Hin|]. cbn [map combine In] in Hin. destruct Hin as [E|E]; [congruence|auto].
Qed.

(** A grid from 400.0035 has 400.004 twice (numpy rounds half to even), and one line of
    helium there appears at both. *)
Definition around_even (x : f64) : f64 :=
  match ntrunc (x *' fz 1000) with
  | Some z => let r := x *' fz 1000 -' nZ z in
              nZ (if r <' fd 5 (-1) then z else if fd 5 (-1) <' r then z + 1 else if Z.even z then z else z + 1)%Z /' fz 1000
  | None => x
  end.
Example arc_single_lines_example_main :
  let cat := mkCatalogue [he 4000040 9] (fun _ => None) in
  let a := mkArc (mkLoadArgs ["He"%string] (fd 4000035 (-4)) (fd 4000055 (-4)) (ThNum (fz 1)) (fz 0) true (fz 101325) (fd 27315 (-2)) (fz 0) (LLStr "nist") None)
    (mkShow true "png+iframe" None true false) in
  load_calibration_lines argsort_stable cat (no_limits (ac_load a)) = Ok [he 4000040 9] /\
  match plot_calibration_lines argsort_stable around_even cat a return Prop with
  | Ok (sp, _, _) => map fst (firstn 2 sp) = [fd 400004 (-3); fd 400004 (-3)] /\ map snd (firstn 2 sp) = [fz 9; fz 9]
  | Raise _ => False
  end.
Proof. vm_compute. auto. Qed.

(** Non-vacuity of C100: the same two lines without brightest_n_lines. *)
Example arc_spectrum_example_main :
  let cat := mkCatalogue [he 40000010 3; he 40000020 9] (fun _ => None) in
  load_calibration_lines argsort_stable cat (no_limits (ac_load (arc_call None (fz 1) (fz 0)))) = Ok [he 40000010 3; he 40000020 9] /\
  wave_grid around3 (fz 4000) (fd 4000003 (-3)) = map (fun z => fd z (-3)) [4000000; 4000001; 4000002; 4000003; 4000004]%Z /\
  match plot_calibration_lines argsort_stable around3 cat (arc_call None (fz 1) (fz 0)) return Prop with
  | Ok (sp, lab, files) =>
      map snd sp = map fz [0; 3; 9; 0; 0]%Z /\ lab = [he 40000010 3; he 40000020 9] /\
      files = [("rascal_arc.png", "png")]%string
  | Raise _ => False
  end.
Proof. vm_compute. auto 10. Qed.

(* ------------------------------------------------------------------ *)
(** ** The labelled lines *)

Lemma filter_intensity_keeps {A} {N : Num A} els (lines : list (line A)) m mask :
  filter_intensity els lines m = Ok mask ->
  subseq (mask_select mask lines) lines /\
  forall r, In r (mask_select mask lines) <->
    In r lines /\ exists t, threshold els m (l_el r) t /\ t <=' l_int r = true.
Proof.
  intros H. split.
  - apply filter_intensity_exact_main in H. destruct H as (_ & L & _). clear -L. revert mask L.
    induction lines as [|l r IH]; intros [|b mask] L; try discriminate.
    + constructor.
    + rewrite mask_select_cons. destruct b; constructor; apply IH; cbn in L; lia.
  - intros r. apply filter_intensity_exact_main in H. destruct H as (_ & L & H). rewrite mask_select_In. split.
    + intros (i & H1 & H2). split; [eapply nth_error_In; eauto|].
      destruct (H i r) as (t & Ht & Hm); auto. exists t. split; auto. congruence.
    + intros (Hin & t & Ht & Hle). apply In_nth_error in Hin. destruct Hin as (i & Hi). exists i.
      destruct (H i r Hi) as (t' & Ht' & Hm).
      assert (t' = t).
      { destruct m; cbn in Ht, Ht'; try contradiction; try (destruct Ht, Ht'; congruence).
        destruct Ht as (k & K1 & K2 & K3). destruct Ht' as (k' & K1' & K2' & K3').
        destruct (Nat.lt_trichotomy k k') as [Hk|[Hk|Hk]].
        - exfalso. exact (K3 k' Hk K1').
        - subst. congruence.
        - exfalso. exact (K3' k Hk K1). }
      subst t'. rewrite Hle in Hm. auto.
Qed.

(** C101 fails: if no line reaches min_intensity, nothing is drawn: the call raises
    (IndexError, or ValueError from C100) instead of showing the spectrum without
    labels. *)
Lemma arc_labels_refuted_main :
  forall (A : Type) (N : Num A) argsort around (cat : catalogue A) (a : arc_args A) lines t,
    load_calibration_lines argsort cat (no_limits (ac_load a)) = Ok lines ->
    la_min_intensity (ac_load a) = ThNum t ->
    (forall l, In l lines -> In (l_el l) (la_elements (ac_load a)) /\ t <=' l_int l = false) ->
    plot_calibration_lines argsort around cat a = Raise IndexError \/
    plot_calibration_lines argsort around cat a = Raise ValueError.
Proof.
  intros A N argsort around cat a lines t Hl Ht Hf. unfold plot_calibration_lines.
  change (arc_load (ac_load a)) with (no_limits (ac_load a)). rewrite Hl. cbn [bind].
  match goal with |- context [line_spectrum ?f ?g ?l ?e ?i] => destruct (line_spectrum f g l e i) as [i'|e'] eqn:Ei end.
  2:{ right. cbn [bind]. rewrite (line_spectrum_error _ _ _ _ _ _ Ei). reflexivity. }
  left. cbn [bind].
  destruct (filter_intensity (la_elements (ac_load a)) lines (la_min_intensity (ac_load a))) as [m|e] eqn:Ef.
  - cbn [bind]. destruct (filter_intensity_keeps _ _ _ _ Ef) as (_ & K).
    destruct (mask_select m lines) as [|r s] eqn:Em; [reflexivity|exfalso].
    destruct (proj1 (K r) (or_introl eq_refl)) as (Hin & t' & Htt & Hle). rewrite Ht in Htt. cbn in Htt. destruct Htt as (_ & ->).
    destruct (Hf r Hin). congruence.
  - exfalso. rewrite Ht in Ef. apply filter_intensity_errors_main in Ef.
    destruct Ef as [(_ & E)|[(_ & l & E & _)|(_ & _ & l & Hin & Hn)]]; [discriminate|discriminate|]. apply Hn, Hf, Hin.
Qed.

Example arc_labels_refuted_example_main :
  let cat := mkCatalogue [he 40000010 3; he 40000020 9] (fun _ => None) in
  plot_calibration_lines argsort_stable around3 cat (arc_call None (fz 10) (fz 0)) = Raise IndexError.
Proof. vm_compute. reflexivity. Qed.

Lemma nth_error_eq {T} (l l' : list T) : (forall k, nth_error l k = nth_error l' k) -> l = l'.
Proof.
  revert l'. induction l as [|x l IH]; intros [|y l'] H; auto; try (specialize (H 0%nat); discriminate).
  pose proof (H 0%nat) as H0. cbn in H0. injection H0 as ->. f_equal. apply IH. intros k. exact (H (S k)).
Qed.

(** C101, the part that holds: for lines in increasing order of wavelength (as they
    are loaded in vacuum without brightest_n_lines) the labelled lines are the loaded
    lines that reach the threshold of their element and keep min_distance from their
    neighbours among these. *)
Lemma arc_labels_partial_main :
  forall argsort around (cat : catalogue xr) (a : arc_args xr) lines d sp lab files,
    load_calibration_lines argsort cat (no_limits (ac_load a)) = Ok lines ->
    increasing_wl lines -> (forall r, In r lines -> exists w, l_wl r = Fin w) ->
    la_min_distance (ac_load a) = Fin d ->
    plot_calibration_lines argsort around cat a = Ok (sp, lab, files) ->
    exists bright,
      subseq bright lines /\
      (forall r, In r bright <-> In r lines /\
         exists t, threshold (la_elements (ac_load a)) (la_min_intensity (ac_load a)) (l_el r) t /\ t <=' l_int r = true) /\
      subseq lab bright /\
      (forall i r, nth_error bright i = Some r ->
         (In r lab <-> ((0 < d)%R -> (2 <= List.length bright)%nat /\
            forall j q, (j = S i \/ i = S j)%nat -> nth_error bright j = Some q -> apart d r q))).
Proof.
  intros argsort around cat a lines d sp lab files Hl Hinc Hfin Hd H. unfold plot_calibration_lines in H.
  change (arc_load (ac_load a)) with (no_limits (ac_load a)) in H. rewrite Hl in H. cbn [bind] in H. apply bind_Ok in H. destruct H as (i & _ & H).
  apply bind_Ok in H. destruct H as (m & Hm & H). apply bind_Ok in H. destruct H as (m' & Hm' & H).
  destruct (filter_intensity_keeps _ _ _ _ Hm) as (K1 & K2).
  exists (mask_select m lines). split; [exact K1|]. split; [exact K2|].
  assert (El : lab = mask_select m' (mask_select m lines)) by (destruct (wave_grid around (la_min_wl (ac_load a)) (la_max_wl (ac_load a))); [discriminate|congruence]).
  assert (Hfin' : forall r, In r (mask_select m lines) -> exists w, l_wl r = Fin w) by (intros r Hr; apply Hfin, K2; exact Hr).
  assert (Hinc' : increasing_wl (mask_select m lines)) by (apply SS_mask_select; exact Hinc).
  rewrite Hd in Hm'.
  assert (Hs : load_separate (Fin d) (mask_select m lines) = Ok lab).
  { unfold load_separate. destruct (nltb (nZ 0) (Fin d)) eqn:E.
    - rewrite Hm'. cbn [bind]. congruence.
    - f_equal. rewrite El. rewrite nZ_Fin in E. change (Rltb 0 d = false) in E. destruct (Rltb_spec 0 d) as [|Hd0]; [discriminate|].
      clear -Hm' Hfin' Hd0 Hinc'.
      assert (Hall : exists rs, map l_wl (mask_select m lines) = map Fin rs).
      { revert Hfin'. generalize (mask_select m lines). intros l. induction l as [|r l IH]; intros Hf; [exists []; auto|].
        destruct IH as (rs & E); [intros; apply Hf; right; auto|]. destruct (Hf r (or_introl eq_refl)) as (w & Ew).
        exists (w :: rs). cbn. rewrite Ew, E. auto. }
      destruct Hall as (rs & Ers). rewrite Ers in Hm'.
      assert (Len : List.length rs = List.length (mask_select m lines)) by (apply (f_equal (@List.length _)) in Ers; rewrite !map_length in Ers; auto).
      assert (Ht : m' = map (fun _ => true) (mask_select m lines)); [|rewrite Ht; reflexivity].
      assert (Em : m' = map (fun _ => true) rs).
      { destruct rs as [|r0 [|r1 rs]]; [discriminate| |].
        - change (filter_separation (map Fin [r0]) (Fin d)) with (Ok [xleb (Fin d) (xabs (nZ 0 : xr))]) in Hm'.
          rewrite nZ_Fin in Hm'. cbn in Hm'. rewrite Rabs_R0 in Hm'. destruct (Rleb_spec d 0); [|lra]. cbn. congruence.
        - set (l := r0 :: r1 :: rs) in *.
          assert (Sl : StronglySorted Rle l).
          { unfold increasing_wl in Hinc'. apply SS_of_nth_error. intros i j x y Hij Hx Hy.
            assert (Q : forall k z, nth_error l k = Some z -> exists q, nth_error (mask_select m lines) k = Some q /\ l_wl q = Fin z).
            { intros k z Hz. apply (f_equal (fun u => nth_error u k)) in Ers. rewrite !nth_error_map, Hz in Ers. cbn in Ers.
              destruct (nth_error (mask_select m lines) k) as [q|]; [|discriminate]. cbn in Ers. exists q. split; auto. congruence. }
            destruct (Q _ _ Hx) as (q & Hq & Eq). destruct (Q _ _ Hy) as (q' & Hq' & Eq').
            pose proof (SS_nth_error _ _ _ _ _ _ Hinc' Hij Hq Hq') as Lt. cbn beta in Lt. rewrite Eq, Eq' in Lt.
            change (Rltb x y = true) in Lt. destruct (Rltb_spec x y); [lra|discriminate]. }
          destruct (filter_separation_exact_main l d ltac:(cbn; lia) Sl) as (m0 & Hm0 & Hl0 & Hc & _).
          assert (m0 = m') by congruence. subst m0. apply nth_error_eq. intros k.
          destruct (nth_error l k) as [w|] eqn:Ek.
          + rewrite nth_error_map, Ek. cbn. apply (Hc k w Ek). intros j v _ _. pose proof (Rabs_pos (v - w)). lra.
          + rewrite nth_error_map, Ek. cbn. apply nth_error_None. apply nth_error_None in Ek. lia. }
      rewrite Em. clear -Len. revert Len. generalize (mask_select m lines). induction rs as [|r rs IH]; intros [|q l] L; try discriminate; auto.
      cbn. f_equal. apply IH. cbn in L. lia. }
  destruct (load_separate_spec _ d lab Hfin' Hinc' Hs) as (L1 & L2 & _). split; [exact L1|]. exact L2.
Qed.

Lemma subseq_SS {T} (R : T -> T -> Prop) l1 l2 : subseq l1 l2 -> StronglySorted R l2 -> StronglySorted R l1.
Proof.
  induction 1 as [|x l1 l2 H IH|x l1 l2 H IH]; intros S; auto; apply StronglySorted_inv in S; destruct S as (S & F); auto.
  constructor; auto. rewrite Forall_forall in *. intros y Hy. apply F. clear -H Hy. induction H; auto; cbn in *; intuition.
Qed.
Lemma subseq_In {T} (l1 l2 : list T) x : subseq l1 l2 -> In x l1 -> In x l2.
Proof. induction 1; cbn; intuition. Qed.

(** The condition of C101 is met in vacuum without brightest_n_lines. *)
Lemma arc_lines_increasing_partial_main :
  forall argsort (cat : catalogue xr) (l : load_args xr) rows lines,
    la_vacuum l = true -> la_brightest_n l = None ->
    read_linelist cat (la_linelist l) = Ok rows -> (forall r, In r rows -> exists w, l_wl r = Fin w) ->
    load_calibration_lines argsort cat (no_limits l) = Ok lines ->
    increasing_wl lines /\ (forall r, In r lines -> exists w, l_wl r = Fin w).
Proof.
  intros argsort cat l rows lines Hv Hb Hr Hf H.
  destruct (load_exact_main argsort cat (no_limits l) rows 0%R lines) as (lo & hi & sel & kept & _ & S & Sub & _ & _ & P); auto; [exact (nZ_Fin 0)|].
  assert (E : lines = kept).
  { clear -P Hv. induction P as [|r o k out (P1 & P2 & P3) F IH]; auto. cbn [no_limits la_vacuum] in P3. rewrite Hv in P3.
    f_equal; auto. destruct r, o. cbn in *. congruence. }
  rewrite E. split; [eapply subseq_SS; [exact Sub|apply S]|].
  intros r Hin. apply (subseq_In _ _ _ Sub) in Hin. apply S in Hin. destruct Hin as ((i & Hi & _) & _). apply Hf.
  apply nth_error_In in Hi. unfold requested in Hi. apply filter_In in Hi. tauto.
Qed.

(** C79 for the two remaining figures: plot_search_space writes with the selected
    library, plot_calibration_lines always with matplotlib. *)
Lemma chart_files_main :
  forall (A : Type) (N : Num A) argsort path fmt,
    (forall (c : calib A) cands coeff top weighted s sp ou,
       plot_search_space argsort c cands coeff top weighted s = Ok (Some (sp, ou)) ->
       exists lib, selected c lib /\
         (In (path, fmt) (ou_files ou) <->
            sh_save s = true /\ part_of (sh_type s) fmt /\ format_of lib fmt /\
            path = (match sh_name s with None => "rascal_hough_search_space" | Some f => f end ++ "." ++ fmt)%string)) /\
    (forall around (cat : catalogue A) a sp lab files,
       plot_calibration_lines argsort around cat a = Ok (sp, lab, files) ->
       let s := ac_show a in
       (In (path, fmt) files <->
          sh_save s = true /\ part_of (sh_type s) fmt /\ format_of Matplotlib fmt /\
          path = (match sh_name s with None => "rascal_arc" | Some f => f end ++ "." ++ fmt)%string)).
Proof.
  intros A N argsort path fmt. split.
  - intros c cands coeff top weighted s sp ou H.
    destruct (space_inv _ _ _ _ _ _ _ _ _ H) as (cs' & lib & px & minw & maxw & rt & pmax & pairs & sol & _ & Hl & _ & _ & _ & _ & _ & _ & _ & _ & _ & ->).
    exists lib. split; auto. apply files_spec.
  - intros around cat a sp lab files H s. unfold plot_calibration_lines in H.
    apply bind_Ok in H. destruct H as (l & _ & H). apply bind_Ok in H. destruct H as (i & _ & H).
    apply bind_Ok in H. destruct H as (m & _ & H). apply bind_Ok in H. destruct H as (m' & _ & H).
    assert (Ef : files = files_written Matplotlib (sh_save s) (sh_type s) (sh_name s) "rascal_arc").
    { unfold s. destruct (wave_grid around (la_min_wl (ac_load a)) (la_max_wl (ac_load a))); [discriminate|congruence]. }
    rewrite Ef. apply files_spec.
Qed.

(** The labels in binary64: of four lines one is too faint, and two of the others are too
    near to each other. *)
Example arc_labels_example_main :
  let cat := mkCatalogue [he 40000000 3; he 40000010 9; he 40000020 1; he 40000030 9] (fun _ => None) in
  match plot_calibration_lines argsort_stable around3 cat (arc_call None (fz 2) (fd 15 (-4))) return Prop with
  | Ok (sp, lab, files) => lab = [he 40000030 9] /\ map snd sp = map fz [3; 9; 1; 9; 0]%Z
  | Raise _ => False
  end.
Proof. vm_compute. auto 10. Qed.

(** C98: the lines drawn by plot_search_space, at each pixel. *)
Lemma region_as_drawn_main :
  forall argsort (c : calib xr) cands coeff top weighted a sp ou (minw maxw rt m : R) px,
    plot_search_space argsort c cands coeff top weighted a = Ok (Some (sp, ou)) ->
    h_minw (c_hp c) = Some (Fin minw) -> h_maxw (c_hp c) = Some (Fin maxw) -> h_rt (c_hp c) = Some (Fin rt) ->
    g_pixels (c_gp c) = Some (map Fin px) -> In m px -> (forall x, In x px -> (x <= m)%R) -> (0 < m)%R ->
    sp_line sp = map (fun x => (Fin x, Fin ((maxw - minw) / m * x + minw))) px /\
    sp_upper sp = map (fun x => (Fin x, Fin ((maxw - minw) / m * x + minw + rt))) px /\
    sp_lower sp = map (fun x => (Fin x, Fin ((maxw - minw) / m * x + minw - rt))) px.
Proof.
  intros argsort c cands coeff top weighted a sp ou minw maxw rt m px H E1 E2 E3 E4 Im Lm Pm.
  destruct (space_inv _ _ _ _ _ _ _ _ _ H) as
    (cs & lib & px' & minw' & maxw' & rt' & pmax & pairs & sol & _ & _ & F1 & F2 & F3 & F4 & F5 & _ & _ & _ & Hsp).
  cbv zeta in Hsp. destruct Hsp as (-> & _). cbn [sp_line sp_upper sp_lower].
  assert (minw' = Fin minw) by congruence. assert (maxw' = Fin maxw) by congruence. assert (rt' = Fin rt) by congruence.
  assert (px' = map Fin px) by congruence. subst.
  assert (pmax = Fin m) as ->.
  { destruct px as [|x0 px]; [contradiction|]. destruct (np_amax_Fin px x0) as (m1 & G1 & G2 & G3).
    assert (pmax = Fin m1) by congruence. subst pmax. f_equal. apply Rle_antisym; auto. }
  rewrite !map_map. split; [|split]; apply map_ext; intros x; f_equal.
  - unfold region_line. change (nsub (Fin maxw) (Fin minw)) with (Fin (maxw + - minw)).
    rewrite xr_div_Fin by lra. change (Fin ((maxw + - minw) / m * x + minw) = Fin ((maxw - minw) / m * x + minw)). reflexivity.
  - apply region_upper_Fin. lra.
  - apply region_lower_Fin. lra.
Qed.

Example region_as_drawn_example_main :
  let c := set_c_pairs (PArr [(Fin 5, Fin 4500)])
             (set_c_hp (mkH None None None (Some (Fin 4000)) (Some (Fin 5000)) (Some (Fin 100)) None None None None None)
               (set_c_gp (mkG None (Some [Fin 10]) None true false) (calib_blank [Fin 5] None))) in
  exists sp ou,
    plot_search_space (fun l => seq 0 (List.length l)) c (Some [[(Fin 5, Fin 4500, Fin 1)]]) None 1 false
      (mkShow false "png" None false false) = Ok (Some (sp, ou)).
Proof. eexists _, _. reflexivity. Qed.

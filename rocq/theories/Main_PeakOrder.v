(** * Main_PeakOrder: the order of the peaks does not matter to a whole call of fit
    (C147). *)

From Coq Require Import ZArith Bool List String Lia Reals Lra Sorted Permutation.
From Verif Require Import Num F64 XReal Py Np NpFacts ArgsortFacts Util Models Atlas Hough SpecHough PolyEval Calib SpecCalib Main_Calib Cand SpecCand CandFacts SampleFacts Ransac RansacFacts Fit SpecFit FitFacts Calls RecoverFacts MatchPeaks SpecMatch Plot SpecSession Main_Session SpecPermute SpecPeakOrder Main_Permute Main_Ransac Main_Fit.
Import ListNotations.
Local Open Scope num_scope.

(* ------------------------------------------------------------------ *)
(** ** For each pixel the pairs come in the same order *)

Definition column (p : xr) (l : list (xr * xr)) : list (xr * xr) := filter (fun q => fst q ==' p) l.

Definition aligned (a b : pairs_val xr) : Prop :=
  match a, b with
  | PArr l, PArr k => forall p, column p l = column p k
  | _, _ => True
  end.

Lemma column_app p l k : column p (l ++ k) = (column p l ++ column p k)%list.
Proof. apply filter_app. Qed.

Lemma column_row p x (ls : list xr) :
  column p (map (fun y => (x, y)) ls) = if x ==' p then map (fun y => (x, y)) ls else [].
Proof.
  unfold column. induction ls as [|y ls IH]; cbn [map filter fst]; [destruct (x ==' p); reflexivity|].
  rewrite IH. destruct (x ==' p); reflexivity.
Qed.

Lemma column_product (a b ls : list R) p : Permutation a b ->
  column p (product_pairs (map Fin a) (map Fin ls)) = column p (product_pairs (map Fin b) (map Fin ls)).
Proof.
  intros P. unfold product_pairs.
  assert (E : forall a, column p (list_prod (map Fin a) (map Fin ls)) =
    flat_map (fun x => map (fun y => (x, y)) (map Fin ls)) (filter (fun x => x ==' p) (map Fin a))).
  { clear. induction a as [|x a IH]; [reflexivity|].
    change (list_prod (map Fin (x :: a)) (map Fin ls)) with
      ((map (fun y => (Fin x, y)) (map Fin ls)) ++ list_prod (map Fin a) (map Fin ls))%list.
    rewrite column_app, column_row, IH. cbn [map filter]. destruct (Fin x ==' p); reflexivity. }
  rewrite !E. f_equal.
  assert (F : filter (fun x => x ==' p) (map Fin a) = repeat p (List.length (filter (fun x => x ==' p) (map Fin a)))).
  { clear. induction a as [|x a IH]; [reflexivity|]. cbn [map filter].
    destruct (Fin x ==' p) eqn:Ex; [|exact IH]. cbn [List.length repeat]. rewrite <- IH. f_equal.
    destruct p as [q| |]; [|discriminate|discriminate]. change (Fin x ==' Fin q) with (Reqb x q) in Ex.
    destruct (Reqb_spec x q); congruence. }
  assert (G : filter (fun x => x ==' p) (map Fin b) = repeat p (List.length (filter (fun x => x ==' p) (map Fin b)))).
  { clear. induction b as [|x b IH]; [reflexivity|]. cbn [map filter].
    destruct (Fin x ==' p) eqn:Ex; [|exact IH]. cbn [List.length repeat]. rewrite <- IH. f_equal.
    destruct p as [q| |]; [|discriminate|discriminate]. change (Fin x ==' Fin q) with (Reqb x q) in Ex.
    destruct (Reqb_spec x q); congruence. }
  rewrite F, G. f_equal. apply Permutation_length. apply filter_perm. apply Permutation_map. exact P.
Qed.

Lemma filter_comm {T} (f g : T -> bool) l : filter f (filter g l) = filter g (filter f l).
Proof.
  induction l as [|x l IH]; cbn; auto. destruct (g x) eqn:G, (f x) eqn:F; cbn; rewrite ?G, ?F, IH; reflexivity.
Qed.

Lemma mask_select_filter {T} (f : T -> bool) (l : list T) : mask_select (map f l) l = filter f l.
Proof.
  induction l as [|x l IH]; [reflexivity|]. cbn [map filter]. rewrite mask_select_cons, IH. destruct (f x); reflexivity.
Qed.

(** generate_pairs on two calibrators that are equal up to order. *)
Lemma generate_aligned hull (c : calib xr) peaks pairs t pts :
  pointwise hull -> finite_atlas c ->
  (exists a b, c_peaks c = map Fin a /\ peaks = map Fin b /\ Permutation a b) ->
  aligned (c_pairs c) pairs ->
  aligned (c_pairs (fst (generate_pairs hull c)))
    (c_pairs (fst (generate_pairs hull (set_c_points pts (set_c_ht t (set_c_pairs pairs (set_c_peaks peaks c))))))).
Proof.
  intros [inside Hin] Hf (a & b & Pa & Pb & P) Hal.
  set (d := set_c_points pts (set_c_ht t (set_c_pairs pairs (set_c_peaks peaks c)))).
  unfold generate_pairs. change (c_atlas d) with (c_atlas c). change (c_constrain d) with (c_constrain c).
  change (corners d) with (corners c). change (c_peaks d) with peaks.
  destruct (c_atlas c) as [at_|] eqn:Ea; cbn [fst]; [|exact Hal].
  destruct (Hf at_ Ea) as [l El]. rewrite Pa, Pb, El.
  assert (C : forall p, column p (product_pairs (map Fin a) (map Fin l)) = column p (product_pairs (map Fin b) (map Fin l)))
    by (intros p; apply column_product; exact P).
  assert (PP : Permutation (product_pairs (map Fin a) (map Fin l)) (product_pairs (map Fin b) (map Fin l))).
  { apply list_prod_perm; [apply Permutation_map; exact P|apply Permutation_refl]. }
  destruct (c_constrain c).
  - destruct (corners c) as [k|ex]; cbn [bind fst]; [|exact Hal].
    rewrite !Hin.
    destruct (product_pairs (map Fin a) (map Fin l)) as [|u1 r1] eqn:E1.
    { apply Permutation_nil in PP. rewrite PP. exact Hal. }
    destruct (product_pairs (map Fin b) (map Fin l)) as [|u2 r2] eqn:E2.
    { symmetry in PP. apply Permutation_nil in PP. discriminate. }
    rewrite <- E1, <- E2 in *. cbn [fst]. rewrite !mask_select_filter.
    intros p. unfold column. rewrite !(filter_comm _ (inside k)). f_equal. apply C.
  - destruct (product_pairs (map Fin a) (map Fin l)) as [|u1 r1] eqn:E1.
    { exact I. }
    destruct (product_pairs (map Fin b) (map Fin l)) as [|u2 r2] eqn:E2.
    { exact I. }
    exact C.
Qed.

Lemma transform_pairs argsort (x : calib xr) b : c_pairs (fst (do_hough_transform argsort x b)) = c_pairs x.
Proof.
  unfold do_hough_transform. destruct (c_pairs x) eqn:E; [exact E| |].
  - destruct (set_constraints _ _ _ _ _) as [t1 [[]|]]; exact E.
  - destruct (set_constraints _ _ _ _ _) as [t1 [[]|]]; [|exact E]. cbv zeta.
    match goal with |- context[let (t2, r2) := ?z in _] => destruct z as [t2 [[]|]] end; [|exact E].
    match goal with |- context[let (t2, r2) := ?z in _] => destruct z as [t3 [[]|]] end; exact E.
Qed.

Lemma step_aligned (e : env xr) (o : cal_op xr) c d :
  pointwise (e_hull e) -> reordered c d -> aligned (c_pairs c) (c_pairs d) ->
  finite_atlas (fst (cal_step e c o)) ->
  aligned (c_pairs (fst (cal_step e c o))) (c_pairs (fst (cal_step e d o))).
Proof.
  intros Hh (peaks & pairs & t & pts & Hpk & Hpr & Ht & Hpt & ->) Hal.
  change (aligned (c_pairs c) pairs) in Hal.
  assert (GA : forall c' : calib xr, c_peaks c' = c_peaks c -> c_pairs c' = c_pairs c ->
    finite_atlas (fst (generate_pairs (e_hull e) c')) ->
    aligned (c_pairs (fst (generate_pairs (e_hull e) c')))
      (c_pairs (fst (generate_pairs (e_hull e) (set_c_points pts (set_c_ht t (set_c_pairs pairs (set_c_peaks peaks c')))))))).
  { intros c' E1 E2 Hf. apply generate_aligned; auto.
    - apply (finite_atlas_frame _ c') in Hf; [exact Hf|apply generate_pairs_atlas].
    - rewrite E1. exact Hpk.
    - rewrite E2. exact Hal. }
  destruct o as [np px lib| | |a|a|p w|at_ ct k|a ct k|u ct k|w tl| |b|fs n tp]; cbn [cal_step].
  - intros _. unfold set_calibrator_properties. cbn [c_gp c_spectrum c_peaks set_c_points set_c_ht set_c_pairs set_c_peaks].
    cbv zeta.
    match goal with |- aligned (c_pairs (fst (match ?x with Ok n => _ | Raise e => _ end))) _ => destruct x end;
    match goal with |- aligned _ (c_pairs (fst (match ?x with Ok n => _ | Raise e => _ end))) => destruct x end; exact Hal.
  - intros _. exact Hal.
  - intros _. exact Hal.
  - unfold set_hough_properties. cbn [c_hp c_gp c_atlas set_c_points set_c_ht set_c_pairs set_c_peaks]. cbv zeta.
    match goal with |- context[match ?x with Ok ns => _ | Raise e => _ end] => destruct x as [ns|ex] end; [|intros _; exact Hal].
    destruct (g_pixels (c_gp c)) as [px|]; [|intros _; exact Hal].
    destruct (np_ptp px) as [ptp|ex]; [|intros _; exact Hal].
    destruct (c_atlas c) as [at_|] eqn:Ea; [|intros _; exact Hal].
    match goal with |- context[generate_pairs (e_hull e) (set_c_hp ?h c)] =>
      exact (GA (set_c_hp h c) eq_refl eq_refl) end.
  - intros _. unfold set_ransac_properties. cbn [c_rp set_c_points set_c_ht set_c_pairs set_c_peaks]. cbv zeta.
    destruct (negb _); [|destruct (negb _); [|destruct (negb _)]]; exact Hal.
  - intros _. unfold set_known_pairs. destruct p as [p|ex]; [|exact Hal]. destruct w as [w|ex]; [|exact Hal].
    destruct (negb _); [exact Hal|]. destruct (existsb nisnan p); [exact Hal|]. destruct (existsb nisnan w); exact Hal.
  - exact (GA (set_c_constrain k (set_c_cand_tol (Some ct) (set_c_atlas (Some at_) c))) eq_refl eq_refl).
  - unfold cal_add_atlas. cbn [c_hp c_atlas set_c_points set_c_ht set_c_pairs set_c_peaks]. cbv zeta.
    assert (G := fun v => GA (set_c_constrain k (set_c_cand_tol (Some ct) (set_c_atlas v c))) eq_refl eq_refl).
    destruct (h_minw (c_hp c)); [|intros _; exact Hal]. destruct (h_maxw (c_hp c)); [|intros _; exact Hal].
    destruct (h_rt (c_hp c)); [|intros _; exact Hal].
    destruct (c_atlas c) as [at_|].
    + destruct (atlas_add _ _ _ _) as [at' [v|ex]]; [apply G|intros _; exact Hal].
    + destruct (atlas_init _ _ _ _ _ _ _ _ _ _ _ _ _) as [at'|ex]; [apply G|intros _; exact Hal].
  - unfold cal_add_user_atlas. cbn [c_atlas set_c_points set_c_ht set_c_pairs set_c_peaks]. cbv zeta.
    destruct (add_user_atlas _ _) as [at' [v|ex]]; [|intros _; exact Hal].
    exact (GA (set_c_constrain k (set_c_cand_tol (Some ct) (set_c_atlas (Some at') c))) eq_refl eq_refl).
  - intros _. unfold cal_remove_lines. cbn [c_atlas set_c_points set_c_ht set_c_pairs set_c_peaks].
    destruct (c_atlas c); exact Hal.
  - intros _. unfold cal_clear_atlas. cbn [c_atlas set_c_points set_c_ht set_c_pairs set_c_peaks].
    destruct (c_atlas c); exact Hal.
  - intros _.
    rewrite !transform_pairs. exact Hal.
  - intros _. unfold load_hough_transform. cbn [c_ht set_c_points set_c_ht set_c_pairs set_c_peaks].
    destruct (hough_load (c_ht c) fs n tp). destruct (hough_load t fs n tp). exact Hal.
Qed.

Lemma run_aligned (e : env xr) : forall h c d,
  (forall l, is_argsort l (e_argsort e l)) -> pointwise (e_hull e) -> reordered c d ->
  aligned (c_pairs c) (c_pairs d) ->
  (forall h1 h2, h = (h1 ++ h2)%list -> finite_atlas (cal_run e c h1)) ->
  aligned (c_pairs (cal_run e c h)) (c_pairs (cal_run e d h)).
Proof.
  induction h as [|o h IH]; intros c d Ha Hh Hr Hal Hf; [exact Hal|].
  assert (F1 : finite_atlas (fst (cal_step e c o))) by exact (Hf [o] h eq_refl).
  destruct (step_reordered e o c d Ha Hh Hr F1) as [E1 E2].
  apply (IH (fst (cal_step e c o)) (fst (cal_step e d o)) Ha Hh E2).
  - apply step_aligned; auto.
  - intros h1 h2 E. apply (Hf (o :: h1) h2). cbn. congruence.
Qed.

(** Before the first call no pairs exist. *)
Lemma init_pairs hull (peaks : list xr) spectrum c : calib_init hull peaks spectrum = Ok c -> c_pairs c = PMissing.
Proof.
  unfold calib_init. cbv zeta. intros H.
  destruct (set_calibrator_properties (calib_blank peaks spectrum) None None None) as [c1 r1] eqn:E1.
  destruct r1 as [u1|x1]; [|discriminate]. cbn [bind] in H.
  assert (P1 : c_pairs c1 = PMissing /\ c_atlas c1 = None).
  { unfold set_calibrator_properties in E1. cbv zeta in E1.
    match type of E1 with context[match ?x with Ok n => _ | Raise e => _ end] => destruct x end;
      injection E1 as <- _; split; reflexivity. }
  destruct P1 as [P1 A1].
  destruct (set_hough_properties hull c1 no_hough_args) as [c2 r2] eqn:E2.
  destruct r2 as [u2|x2]; [|discriminate]. cbn [bind] in H.
  assert (P2 : c_pairs c2 = PMissing).
  { unfold set_hough_properties in E2. cbv zeta in E2.
    match type of E2 with context[match ?x with Ok n => _ | Raise e => _ end] => destruct x end; [|discriminate].
    destruct (g_pixels (c_gp c1)); [|discriminate]. destruct (np_ptp _); [|discriminate]. rewrite A1 in E2.
    injection E2 as <-. exact P1. }
  destruct (set_ransac_properties c2 no_ransac_args) as [c3 r3] eqn:E3.
  destruct r3 as [u3|x3]; [|discriminate]. cbn [bind] in H. injection H as <-.
  unfold set_ransac_properties in E3. cbv zeta in E3. injection E3 as <-. exact P2.
Qed.

(* ------------------------------------------------------------------ *)
(** ** The candidates depend on the columns only *)

Lemma most_common_columns argsort (cs ds : list (cand xr)) top weighted xs ys :
  map row_x (List.concat cs) = map Fin xs -> map row_x (List.concat ds) = map Fin ys ->
  (forall p, filter (fun r => row_x r ==' p) (List.concat cs) = filter (fun r => row_x r ==' p) (List.concat ds)) ->
  most_common_candidates argsort cs top weighted = most_common_candidates argsort ds top weighted.
Proof.
  intros Ex Ey Hp. unfold most_common_candidates. cbv zeta.
  assert (U : np_unique (map row_x (List.concat cs)) = np_unique (map row_x (List.concat ds))).
  { rewrite Ex, Ey. destruct (np_unique_Fin xs) as (us & -> & Su & Hu). destruct (np_unique_Fin ys) as (vs & -> & Sv & Hv).
    f_equal. apply SS_Rlt_unique; auto. intros v. rewrite Hu, Hv.
    assert (M : forall (rs : cand xr) zs, map row_x rs = map Fin zs ->
      (In v zs <-> exists r, In r (filter (fun r => row_x r ==' Fin v) rs))).
    { intros rs zs E. split.
      - intros Hi. apply (in_map Fin) in Hi. rewrite <- E in Hi. apply in_map_iff in Hi. destruct Hi as (r & Er & Hr).
        exists r. apply filter_In. split; auto. rewrite Er. change (Fin v ==' Fin v) with (Reqb v v).
        destruct (Reqb_spec v v); congruence.
      - intros (r & Hr). apply filter_In in Hr. destruct Hr as [Hr Eq]. apply (in_map row_x) in Hr. rewrite E in Hr.
        apply in_map_iff in Hr. destruct Hr as (z & Ez & Hz). rewrite <- Ez in Eq.
        change (Fin z ==' Fin v) with (Reqb z v) in Eq. destruct (Reqb_spec z v); congruence. }
    rewrite (M _ _ Ex), (M _ _ Ey), Hp. reflexivity. }
  rewrite U.
  assert (CF : forall p, common_for argsort (List.concat cs) top weighted p = common_for argsort (List.concat ds) top weighted p).
  { intros p. unfold common_for. rewrite Hp. reflexivity. }
  f_equal.
  - rewrite !flat_map_concat_map, !map_map. f_equal. apply map_ext. intros p. cbn [fst]. rewrite Hp. reflexivity.
  - rewrite !flat_map_concat_map, !map_map. f_equal. apply map_ext. intros p. cbn [snd]. apply CF.
Qed.

Lemma lines_columns rt lt tol (l k : list (xr * xr)) lines p :
  (forall p, column p l = column p k) ->
  filter (fun r => row_x r ==' p) (List.concat (map (line_candidates rt lt tol l) lines)) =
  filter (fun r => row_x r ==' p) (List.concat (map (line_candidates rt lt tol k) lines)).
Proof.
  intros H.
  assert (L : forall (l : list (xr * xr)) ln, filter (fun r => row_x r ==' p) (line_candidates rt lt tol l ln) =
     line_candidates rt lt tol (column p l) ln).
  { clear. intros l ln. unfold line_candidates, column. rewrite filter_comm.
    set (g := filter _ l). induction g as [|q g IH]; [reflexivity|]. cbn [map filter].
    change (row_x (fst q, snd q, _)) with (fst q). destruct (fst q ==' p); cbn [map]; rewrite IH; reflexivity. }
  induction lines as [|ln lines IH]; [reflexivity|]. cbn [map List.concat]. rewrite !filter_app, IH, !L, H. reflexivity.
Qed.

Lemma lines_finite rt lt tol (l : list (R * R)) lines :
  exists xs, map row_x (List.concat (map (line_candidates rt lt tol (map FinP l)) lines)) = map Fin xs.
Proof.
  induction lines as [|ln lines [xs IH]]; [exists []; reflexivity|]. cbn [map List.concat]. rewrite map_app, IH.
  assert (L : exists ys, map row_x (line_candidates rt lt tol (map FinP l) ln) = map Fin ys).
  { unfold line_candidates. rewrite map_map. clear. induction l as [|q l [ys IH]]; [exists []; reflexivity|].
    cbn [map filter]. destruct (_ <=' tol); [|exists ys; exact IH]. exists (fst q :: ys). cbn [map]. rewrite IH. reflexivity. }
  destruct L as [ys ->]. exists (ys ++ xs)%list. rewrite map_app. reflexivity.
Qed.

Definition put (peaks : list xr) pairs t pts (c : calib xr) : calib xr :=
  set_c_points pts (set_c_ht t (set_c_pairs pairs (set_c_peaks peaks c))).

Lemma candidates_aligned o (c : calib xr) peaks pairs t pts ctol :
  pairs_reordered (c_pairs c) pairs -> aligned (c_pairs c) pairs -> r_linear (c_rp c) = Some true ->
  ransac_candidates o (put peaks pairs t pts c) ctol = ransac_candidates o c ctol.
Proof.
  intros Hpr Hal Hl. unfold ransac_candidates. change (c_rp (put peaks pairs t pts c)) with (c_rp c). rewrite Hl.
  cbn [need bind]. destruct (need (r_top (c_rp c))) as [top|]; [|reflexivity]. cbn [bind].
  destruct (need (r_weighted (c_rp c))) as [w|]; [|reflexivity]. cbn [bind].
  unfold candidates_linear. change (c_lines (put peaks pairs t pts c)) with (c_lines c).
  change (c_hp (put peaks pairs t pts c)) with (c_hp c). change (c_pairs (put peaks pairs t pts c)) with pairs.
  destruct (c_lines c) as [[|l0 lines]|]; [reflexivity| |reflexivity].
  destruct (h_rt (c_hp c)); [|reflexivity]. destruct (h_lt (c_hp c)); [|reflexivity].
  destruct (c_pairs c) as [| |l], pairs as [| |k]; cbn in Hpr; try contradiction; try reflexivity.
  destruct Hpr as (p & q & -> & -> & P). cbn [bind]. f_equal.
  destruct (lines_finite x x0 ctol p (l0 :: lines)) as [xs Ex]. destruct (lines_finite x x0 ctol q (l0 :: lines)) as [ys Ey].
  apply (most_common_columns _ _ _ _ _ ys xs Ey Ex). intros v. symmetry. apply lines_columns. exact Hal.
Qed.

Lemma solve_aligned o fuel (c : calib xr) peaks pairs t pts deg tries coeff ctol brute :
  (exists a b, c_peaks c = map Fin a /\ peaks = map Fin b /\ Permutation a b) ->
  pairs_reordered (c_pairs c) pairs -> hough_reordered (c_ht c) t -> points_reordered (c_points c) pts ->
  aligned (c_pairs c) pairs -> r_linear (c_rp c) = Some true ->
  match solve_ransac o fuel c deg tries coeff ctol brute, solve_ransac o fuel (put peaks pairs t pts c) deg tries coeff ctol brute with
  | Some (c', r), Some (d', s) => r = s /\ reordered c' d'
  | None, None => True
  | _, _ => False
  end.
Proof.
  intros Hpk Hpr Ht Hpt Hal Hl. unfold solve_ransac.
  assert (PR : forall c', c_peaks c' = c_peaks c -> c_pairs c' = c_pairs c -> c_ht c' = c_ht c -> c_points c' = c_points c ->
     reordered c' (put peaks pairs t pts c')).
  { intros c' E1 E2 E3 E4. exists peaks, pairs, t, pts. rewrite E1, E2, E3, E4. auto. }
  rewrite (candidates_aligned o c peaks pairs t pts ctol Hpr Hal Hl).
  destruct (ransac_candidates o c ctol) as [q|ex]; [|split; auto].
  cbv zeta. set (c1 := set_c_deg (Some deg) c).
  change (set_c_deg (Some deg) (put peaks pairs t pts c)) with (put peaks pairs t pts c1).
  assert (XY : ransac_xy o (put peaks pairs t pts c1) ctol = ransac_xy o c1 ctol).
  { unfold ransac_xy. rewrite (candidates_aligned o c1 peaks pairs t pts ctol Hpr Hal Hl). reflexivity. }
  rewrite XY. destruct (ransac_xy o c1 ctol) as [[x y]|ex]; [|split; [reflexivity|apply PR; reflexivity]].
  destruct (Nat.leb (List.length (np_unique x)) deg); [split; [reflexivity|apply PR; reflexivity]|].
  change (c_rp (put peaks pairs t pts c1)) with (c_rp c1).
  destruct (r_sample (c_rp c1)) as [size|]; [|split; [reflexivity|apply PR; reflexivity]].
  assert (SU : ransac_setup o (put peaks pairs t pts c1) x y deg size tries coeff brute = ransac_setup o c1 x y deg size tries coeff brute).
  { unfold ransac_setup.
    assert (MS : make_spline o (c_ht (put peaks pairs t pts c1)) (r_hweight (c_rp c1)) = make_spline o (c_ht c1) (r_hweight (c_rp c1))).
    { change (c_ht (put peaks pairs t pts c1)) with t. change (c_ht c1) with (c_ht c). destruct Ht as (p & _ & ->). reflexivity. }
    change (c_rp (put peaks pairs t pts c1)) with (c_rp c1). rewrite MS.
    assert (LP : List.length (c_peaks (put peaks pairs t pts c1)) = List.length (c_peaks c1)).
    { change (List.length peaks = List.length (c_peaks c)). destruct Hpk as (a & b & -> & -> & P).
      rewrite !map_length. symmetry. apply Permutation_length. exact P. }
    rewrite LP. reflexivity. }
  rewrite SU.
  set (c2 := if brute || Nat.leb (List.length (np_unique x)) size then set_sample (List.length (np_unique x)) c1 else c1).
  assert (C2 : (if brute || Nat.leb (List.length (np_unique x)) size
     then set_sample (List.length (np_unique x)) (put peaks pairs t pts c1) else put peaks pairs t pts c1) = put peaks pairs t pts c2).
  { unfold c2. destruct (brute || _); reflexivity. }
  rewrite C2.
  assert (F2 : c_peaks c2 = c_peaks c /\ c_pairs c2 = c_pairs c /\ c_ht c2 = c_ht c /\ c_points c2 = c_points c).
  { unfold c2. destruct (brute || _); auto. }
  destruct F2 as (F1 & F2 & F3 & F4). clearbody c2.
  destruct (ransac_setup o c1 x y deg size tries coeff brute) as [[[f samples] s0]|ex]; [|split; [reflexivity|apply PR; auto]].
  destruct (run_samples o fuel f s0 samples) as [s|s ex|s]; [| |exact I];
    (split; [reflexivity|]; apply (PR (set_c_matlas (s_ma s) (set_c_mpeaks (s_mp s) c2))); auto).
Qed.

(** What fit uses of the calibrator does not depend on the order of the peaks. *)
Lemma fit_aligned o fuel (c d : calib xr) fa :
  (forall l, is_argsort l (o_argsort o l)) -> reordered c d -> aligned (c_pairs c) (c_pairs d) ->
  r_linear (c_rp c) = Some true ->
  match fit o fuel c fa, fit o fuel d fa with
  | Some (c', r), Some (d', s) => r = s /\ reordered c' d'
  | None, None => True
  | _, _ => False
  end.
Proof.
  intros Ha Hr Hal Hl. unfold fit.
  assert (M : match (match fit_begin c fa with
        | (c1, Raise e) => Some (c1, Raise e)
        | (c1, Ok _) =>
            match fit_prepare o c1 fa with
            | (c2, Raise e) => Some (c2, Raise e)
            | (c2, Ok _) =>
                match solve_ransac o fuel c2 (degree_used fa) (fa_tries fa) (c_coeff c2) (fa_ctol fa) (fa_brute fa) with
                | None => None
                | Some (c3, Raise e) => Some (c3, Raise e)
                | Some (c3, Ok r) => Some (fit_end c3 r)
                end
            end
        end), (match fit_begin d fa with
        | (c1, Raise e) => Some (c1, Raise e)
        | (c1, Ok _) =>
            match fit_prepare o c1 fa with
            | (c2, Raise e) => Some (c2, Raise e)
            | (c2, Ok _) =>
                match solve_ransac o fuel c2 (degree_used fa) (fa_tries fa) (c_coeff c2) (fa_ctol fa) (fa_brute fa) with
                | None => None
                | Some (c3, Raise e) => Some (c3, Raise e)
                | Some (c3, Ok r) => Some (fit_end c3 r)
                end
            end
        end) with
     | Some (c', r), Some (d', s) => r = s /\ reordered c' d' | None, None => True | _, _ => False end).
  2:{ destruct (fa_coeff fa) as [[|]|]; [split; auto|exact M|exact M]. }
  destruct Hr as (peaks & pairs & t & pts & Hpk & Hpr & Ht & Hpt & ->).
  change (aligned (c_pairs c) pairs) in Hal. fold (put peaks pairs t pts c).
  unfold fit_begin. destruct (fa_type fa) as [k|].
  2:{ split; [reflexivity|]. exists peaks, pairs, t, pts. cbn. auto. }
  set (c1 := set_c_kind (Some k) (set_c_coeff (fa_coeff fa) (set_c_deg (Some (degree_used fa)) c))).
  change (set_c_kind (Some k) (set_c_coeff (fa_coeff fa) (set_c_deg (Some (degree_used fa)) (put peaks pairs t pts c))))
    with (put peaks pairs t pts c1).
  unfold fit_prepare. change (c_atlas (put peaks pairs t pts c1)) with (c_atlas c1).
  change (c_rp (put peaks pairs t pts c1)) with (c_rp c1).
  assert (R1 : reordered c1 (put peaks pairs t pts c1)) by (exists peaks, pairs, t, pts; cbn; auto).
  destruct (c_atlas c1) as [at_|] eqn:Eat; [|split; auto]. destruct (r_sample (c_rp c1)) as [size|]; [|split; auto].
  cbv zeta. set (c2 := set_sample (adjusted_size fa (atlas_len at_) size) c1).
  change (set_sample (adjusted_size fa (atlas_len at_) size) (put peaks pairs t pts c1)) with (put peaks pairs t pts c2).
  assert (FH : snd (fit_hough (o_argsort o) c2) = snd (fit_hough (o_argsort o) (put peaks pairs t pts c2)) /\
    reordered (fst (fit_hough (o_argsort o) c2)) (fst (fit_hough (o_argsort o) (put peaks pairs t pts c2)))).
  { assert (T := transform_perm (o_argsort o) c2 peaks pairs t pts false Ha Hpk Hpr Ht Hpt).
    unfold fit_hough. change (c_lines (put peaks pairs t pts c2)) with (c_lines c2).
    change (c_points (put peaks pairs t pts c2)) with pts.
    assert (R2 : reordered c2 (put peaks pairs t pts c2)) by (exists peaks, pairs, t, pts; cbn; auto).
    destruct (c_lines c2); [|exact T].
    destruct Hpt as [E|(p & q & E & -> & _)].
    - change (c_points c2) with (c_points c). destruct (c_points c) as [p0|], pts as [q0|]; try discriminate E;
        [split; [reflexivity|exact R2]|exact T].
    - change (c_points c2) with (c_points c). rewrite E. split; [reflexivity|exact R2]. }
  assert (AP : aligned (c_pairs (fst (fit_hough (o_argsort o) c2))) (c_pairs (fst (fit_hough (o_argsort o) (put peaks pairs t pts c2)))) /\
     c_rp (fst (fit_hough (o_argsort o) c2)) = c_rp c2).
  { unfold fit_hough. split.
    - assert (X : forall x : calib xr, c_pairs (fst (match c_lines x, c_points x with
        | Some _, Some _ => (x, Ok tt) | _, _ => do_hough_transform (o_argsort o) x false end)) = c_pairs x).
      { intros x. destruct (c_lines x); [destruct (c_points x); [reflexivity|]|]; apply transform_pairs. }
      rewrite !X. exact Hal.
    - assert (RP : forall x : calib xr, c_rp (fst (do_hough_transform (o_argsort o) x false)) = c_rp x).
      { clear. intros x. unfold do_hough_transform. destruct (c_pairs x) eqn:E; [reflexivity| |].
        - destruct (set_constraints _ _ _ _ _) as [t1 [[]|]]; reflexivity.
        - destruct (set_constraints _ _ _ _ _) as [t1 [[]|]]; [|reflexivity]. cbv zeta.
          match goal with |- context[let (t2, r2) := ?z in _] => destruct z as [t2 [[]|]] end; [|reflexivity].
          match goal with |- context[let (t2, r2) := ?z in _] => destruct z as [t3 [[]|]] end; reflexivity. }
      destruct (c_lines c2); [destruct (c_points c2); [reflexivity|]|]; apply RP. }
  destruct AP as [AP RP].
  destruct (fit_hough (o_argsort o) c2) as [c3 r3]. destruct (fit_hough (o_argsort o) (put peaks pairs t pts c2)) as [d3 s3].
  cbn [fst snd] in FH, AP, RP. destruct FH as [<- R3]. destruct r3 as [[]|ex]; [|split; auto].
  assert (L3 : r_linear (c_rp c3) = Some true) by (rewrite RP; exact Hl).
  clear - R3 AP L3. destruct R3 as (peaks & pairs & t & pts & Hpk & Hpr & Ht & Hpt & ->).
  change (aligned (c_pairs c3) pairs) in AP. fold (put peaks pairs t pts c3).
  change (c_rp (put peaks pairs t pts c3)) with (c_rp c3).
  destruct (r_matches (c_rp c3)) as [m|]; [|split; [reflexivity|exists peaks, pairs, t, pts; auto]].
  assert (LP : List.length peaks = List.length (c_peaks c3)).
  { destruct Hpk as (a & b & -> & -> & P). rewrite !map_length. symmetry. apply Permutation_length. exact P. }
  change (c_peaks (put peaks pairs t pts c3)) with peaks. rewrite LP.
  set (m' := adjusted_matches (atlas_len at_) (List.length (c_peaks c3)) m).
  change (set_matches m' (put peaks pairs t pts c3)) with (put peaks pairs t pts (set_matches m' c3)).
  set (c4 := set_matches m' c3).
  assert (S := solve_aligned o fuel c4 peaks pairs t pts (degree_used fa) (fa_tries fa) (c_coeff c4) (fa_ctol fa) (fa_brute fa)
     Hpk Hpr Ht Hpt AP L3).
  change (c_coeff (put peaks pairs t pts c4)) with (c_coeff c4).
  destruct (solve_ransac o fuel c4 _ _ _ _ _) as [[c5 r5]|], (solve_ransac o fuel (put peaks pairs t pts c4) _ _ _ _ _) as [[d5 s5]|];
    try contradiction; [|exact I].
  destruct S as [<- R5]. destruct r5 as [r5|ex]; [|split; auto].
  clear - R5. destruct R5 as (peaks & pairs & t & pts & Hpk & Hpr & Ht & Hpt & ->).
  fold (put peaks pairs t pts c5). unfold fit_end. change (c_atlas (put peaks pairs t pts c5)) with (c_atlas c5).
  assert (LP : List.length peaks = List.length (c_peaks c5)).
  { destruct Hpk as (a & b & -> & -> & P). rewrite !map_length. symmetry. apply Permutation_length. exact P. }
  change (c_peaks (put peaks pairs t pts c5)) with peaks. rewrite LP.
  assert (R5 : reordered c5 (put peaks pairs t pts c5)) by (exists peaks, pairs, t, pts; auto).
  destruct (c_atlas c5) as [at_|]; [|split; auto].
  destruct (utilisation (rr_inl r5) (List.length (c_peaks c5))) as [pu|]; [|split; auto].
  destruct (utilisation (rr_inl r5) (atlas_len at_)) as [au|]; [|split; auto].
  destruct (rr_p r5) as [co|]; [|split; auto].
  cbv zeta. split; [reflexivity|]. exists peaks, pairs, t, pts. cbn. auto.
Qed.

(** Giving the peaks in another order changes nothing that fit returns: the same value
    or the same exception, and an equally long search, after any history of calls, for
    any degree, any number of tries and any random choices. *)
Lemma fit_peak_order_main :
  forall (e : env xr) (o : oracle xr) (fuel : nat) (a b : list R) (spectrum : option (list xr))
      (h : list (cal_op xr)) (fa : fit_args xr),
    (forall l, is_argsort l (e_argsort e l)) -> (forall l, is_argsort l (o_argsort o l)) ->
    pointwise (e_hull e) -> Permutation a b ->
    match calib_init (e_hull e) (map Fin a) spectrum, calib_init (e_hull e) (map Fin b) spectrum with
    | Ok c, Ok d =>
        (forall h1 h2, h = (h1 ++ h2)%list -> finite_atlas (cal_run e c h1)) ->
        r_linear (c_rp (cal_run e c h)) = Some true ->
        match fit o fuel (cal_run e c h) fa, fit o fuel (cal_run e d h) fa with
        | Some (c', r), Some (d', s) => r = s /\ reordered c' d'
        | None, None => True
        | _, _ => False
        end
    | Raise x, Raise y => x = y
    | _, _ => False
    end.
Proof.
  intros e o fuel a b sp h fa Ha Ho Hh P.
  assert (X := peaks_order_main e a b sp [] Ha Hh P).
  assert (Y := init_pairs (e_hull e) (map Fin a) sp). assert (Z := init_pairs (e_hull e) (map Fin b) sp).
  destruct (calib_init (e_hull e) (map Fin a) sp) as [c|x], (calib_init (e_hull e) (map Fin b) sp) as [d|y];
    try contradiction; [|exact X].
  intros Hf Hl.
  destruct X as [_ R0].
  { intros h1 h2 E. symmetry in E. apply app_eq_nil in E. destruct E as [-> _]. apply (Hf [] h eq_refl). }
  change (reordered c d) in R0.
  apply fit_aligned; auto.
  - apply run_reordered; auto.
  - apply run_aligned; auto. rewrite (Y c eq_refl), (Z d eq_refl). exact I.
Qed.

(* ------------------------------------------------------------------ *)
(** ** Whole sessions *)

Lemma edit_reordered (c d : calib xr) op : reordered c d ->
  snd (edit_step c op) = snd (edit_step d op) /\ reordered (fst (edit_step c op)) (fst (edit_step d op)).
Proof.
  intros (peaks & pairs & t & pts & Hpk & Hpr & Ht & Hpt & ->). fold (put peaks pairs t pts c).
  assert (R : forall c', c_peaks c' = c_peaks c -> c_pairs c' = c_pairs c -> c_ht c' = c_ht c -> c_points c' = c_points c ->
     reordered c' (put peaks pairs t pts c')).
  { intros c' E1 E2 E3 E4. exists peaks, pairs, t, pts. rewrite E1, E2, E3, E4. auto. }
  assert (R0 := R c eq_refl eq_refl eq_refl eq_refl).
  assert (R1 := fun x y => R (set_c_matlas x (set_c_mpeaks y c)) eq_refl eq_refl eq_refl eq_refl).
  destruct op as [p w|k]; cbn [edit_step].
  - unfold add_pix_wave_pair. change (c_mpeaks (put peaks pairs t pts c)) with (c_mpeaks c).
    change (c_matlas (put peaks pairs t pts c)) with (c_matlas c).
    destruct (c_mpeaks c) as [l|l|]; try solve [split; [reflexivity|exact R0]].
    destruct (np_where _ _) as [|k ks]; try solve [split; [reflexivity|exact R0]].
    destruct (c_matlas c) as [m|m|]; try solve [split; [reflexivity|exact R0]];
      (destruct (Nat.ltb _ _); (split; [reflexivity|])); solve [exact R0|apply R1].
  - unfold remove_pix_wave_pair. change (c_mpeaks (put peaks pairs t pts c)) with (c_mpeaks c).
    change (c_matlas (put peaks pairs t pts c)) with (c_matlas c).
    destruct (c_mpeaks c); try solve [split; [reflexivity|exact R0]];
      (destruct (c_matlas c); try solve [split; [reflexivity|exact R0]]);
      (match goal with |- context [match ?X with Ok _ => _ | Raise _ => _ end] => destruct X as [[p' w']|ex] end;
       (split; [reflexivity|])); solve [exact R0|apply R1].
Qed.

Lemma refit_reordered o (c d : calib xr) a : reordered c d ->
  snd (manual_refit o c a) = snd (manual_refit o d a) /\ reordered (fst (manual_refit o c a)) (fst (manual_refit o d a)).
Proof.
  intros (peaks & pairs & t & pts & Hpk & Hpr & Ht & Hpt & ->). fold (put peaks pairs t pts c).
  assert (R : forall c', c_peaks c' = c_peaks c -> c_pairs c' = c_pairs c -> c_ht c' = c_ht c -> c_points c' = c_points c ->
     reordered c' (put peaks pairs t pts c')).
  { intros c' E1 E2 E3 E4. exists peaks, pairs, t, pts. rewrite E1, E2, E3, E4. auto. }
  unfold manual_refit. change (c_mpeaks (put peaks pairs t pts c)) with (c_mpeaks c).
  change (c_matlas (put peaks pairs t pts c)) with (c_matlas c). change (c_kind (put peaks pairs t pts c)) with (c_kind c).
  change (refit_start (put peaks pairs t pts c) a) with (refit_start c a).
  destruct (refit_start c a) as [[x0 dg]|ex]; [|split; [reflexivity|apply R; reflexivity]]. cbv zeta.
  assert (R0 := R c eq_refl eq_refl eq_refl eq_refl).
  assert (R1 := fun x y z => R (set_c_matlas x (set_c_mpeaks y (set_c_coeff z c))) eq_refl eq_refl eq_refl eq_refl).
  assert (R2 := fun v w x y z => R (set_c_rms v (set_c_residuals w (set_c_matlas x (set_c_mpeaks y (set_c_coeff z c)))))
    eq_refl eq_refl eq_refl eq_refl).
  destruct (match rf_peaks a with MNone => c_mpeaks c | m => m end) as [mp|mp|]; try solve [split; [reflexivity|exact R0]];
    (destruct (match rf_atlas a with MNone => c_matlas c | m => m end) as [ma|ma|]; try solve [split; [reflexivity|exact R0]]);
    (destruct (negb _); try solve [split; [reflexivity|exact R0]]);
    (destruct (robust_polyfit _ _ _ _ _) as [co|ex]; try solve [split; [reflexivity|exact R0]]);
    (destruct (polyvals_of _ _ _) as [vs|ex]; (split; [reflexivity|])); solve [apply R2|apply R1].
Qed.

Lemma session_aligned (e : env xr) : forall ks c d,
  (forall l, is_argsort l (e_argsort e l)) -> pointwise (e_hull e) -> Forall order_free ks ->
  reordered c d -> aligned (c_pairs c) (c_pairs d) ->
  (forall ks1 ks2 c', ks = (ks1 ++ ks2)%list -> session_run e c ks1 = Some c' ->
     finite_atlas c' /\ r_linear (c_rp c') = Some true) ->
  match session_run e c ks, session_run e d ks with
  | Some c', Some d' => reordered c' d' /\ aligned (c_pairs c') (c_pairs d')
  | None, None => True
  | _, _ => False
  end.
Proof.
  induction ks as [|k ks IH]; intros c d Ha Hh Hk Hr Hal Hf; [split; auto|].
  inversion Hk as [|? ? K1 K2]; subst. cbn [session_run].
  assert (L : r_linear (c_rp c) = Some true) by (destruct (Hf [] (k :: ks) c eq_refl eq_refl); auto).
  assert (S : match call_step e c k, call_step e d k with
    | Some (c', r), Some (d', s) => r = s /\ reordered c' d' /\ aligned (c_pairs c') (c_pairs d')
    | None, None => True | _, _ => False end).
  { destruct k as [op|o fuel a|o mini a|op|o a|a]; cbn [call_step].
    - assert (F1 : finite_atlas (fst (cal_step e c op))).
      { destruct (cal_step e c op) as [c' r] eqn:E. apply (Hf [Configure op] ks c' eq_refl). cbn [session_run call_step].
        rewrite E. reflexivity. }
      destruct (step_reordered e op c d Ha Hh Hr F1) as [E1 E2].
      assert (E3 := step_aligned e op c d Hh Hr Hal F1).
      destruct (cal_step e c op), (cal_step e d op). auto.
    - assert (X := fit_aligned o fuel c d a K1 Hr Hal L).
      destruct (fit o fuel c a) as [[c' r]|] eqn:E1, (fit o fuel d a) as [[d' s]|] eqn:E2; try contradiction; [|exact I].
      destruct X as [<- X]. split; [reflexivity|]. split; [exact X|].
      apply fit_settings in E1, E2.
      assert (P1 : c_pairs c' = c_pairs c) by apply E1. assert (P2 : c_pairs d' = c_pairs d) by apply E2.
      rewrite P1, P2. exact Hal.
    - destruct K1.
    - assert (X := edit_reordered c d op Hr).
      assert (P1 : c_pairs (fst (edit_step c op)) = c_pairs c) by apply edit_settings.
      assert (P2 : c_pairs (fst (edit_step d op)) = c_pairs d) by apply edit_settings.
      destruct (edit_step c op), (edit_step d op). cbn [fst snd] in *. rewrite P1, P2. tauto.
    - assert (X := refit_reordered o c d a Hr).
      assert (P1 : c_pairs (fst (manual_refit o c a)) = c_pairs c) by apply refit_settings.
      assert (P2 : c_pairs (fst (manual_refit o d a)) = c_pairs d) by apply refit_settings.
      destruct (manual_refit o c a), (manual_refit o d a). cbn [fst snd] in *. rewrite P1, P2. destruct X as [<- X]. auto.
    - destruct K1. }
  destruct (call_step e c k) as [[c' r]|] eqn:E1, (call_step e d k) as [[d' s]|] eqn:E2; try contradiction; [|exact I].
  destruct S as (_ & S1 & S2). apply IH; auto.
  intros ks1 ks2 c'' E Hs. apply (Hf (k :: ks1) ks2 c''); [cbn; congruence|]. cbn [session_run]. rewrite E1. exact Hs.
Qed.

(** The same for any session of configuring calls, fits, edits of the matched pairs and
    refits: the calibrators then agree in everything but the order of peaks, pairs and
    Hough points, and one more fit returns the same. *)
Lemma session_peak_order_main :
  forall (e : env xr) (a b : list R) (spectrum : option (list xr)) (ks : list (call xr)),
    (forall l, is_argsort l (e_argsort e l)) -> pointwise (e_hull e) -> Permutation a b ->
    Forall order_free ks ->
    match calib_init (e_hull e) (map Fin a) spectrum, calib_init (e_hull e) (map Fin b) spectrum with
    | Ok c, Ok d =>
        (forall ks1 ks2 c', ks = (ks1 ++ ks2)%list -> session_run e c ks1 = Some c' ->
           finite_atlas c' /\ r_linear (c_rp c') = Some true) ->
        match session_run e c ks, session_run e d ks with
        | Some c', Some d' =>
            reordered c' d' /\
            forall (o : oracle xr) fuel fa, (forall l, is_argsort l (o_argsort o l)) ->
              option_map snd (fit o fuel c' fa) = option_map snd (fit o fuel d' fa)
        | None, None => True
        | _, _ => False
        end
    | Raise x, Raise y => x = y
    | _, _ => False
    end.
Proof.
  intros e a b sp ks Ha Hh P Hk.
  assert (X := peaks_order_main e a b sp [] Ha Hh P).
  assert (Y := init_pairs (e_hull e) (map Fin a) sp). assert (Z := init_pairs (e_hull e) (map Fin b) sp).
  destruct (calib_init (e_hull e) (map Fin a) sp) as [c|x], (calib_init (e_hull e) (map Fin b) sp) as [d|y];
    try contradiction; [|exact X].
  intros Hf. destruct X as [_ R0].
  { intros h1 h2 E. symmetry in E. apply app_eq_nil in E. destruct E as [-> _]. apply (Hf [] ks c eq_refl eq_refl). }
  change (reordered c d) in R0.
  assert (S := session_aligned e ks c d Ha Hh Hk R0). rewrite (Y c eq_refl), (Z d eq_refl) in S. specialize (S I Hf).
  destruct (session_run e c ks) as [c'|] eqn:E1, (session_run e d ks) as [d'|]; try contradiction; [|exact I].
  destruct S as [S1 S2]. split; [exact S1|]. intros o fuel fa Ho.
  assert (L : r_linear (c_rp c') = Some true) by (apply (Hf ks [] c'); [rewrite app_nil_r; reflexivity|exact E1]).
  assert (W := fit_aligned o fuel c' d' fa Ho S1 S2 L).
  destruct (fit o fuel c' fa) as [[? ?]|], (fit o fuel d' fa) as [[? ?]|]; try contradiction; [|reflexivity].
  destruct W as [<- _]. reflexivity.
Qed.

(* ------------------------------------------------------------------ *)
(** ** Examples, and the cases where an order does matter *)

Definition ordered_session (linear : bool) (top : nat) (l : list f64) : list (cal_op f64) :=
  [OGeneral None (Some [fz 0; fz 150; fz 300; fz 450; fz 600]) None;
   OHough (mkHA (Some (fz 9)) (Some 5%nat) (Some 5%nat) None None (Some (fz 100)) (Some (fz 20)));
   ORansac (mkRA (Some 2%nat) (Some top) (Some linear) None (Some (fz 5)) None None (Some (fz 1)) None None);
   OAddUser (user_lines l) (fz 10) false].

(** In a session with five peaks, given in order or in reverse, fit returns all five. *)
Example fit_peak_order_example_main :
  match fit o_ex 60 (after ex_peaks (ordered_session true 5 ex_waves)) a_session,
        fit o_ex 60 (after (rev ex_peaks) (ordered_session true 5 ex_waves)) a_session with
  | Some (c', Ok v), Some (d', Ok w) => v = w /\ fv_mpeaks v = MList ex_peaks /\ c_peaks c' <> c_peaks d'
  | _, _ => False
  end.
Proof.
  match goal with |- match ?x with _ => _ end => let y := eval vm_compute in x in change x with y end.
  match goal with |- context[fit ?a ?b ?c ?d] => let y := eval vm_compute in (fit a b c d) in change (fit a b c d) with y end.
  split; [reflexivity|]. split; [vm_compute; reflexivity|]. vm_compute. discriminate.
Qed.

(** With linear=False the order of the peaks does matter: the i-th peak is compared with
    the i-th line only, so that peaks given in reverse find no candidate and fit fails. *)
Lemma fit_peak_order_poly_refuted_main :
  exists (peaks lines : list f64) (fa : fit_args f64) (o : oracle f64) (fuel : nat),
    match fit o fuel (after peaks (ordered_session false 5 lines)) fa with
    | Some (_, Ok v) => fv_mpeaks v = MList peaks
    | _ => False
    end /\
    match fit o fuel (after (rev peaks) (ordered_session false 5 lines)) fa with
    | Some (_, Raise e) => e = AssertionError
    | _ => False
    end.
Proof.
  exists ex_peaks, ex_waves, (mkFA 3 1 (Some [fz 3000; fz 10]) (fz 5) (Some FitPoly) (fz 50) false), o_ex, 60%nat.
  split; vm_compute; reflexivity.
Qed.

(** The order of the atlas lines matters even with linear=True: with top_n_candidate = 1
    the same six lines in reverse order make fit miss two of the five peaks. *)
Lemma fit_line_order_refuted_main :
  exists (peaks lines : list f64) (fa : fit_args f64) (o : oracle f64) (fuel : nat),
    match fit o fuel (after peaks (ordered_session true 1 lines)) fa with
    | Some (_, Ok v) => List.length (mseq_vals (fv_mpeaks v)) = 5%nat
    | _ => False
    end /\
    match fit o fuel (after peaks (ordered_session true 1 (rev lines))) fa with
    | Some (_, Ok v) => List.length (mseq_vals (fv_mpeaks v)) = 3%nat
    | _ => False
    end.
Proof.
  exists ex_peaks, [fz 4002; fz 4020; fz 4897; fz 6101; fz 7302; fz 7999], a_session, o_ex, 60%nat.
  split; vm_compute; reflexivity.
Qed.

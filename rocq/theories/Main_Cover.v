(** * Main_Cover: no admissible pair is lost, and data on a polynomial are recovered. *)

From Coq Require Import ZArith Bool List String Lia Reals Lra Sorted Permutation.
From Verif Require Import Num F64 XReal Py Np NpFacts ArgsortFacts Util Models Atlas Hough SpecHough HoughFacts PolyEval SpecPoly PolyFacts Main_Models Calib SpecCalib Main_Calib Cand SpecCand CandFacts Ransac SpecRansac RansacFacts SampleFacts SpecRecover RecoverFacts PolyIdent Fit SpecFit FitFacts Main_Fit Main_Recover SpecVote Main_Cand Main_Vote SpecRegion Main_Region SpecCover.
Import ListNotations.
Local Open Scope num_scope.

(** C139: every (peak, line) pair through which the limits let a line with one of the
    tried slopes is among the candidates, if candidate_tolerance covers half a bin. *)
Lemma admissible_pairs_kept_main :
  forall argsort (c c' : calib xr) pairs n xb yb lo_s hi_s lo_i hi_i r rt lt tol,
    (forall l, is_argsort l (argsort l)) -> hough_ready c pairs n xb yb lo_s hi_s lo_i hi_i ->
    h_rt (c_hp c) = Some rt -> h_lt (c_hp c) = Some lt ->
    do_hough_transform argsort c false = (c', r) ->
    exists cs, candidates_linear c' (Fin tol) = Ok cs /\
      forall p w, In (p, w) pairs -> line_through lo_s hi_s lo_i hi_i n p w ->
        (half_bin lo_s hi_s xb * Rabs p + half_bin lo_i hi_i yb <= tol)%R ->
        exists cand g, In cand cs /\ In (Fin p, Fin w, g) cand.
Proof.
  intros argsort c c' pairs n xb yb lo_s hi_s lo_i hi_i r rt lt tol Ha Hr Hrt Hlt H.
  destruct (do_hough_ready _ _ _ _ _ _ _ _ _ _ _ _ Ha Hr H)
    as (Er & Epairs & Ehp & _ & a & b & d & e & hist & bins & D1 & D2 & U & Hh & HL & HR & HC & HB & HP & HS).
  destruct Hr as (Hp & Hne & Hn & Hn1 & Hx & Hx1 & Hy & Hy1 & H1 & H2 & H3 & H4 & Hs & Hi).
  set (pts := filter _ _) in *.
  assert (Bnd : forall p, In p pts -> (lo_s <= fst p <= hi_s)%R /\ (lo_i <= snd p <= hi_i)%R).
  { intros p Hin. apply (Main_Hough.hough_points_sound_main pairs n lo_s hi_s lo_i hi_i p Hs Hn1) in Hin. tauto. }
  assert (W1 := data_range_width _ _ _ lo_s hi_s D1).
  assert (W2 := data_range_width _ _ _ lo_i hi_i D2).
  specialize (W1 ltac:(intros x Hin; apply in_map_iff in Hin; destruct Hin as (p & <- & Hin); apply Bnd; auto)).
  specialize (W2 ltac:(intros x Hin; apply in_map_iff in Hin; destruct Hin as (p & <- & Hin); apply Bnd; auto)).
  assert (V : forall l, In l pts <-> admitted lo_s hi_s lo_i hi_i n pairs l) by (intros l; apply votes_admitted).
  clearbody pts.
  unfold candidates_linear. rewrite HB, Ehp, Hrt, Hlt, Epairs, Hp.
  set (lines := map (fun q => (Fin (centre a b xb (fst q)), Fin (centre d e yb (snd q)))) bins).
  assert (E : match Some lines with
    | None => Raise TypeError
    | Some [] => Ok []
    | Some _ => Ok (map (line_candidates rt lt (Fin tol) (map FinP pairs)) lines)
    end = Ok (map (line_candidates rt lt (Fin tol) (map FinP pairs)) lines)) by (destruct lines; reflexivity).
  exists (map (line_candidates rt lt (Fin tol) (map FinP pairs)) lines). split; [destruct lines; reflexivity|]. clear E.
  intros p w Hin (k & Hk & Hki) Htol.
  set (s := slope_at lo_s hi_s n k) in *. set (i := (w - s * p)%R) in *.
  assert (Hv : In (s, i) pts).
  { apply V. exists k, p, w. cbn [fst snd]. split; [exact Hk|]. split; [exact Hin|]. split; [reflexivity|].
    split; [unfold i; ring|exact Hki]. }
  destruct (U _ Hv) as [(i1 & [Hi1 B1] & _) (j1 & [Hj1 B2] & _)]. cbn [fst snd] in B1, B2.
  assert (C1 : (Rabs (centre a b xb i1 - s) <= half_bin lo_s hi_s xb)%R) by (apply in_bin_centre; auto; lra).
  assert (C2 : (Rabs (centre d e yb j1 - i) <= half_bin lo_i hi_i yb)%R) by (apply in_bin_centre; auto; lra).
  exists (line_candidates rt lt (Fin tol) (map FinP pairs) (Fin (centre a b xb i1), Fin (centre d e yb j1))). eexists.
  split.
  { apply in_map. unfold lines. apply in_map_iff. exists (i1, j1). split; [reflexivity|].
    apply (Permutation_in _ (Permutation_sym HP)). apply in_prod; apply in_seq; lia. }
  unfold line_candidates. apply in_map_iff. exists (Fin p, Fin w). cbn [fst snd]. split; [reflexivity|].
  apply filter_In. split; [apply in_map_iff; exists (p, w); split; [reflexivity|exact Hin]|].
  cbn [fst snd]. rewrite near_Fin. apply Rleb_yes.
  replace (centre a b xb i1 * p + centre d e yb j1 + - w)%R with
    ((centre a b xb i1 - s) * p + (centre d e yb j1 - i))%R by (unfold i; ring).
  eapply Rle_trans; [apply Rabs_triang|]. rewrite Rabs_mult.
  assert (Rabs (centre a b xb i1 - s) * Rabs p <= half_bin lo_s hi_s xb * Rabs p)%R
    by (apply Rmult_le_compat_r; [apply Rabs_pos|exact C1]).
  lra.
Qed.

(** One slope, intercepts from 95 to 105, 10 by 10 bins: the pair (1, 110) is kept. *)
Definition kept_c : calib xr :=
  mkCal (map Fin ex_us) None (Some (mkAtlas (map ex_line ex_lines) (Fin 0) (Fin 1000) (Fin 0))) None
    (mkG (Some (Fin 3)) (Some (map Fin [0; 1; 2; 3; 4]%R)) None false false)
    (mkH (Some 1%Z) (Some 10%nat) (Some 10%nat) None None (Some (Fin 5)) (Some (Fin 5)) (Some (Fin 95)) (Some (Fin 105))
       (Some (Fin 10)) (Some (Fin 10)))
    (mkR (Some 2%nat) (Some 1%nat) (Some true) (Some false) (Some (Fin 1)) (Some false) (Some (Fin 1))
       (Some (Fin 0)) (Some (Fin 0)) (Some (Fin 0)))
    None false (PArr (map FinP reg_pairs)) (hough_init (A := xr)) None None (MList []) (MList [])
    None None None None None None None None.
Example admissible_pairs_kept_example_main :
  hough_ready kept_c reg_pairs 1 10 10 10 10 95 105 /\ In (1, 110)%R reg_pairs /\
  line_through 10 10 95 105 1 1 110 /\ (half_bin 10 10 10 * Rabs 1 + half_bin 95 105 10 <= 1)%R.
Proof.
  split; [unfold hough_ready; cbn; repeat split; try lra; try lia; discriminate|].
  split; [do 4 right; left; reflexivity|]. split.
  - exists 0%nat. split; [lia|]. unfold slope_at. cbn [Nat.eqb]. lra.
  - unfold half_bin. rewrite (Rmax_right (10 - 10) 1), (Rmax_left (105 - 95) 1) by lra. cbn [INR].
    rewrite Rabs_pos_eq by lra. lra.
Qed.

(** The lines after a transform are in reach. *)
Lemma transform_reach argsort (c c' : calib xr) pairs n xb yb lo_s hi_s lo_i hi_i r lines :
  (forall l, is_argsort l (argsort l)) -> hough_ready c pairs n xb yb lo_s hi_s lo_i hi_i ->
  do_hough_transform argsort c false = (c', r) -> c_lines c' = Some lines ->
  forall tol p w, near_line lines (Fin tol) (Fin p) (Fin w) -> compatible lo_s hi_s lo_i hi_i n pairs tol p w.
Proof.
  intros Harg Hr Ht Hl tol p w (m & i & Hmi & Hnear).
  destruct (do_hough_ready _ _ _ _ _ _ _ _ _ _ _ _ Harg Hr Ht) as (_ & _ & _ & Hv). cbv zeta in Hv.
  set (votes := filter _ (all_lines lo_s hi_s n pairs)) in *.
  destruct Hv as (_ & ra & rb & rd & re & hist & bins & D1 & D2 & _ & _ & _ & _ & _ & Hlines & Hperm & _).
  destruct Hr as (_ & _ & _ & _ & _ & _ & _ & _ & _ & _ & _ & _ & Ls & Li).
  assert (El : lines = map (fun q => (Fin (centre ra rb xb (fst q)), Fin (centre rd re yb (snd q)))) bins) by congruence.
  rewrite El in Hmi. apply in_map_iff in Hmi. destruct Hmi as ([bi bj] & Eb & Hb). cbn [fst snd] in Eb.
  assert (m = Fin (centre ra rb xb bi)) as -> by congruence. assert (i = Fin (centre rd re yb bj)) as -> by congruence.
  apply (Permutation_in _ Hperm) in Hb. apply in_prod_iff in Hb. destruct Hb as (Hb1 & Hb2). apply in_seq in Hb1, Hb2.
  exists (centre ra rb xb bi), (centre rd re yb bj).
  assert (V : forall l, In l votes <-> admitted lo_s hi_s lo_i hi_i n pairs l) by (intros l; apply votes_admitted).
  split; [|split].
  - apply (centre_reach lo_s hi_s (map fst votes) _ _ _ _ _); auto; [| |lia].
    + intros z. rewrite in_map_iff. split; intros (l & A1 & A2); exists l; split; auto; apply V; auto.
    + intros z Hz. apply in_map_iff in Hz. destruct Hz as (l & <- & Hz). apply V in Hz.
      destruct Hz as (k0 & p1 & w1 & Hk0 & _ & -> & _). apply slope_at_bounds; auto.
  - apply (centre_reach lo_i hi_i (map snd votes) _ _ _ _ _); auto; [| |lia].
    + intros z. rewrite in_map_iff. split; intros (l & A1 & A2); exists l; split; auto; apply V; auto.
    + intros z Hz. apply in_map_iff in Hz. destruct Hz as (l & <- & Hz). apply V in Hz.
      destruct Hz as (k0 & p1 & w1 & _ & _ & _ & _ & B). exact B.
  - rewrite near_Fin in Hnear.
    destruct (Rleb_spec (Rabs (centre ra rb xb bi * p + centre rd re yb bj + - w)%R) tol); [assumption|discriminate].
Qed.

(** When every candidate row lies on the polynomial, exactly one wavelength per peak is
    kept. *)
Lemma common_right argsort (rows : cand xr) top weighted co u :
  (forall l, is_argsort l (argsort l)) -> (1 <= top)%nat ->
  (forall r, In r rows -> exists p, row_x r = Fin p /\ row_y r = Fin (poly co p)) ->
  In (Fin u) (map row_x rows) ->
  common_for argsort rows top weighted (Fin u) = [Fin (poly co u)] /\
  Nat.min top (List.length (np_unique (map row_y (filter (fun r => row_x r ==' Fin u) rows)))) = 1%nat.
Proof.
  intros Harg Ht Hr Hu.
  set (sel := filter (fun r => row_x r ==' Fin u) rows).
  assert (Hsel : forall r, In r sel -> row_y r = Fin (poly co u)).
  { intros r Hin. apply filter_In in Hin. destruct Hin as (Hin & E). destruct (Hr r Hin) as (p & E1 & E2).
    rewrite E1 in E. change (Reqb p u = true) in E. destruct (Reqb_spec p u); congruence. }
  assert (Hne : exists k, map row_y sel = map Fin (repeat (poly co u) (S k))).
  { assert (N : sel <> []).
    { apply in_map_iff in Hu. destruct Hu as (r & E & Hin). intros K.
      assert (K' : In r sel); [|rewrite K in K'; destruct K'].
      apply filter_In. split; [exact Hin|]. rewrite E. change (Reqb u u = true). destruct (Reqb_spec u u); congruence. }
    clearbody sel. destruct sel as [|r0 sel]; [congruence|]. exists (List.length sel). clear N.
    assert (G : forall l, (forall r, In r l -> row_y r = Fin (poly co u)) -> map row_y l = map Fin (repeat (poly co u) (List.length l))).
    { induction l as [|r l IH]; intros Hl; [reflexivity|]. cbn [map List.length repeat]. f_equal; [apply Hl; left; auto|].
      apply IH. intros; apply Hl; right; auto. }
    apply (G (r0 :: sel)). exact Hsel. }
  destruct Hne as (k & Ek).
  assert (Eu : np_unique (map row_y sel) = [Fin (poly co u)]).
  { rewrite Ek. destruct (np_unique_Fin (repeat (poly co u) (S k))) as (vs & -> & S & Hv).
    assert (In (poly co u) vs) by (apply Hv; left; auto).
    assert (Hall : forall v, In v vs -> v = poly co u) by (intros v Hin; apply Hv, repeat_spec in Hin; exact Hin).
    destruct vs as [|v0 [|v1 vs]]; [contradiction| |].
    - rewrite (Hall v0 (or_introl eq_refl)). reflexivity.
    - exfalso. inversion S as [|? ? _ F]; subst. inversion F as [|? ? L _]; subst.
      rewrite (Hall v0), (Hall v1) in L by (cbn; auto). lra. }
  split.
  - unfold common_for. fold sel. rewrite Eu. cbn [List.length]. replace (Nat.min top 1) with 1%nat by lia.
    cbn [map]. set (agg := np_sum _). destruct (Harg [nopp agg]) as (P & _).
    assert (Ea : argsort [nopp agg] = [0%nat]).
    { apply Permutation_sym in P. cbn [List.length seq] in P. apply Permutation_length_1_inv in P. exact P. }
    rewrite Ea. cbn [firstn]. rewrite Ek. cbn [repeat map]. reflexivity.
  - rewrite Eu. cbn [List.length]. lia.
Qed.

Lemma flat_map_one {T U} (f : T -> list U) (g : T -> U) l : (forall x, In x l -> f x = [g x]) -> flat_map f l = map g l.
Proof.
  induction l as [|x l IH]; intros H; [reflexivity|]. cbn [flat_map map]. rewrite (H x (or_introl eq_refl)). cbn [app].
  f_equal. apply IH. intros; apply H; right; auto.
Qed.

Lemma rows_finite (rows : cand xr) co : (forall r, In r rows -> exists p, row_x r = Fin p /\ row_y r = Fin (poly co p)) ->
  exists xs, map row_x rows = map Fin xs.
Proof.
  induction rows as [|r rows IH]; intros H; [exists []; reflexivity|].
  destruct IH as (xs & E); [intros; apply H; right; auto|]. destruct (H r (or_introl eq_refl)) as (p & Ep & _).
  exists (p :: xs). cbn [map]. rewrite Ep, E. reflexivity.
Qed.

Lemma most_common_right argsort (cs : list (cand xr)) top weighted co us :
  (forall l, is_argsort l (argsort l)) -> (1 <= top)%nat ->
  (forall r, In r (List.concat cs) -> exists p, row_x r = Fin p /\ row_y r = Fin (poly co p)) ->
  StronglySorted Rlt us -> (forall u, In u us <-> In (Fin u) (map row_x (List.concat cs))) ->
  most_common_candidates argsort cs top weighted = (map Fin us, map Fin (map (poly co) us)).
Proof.
  intros Harg Ht Hr Su Hu. unfold most_common_candidates. set (rows := List.concat cs) in *. clearbody rows.
  destruct (rows_finite rows co Hr) as (xs & Ex).
  assert (Eu : np_unique (map row_x rows) = map Fin us).
  { rewrite Ex. destruct (np_unique_Fin xs) as (vs & -> & S & Hv). f_equal. apply SS_Rlt_unique; auto.
    intros v. rewrite Hv, Hu, Ex. split; [apply in_map|apply in_Fin]. }
  rewrite Eu.
  assert (K : forall u, In u us -> common_for argsort rows top weighted (Fin u) = [Fin (poly co u)] /\
    Nat.min top (List.length (np_unique (map row_y (filter (fun r => row_x r ==' Fin u) rows)))) = 1%nat).
  { intros u Hin. apply common_right; auto. apply Hu. exact Hin. }
  f_equal.
  - clear Hu Su Eu. induction us as [|u us IH]; [reflexivity|]. cbn [map flat_map fst snd].
    rewrite (proj2 (K u (or_introl eq_refl))). cbn [repeat app]. f_equal. apply IH. intros; apply K; right; auto.
  - clear Hu Su Eu. induction us as [|u us IH]; [reflexivity|]. cbn [map flat_map fst snd].
    rewrite (proj1 (K u (or_introl eq_refl))). cbn [app]. f_equal. apply IH. intros; apply K; right; auto.
Qed.

(** The state in which the search starts. *)
Lemma sound_exact (o : oracle xr) (c : calib xr) (a : fit_args xr) pairs n xb yb lo_s hi_s lo_i hi_i tol size co us :
  (forall l, is_argsort l (o_argsort o l)) ->
  honest_draws o -> spline_not_negative o -> exact_polyfit o (fa_deg a) co -> exact_robust o (fa_deg a) co us ->
  sound_session c a pairs n xb yb lo_s hi_s lo_i hi_i tol size co us ->
  exists c1 c2, fit_begin c a = (c1, Ok tt) /\ fit_prepare o c1 a = (c2, Ok tt) /\
    exact_problem o c2 (fa_ctol a) (fa_deg a) size co us /\
    r_fit_error (c_rp c2) = r_fit_error (c_rp c) /\ c_atlas c2 = c_atlas c.
Proof.
  intros Harg Hdraw Hspl Hpf Hrob Hs.
  destruct (ss_args _ _ _ _ _ _ _ _ _ _ _ _ _ _ Hs) as (A1 & A2 & A3 & A4 & A5).
  destruct (ss_degree _ _ _ _ _ _ _ _ _ _ _ _ _ _ Hs) as (B1 & B2).
  destruct (ss_ready _ _ _ _ _ _ _ _ _ _ _ _ _ _ Hs) as (R1 & R2).
  destruct (ss_widths _ _ _ _ _ _ _ _ _ _ _ _ _ _ Hs) as ((rt & Hrt) & (lt & Hlt)).
  destruct (ss_linear _ _ _ _ _ _ _ _ _ _ _ _ _ _ Hs) as (L1 & L2).
  destruct (ss_top _ _ _ _ _ _ _ _ _ _ _ _ _ _ Hs) as ((top & T1 & T2) & (wt & T3)).
  destruct (ss_tol _ _ _ _ _ _ _ _ _ _ _ _ _ _ Hs) as (t & Q1 & Q2).
  destruct (ss_size _ _ _ _ _ _ _ _ _ _ _ _ _ _ Hs) as (Z1 & Z2 & at_ & Z3 & Z4).
  destruct (ss_matches _ _ _ _ _ _ _ _ _ _ _ _ _ _ Hs) as (m & M1 & M2).
  destruct (ss_weight _ _ _ _ _ _ _ _ _ _ _ _ _ _ Hs) as (hw & W1 & W2).
  destruct (ss_rest _ _ _ _ _ _ _ _ _ _ _ _ _ _ Hs) as (K1 & px & K2).
  destruct (ss_data _ _ _ _ _ _ _ _ _ _ _ _ _ _ Hs) as (D1 & D2).
  pose proof (ss_util _ _ _ _ _ _ _ _ _ _ _ _ _ _ Hs) as (ut & U1 & U2).
  pose proof (ss_right _ _ _ _ _ _ _ _ _ _ _ _ _ _ Hs) as Hright.
  pose proof (ss_wrong _ _ _ _ _ _ _ _ _ _ _ _ _ _ Hs) as Hwrong.
  set (c1 := set_c_kind (Some FitPoly) (set_c_coeff None (set_c_deg (Some (fa_deg a)) c))).
  assert (B : fit_begin c a = (c1, Ok tt)) by (unfold fit_begin, degree_used; rewrite A1, A2; reflexivity).
  set (c1' := set_sample size c1).
  destruct (do_hough_transform (o_argsort o) c1' false) as [c2 r2] eqn:Et.
  assert (RR : hough_ready c1' pairs n xb yb lo_s hi_s lo_i hi_i) by exact R1.
  destruct (do_hough_ready _ _ _ _ _ _ _ _ _ _ _ _ Harg RR Et) as (-> & _ & _ & Hv).
  cbv zeta in Hv.
  destruct Hv as (_ & ra & rb & rd & re & hist & bins & _ & _ & _ & St & _ & _ & _ & Hl & _).
  assert (Fr := fit_hough_frame (o_argsort o) c1'). cbv zeta in Fr.
  assert (Ef : fit_hough (o_argsort o) c1' = (c2, Ok tt)).
  { unfold fit_hough. change (c_lines c1') with (c_lines c). rewrite R2. exact Et. }
  rewrite Ef in Fr. cbn [fst] in Fr. destruct Fr as (((P1 & P2 & P3 & P4 & P5 & P6 & P7 & P8 & P9) & _) & Frp & Fco & Fk & _).
  assert (Em : r_matches (c_rp c2) = Some (Fin m)) by (rewrite Frp; exact M1).
  set (m' := adjusted_matches (atlas_len at_) (List.length (c_peaks c2)) (Fin m)).
  assert (Mm : exists m0, m' = Fin m0 /\ (m0 <= m)%R).
  { unfold m', adjusted_matches. rewrite !nnat_Fin.
    change (Fin (INR (atlas_len at_)) <' Fin m) with (Rltb (INR (atlas_len at_)) m).
    destruct (Rltb_spec (INR (atlas_len at_)) m) as [L|L].
    - change (Fin (INR (List.length (c_peaks c2))) <' Fin (INR (atlas_len at_))) with (Rltb (INR (List.length (c_peaks c2))) (INR (atlas_len at_))).
      destruct (Rltb_spec (INR (List.length (c_peaks c2))) (INR (atlas_len at_))); eexists; (split; [reflexivity|lra]).
    - change (Fin (INR (List.length (c_peaks c2))) <' Fin m) with (Rltb (INR (List.length (c_peaks c2))) m).
      destruct (Rltb_spec (INR (List.length (c_peaks c2))) m); eexists; (split; [reflexivity|lra]). }
  destruct Mm as (m0 & Em0 & Lm0).
  set (c2' := set_matches m' c2).
  assert (P : fit_prepare o c1 a = (c2', Ok tt)).
  { unfold fit_prepare. change (c_atlas c1) with (c_atlas c). change (r_sample (c_rp c1)) with (r_sample (c_rp c)).
    rewrite Z3, Z1. assert (Ea : adjusted_size a (atlas_len at_) size = size).
    { unfold adjusted_size. destruct (Nat.ltb_spec (atlas_len at_) size); [lia|].
      destruct (Nat.leb_spec size (fa_deg a)); [lia|reflexivity]. }
    rewrite Ea. fold c1'. rewrite Ef, Em. reflexivity. }
  destruct St as (S1 & S2 & S3).
  destruct R1 as (Hpairs & Hne & _ & _ & _ & Hxb & _ & Hyb & _ & _ & Hilo & Hihi & _).
  destruct xb as [|xb]; [lia|]. destruct yb as [|yb]; [lia|].
  assert (Hp2 : c_pairs c2' = PArr (map FinP pairs)).
  { unfold c2', set_matches. cbn [c_pairs set_c_rp]. rewrite P9. exact Hpairs. }
  assert (Hl2 : c_lines c2' = c_lines c2) by reflexivity.
  assert (Xy : ransac_xy o c2' (fa_ctol a) = Ok (map Fin us, map Fin (map (poly co) us))).
  { rewrite A5.
    destruct (admissible_pairs_kept_main _ _ _ _ _ _ _ _ _ _ _ _ rt lt tol Harg RR
      ltac:(exact Hrt) ltac:(exact Hlt) Et) as (cs & Ecs & Hcs).
    assert (Ecs' : candidates_linear c2' (Fin tol) = Ok cs) by exact Ecs.
    unfold ransac_xy, ransac_candidates.
    assert (X1 : r_linear (c_rp c2') = Some true) by (unfold c2', set_matches; cbn [c_rp set_c_rp r_linear]; rewrite Frp; exact L1).
    assert (X2 : r_top (c_rp c2') = Some top) by (unfold c2', set_matches; cbn [c_rp set_c_rp r_top]; rewrite Frp; exact T1).
    assert (X3 : r_weighted (c_rp c2') = Some wt) by (unfold c2', set_matches; cbn [c_rp set_c_rp r_weighted]; rewrite Frp; exact T3).
    assert (X4 : r_close (c_rp c2') = Some false) by (unfold c2', set_matches; cbn [c_rp set_c_rp r_close]; rewrite Frp; exact L2).
    assert (X5 : r_tol (c_rp c2') = Some (Fin t)) by (unfold c2', set_matches; cbn [c_rp set_c_rp r_tol]; rewrite Frp; exact Q1).
    rewrite X1, X2, X3, X4, X5. cbn [need bind]. rewrite Ecs'. cbn [bind]. f_equal.
    assert (Rows : forall r, In r (List.concat cs) -> exists p, row_x r = Fin p /\ row_y r = Fin (poly co p) /\ In p us).
    { intros [[x y] g] Hin. destruct (rows_linear _ _ _ _ _ _ Ecs' Hin) as (lines & prs & Y1 & Y2 & Y3 & Y4).
      rewrite Hp2 in Y2. assert (prs = map FinP pairs) as -> by congruence.
      apply in_map_iff in Y3. destruct Y3 as ([p w] & E & Hpw). unfold FinP in E. cbn [fst snd] in E.
      assert (x = Fin p) as -> by congruence. assert (y = Fin w) as -> by congruence.
      rewrite Hl2 in Y1.
      pose proof (transform_reach _ _ _ _ _ _ _ _ _ _ _ _ _ Harg RR Et Y1 tol p w Y4) as Hc.
      pose proof (Hwrong p w Hpw Hc) as Ew. subst w. exists p. cbn [row_x row_y fst snd]. split; [reflexivity|].
      split; [reflexivity|]. apply D2. exact Hpw. }
    apply most_common_right; auto.
    - intros r Hin. destruct (Rows r Hin) as (p & E1 & E2 & _). eauto.
    - intros u. split.
      + intros Hu. destruct (Hright u Hu) as (Ht & Hb).
        destruct (Hcs u (poly co u) (proj1 (D2 u) Hu) Ht Hb) as (cand & g & C1 & C2).
        apply in_map_iff. exists (Fin u, Fin (poly co u), g). split; [reflexivity|]. apply in_concat. eauto.
      + intros Hu. apply in_map_iff in Hu. destruct Hu as (r & E & Hin). destruct (Rows r Hin) as (p & E1 & _ & Hp).
        rewrite E1 in E. apply (f_equal (fun v => match v with Fin r => r | _ => 0%R end)) in E. cbn in E. subst p. exact Hp. }
  assert (X : exact_problem o c2' (fa_ctol a) (fa_deg a) size co us).
  { split.
    - exists us. split; [exact Xy|tauto].
    - exact D1.
    - split; assumption.
    - unfold c2', set_matches. cbn [c_kind set_c_rp]. rewrite Fk. reflexivity.
    - unfold c2', set_matches. cbn [c_known set_c_rp]. rewrite P4. exact K1.
    - split; [unfold c2', set_matches; cbn [c_rp set_c_rp r_sample]; rewrite Frp; reflexivity|exact Z2].
    - exists t. split; [unfold c2', set_matches; cbn [c_rp set_c_rp r_tol]; rewrite Frp; exact Q1|exact Q2].
    - exists lo_i, hi_i. unfold c2', set_matches. cbn [c_hp set_c_rp]. rewrite P6. split; [exact Hilo|]. split; [exact Hihi|].
      exact (ss_intercept _ _ _ _ _ _ _ _ _ _ _ _ _ _ Hs).
    - exact (ss_increasing _ _ _ _ _ _ _ _ _ _ _ _ _ _ Hs).
    - exists px. unfold c2', set_matches. cbn [c_gp set_c_rp]. rewrite P5. exact K2.
    - exists m0. split; [unfold c2', set_matches; cbn [c_rp set_c_rp r_matches]; rewrite Em0; reflexivity|lra].
    - exists ut. unfold c2', set_matches. cbn [c_rp set_c_rp r_util c_peaks]. rewrite Frp, P1. split; [exact U1|exact U2].
    - exact (ss_edges _ _ _ _ _ _ _ _ _ _ _ _ _ _ Hs).
    - right. cbn [seq map] in S2, S3. do 3 eexists. do 3 eexists. exists hist, hw.
      split; [exact S2|]. split; [exact S3|]. split; [exact S1|].
      split; [unfold c2', set_matches; cbn [c_rp set_c_rp r_hweight]; rewrite Frp; exact W1|]. split; [exact W2|].
      intros xs ys. apply Hspl.
    - exact Hdraw.
    - exact Hpf.
    - exact Hrob. }
  exists c1, c2'. split; [exact B|]. split; [exact P|]. split; [exact X|]. split.
  - unfold c2', set_matches. cbn [c_rp set_c_rp r_fit_error]. rewrite Frp. reflexivity.
  - unfold c2', set_matches. cbn [c_atlas set_c_rp]. rewrite P3. reflexivity.
Qed.

(** C140, true part: with minimum_fit_error = 0, fit returns exactly the polynomial, with
    every right pair and no error, whatever was drawn. *)
Lemma perfect_session_partial_main :
  forall (o : oracle xr) (c : calib xr) (a : fit_args xr) pairs n xb yb lo_s hi_s lo_i hi_i tol size co us (e : R),
    (forall l, is_argsort l (o_argsort o l)) ->
    honest_draws o -> spline_not_negative o -> exact_polyfit o (fa_deg a) co -> exact_robust o (fa_deg a) co us ->
    sound_session c a pairs n xb yb lo_s hi_s lo_i hi_i tol size co us ->
    r_fit_error (c_rp c) = Some (Fin e) -> (e <= 0)%R ->
    forall fuel, (2 <= fuel)%nat ->
    exists c' v, fit o fuel c a = Some (c', Ok v) /\
      fv_coeff v = map Fin co /\
      fv_mpeaks v = MList (map Fin us) /\ fv_matlas v = MList (map Fin (map (poly co) us)) /\
      fv_rms v = Fin 0 /\ fv_resid v = Some (map (fun _ => Fin 0) us).
Proof.
  intros o c a pairs n xb yb lo_s hi_s lo_i hi_i tol size co us e Harg Hdraw Hspl Hpf Hrob Hs He He0 fuel Hf.
  destruct (sound_exact o c a pairs n xb yb lo_s hi_s lo_i hi_i tol size co us) as (c1 & c2 & B & P & X & Ee & Ea); auto.
  destruct (ss_args _ _ _ _ _ _ _ _ _ _ _ _ _ _ Hs) as (A1 & A2 & A3 & A4 & _).
  destruct (ss_size _ _ _ _ _ _ _ _ _ _ _ _ _ _ Hs) as (_ & _ & at_ & Z3 & _).
  destruct (exact_data_partial_main o c a c1 c2 size co us e at_ A2 A3 A4 B P X ltac:(rewrite Ee; exact He) He0
    ltac:(rewrite Ea; exact Z3) fuel Hf) as (c' & v & H & H1 & H2 & H3 & H4 & H5 & _).
  exists c', v. auto 10.
Qed.

(** C140: with any positive minimum_fit_error (the default is 1e-4) fit never returns on
    such data. *)
Lemma perfect_session_refuted_main :
  forall (o : oracle xr) (c : calib xr) (a : fit_args xr) pairs n xb yb lo_s hi_s lo_i hi_i tol size co us (e : R),
    (forall l, is_argsort l (o_argsort o l)) ->
    honest_draws o -> spline_not_negative o -> exact_polyfit o (fa_deg a) co -> exact_robust o (fa_deg a) co us ->
    sound_session c a pairs n xb yb lo_s hi_s lo_i hi_i tol size co us ->
    r_fit_error (c_rp c) = Some (Fin e) -> (0 < e)%R ->
    forall fuel, fit o fuel c a = None.
Proof.
  intros o c a pairs n xb yb lo_s hi_s lo_i hi_i tol size co us e Harg Hdraw Hspl Hpf Hrob Hs He He0 fuel.
  destruct (sound_exact o c a pairs n xb yb lo_s hi_s lo_i hi_i tol size co us) as (c1 & c2 & B & P & X & Ee & Ea); auto.
  destruct (ss_args _ _ _ _ _ _ _ _ _ _ _ _ _ _ Hs) as (A1 & A2 & A3 & A4 & _).
  eapply exact_data_refuted_main; eauto. rewrite Ee. exact He.
Qed.

(** The session of C138 with 10 by 10 bins, and any minimum_fit_error. *)
Definition cover_c (e : R) : calib xr :=
  mkCal (map Fin ex_us) None (Some (mkAtlas (map ex_line ex_lines) (Fin 0) (Fin 1000) (Fin 0))) None
    (mkG (Some (Fin 3)) (Some (map Fin [0; 1; 2; 3; 4]%R)) None false false)
    (mkH (Some 1%Z) (Some 10%nat) (Some 10%nat) None None (Some (Fin 5)) (Some (Fin 5)) (Some (Fin 95)) (Some (Fin 105))
       (Some (Fin 10)) (Some (Fin 10)))
    (mkR (Some 2%nat) (Some 1%nat) (Some true) (Some false) (Some (Fin 1)) (Some false) (Some (Fin 1))
       (Some (Fin 0)) (Some (Fin 0)) (Some (Fin e)))
    None false (PArr (map FinP reg_pairs)) (hough_init (A := xr)) None None (MList []) (MList [])
    None None None None None None None None.

Lemma cover_sound e : sound_session (cover_c e) ex_a reg_pairs 1 10 10 10 10 95 105 1 2 [100; 10]%R [0; 1; 4]%R.
Proof.
  change [100; 10]%R with ex_co. change [0; 1; 4]%R with ex_us.
  assert (Hl : forall u, In u ex_us <-> In (u, poly ex_co u) reg_pairs).
  { intros u. rewrite ex_poly. cbn [ex_us reg_pairs In]. split.
    - intros [<-|[<-|[<-|[]]]]; [left; f_equal; lra|do 4 right; left; f_equal; lra|do 8 right; left; f_equal; lra].
    - intros H. repeat (destruct H as [H|H]; [injection H as H1 H2; subst u; auto|]). destruct H. }
  split.
  - repeat split; cbn; lia.
  - split; [reflexivity|cbn; lia].
  - split; [|reflexivity]. unfold hough_ready. cbn. repeat split; try lra; try lia; discriminate.
  - split; eexists; reflexivity.
  - split; reflexivity.
  - split; [exists 1%nat; split; [reflexivity|lia]|eexists; reflexivity].
  - exists 1%R. split; [reflexivity|lra].
  - split; [reflexivity|]. split; [cbn; lia|]. eexists. split; [reflexivity|]. cbn. lia.
  - exists 0%R. split; [reflexivity|]. apply pos_INR.
  - exists 0%R. split; [reflexivity|]. rewrite Rmult_0_l. apply pos_INR.
  - exists 1%R. split; [reflexivity|lra].
  - split; [reflexivity|]. eexists. reflexivity.
  - split; [apply ex_sorted|exact Hl].
  - intros u Hu. split.
    + exists 0%nat. split; [lia|]. rewrite ex_poly. unfold slope_at. cbn [Nat.eqb]. lra.
    + unfold half_bin. rewrite !Rminus_diag_eq by reflexivity.
      rewrite (Rmax_right 0 1), (Rmax_left (105 - 95) 1) by lra. cbn [INR].
      assert (B : (0 <= u <= 4)%R) by (cbn [ex_us In] in Hu; destruct Hu as [<-|[<-|[<-|[]]]]; lra).
      rewrite Rabs_pos_eq by lra. lra.
  - exact reg_right.
  - cbn [hd ex_co]. lra.
  - cbv zeta. intros u v _ _ L. rewrite !ex_poly. lra.
  - exact ex_edges.
Qed.

Lemma ex_libraries : (forall l, is_argsort l (o_argsort ex_o l)) /\ honest_draws ex_o /\ spline_not_negative ex_o /\
  exact_polyfit ex_o 1 ex_co /\ exact_robust ex_o 1 ex_co ex_us.
Proof.
  destruct ex_stds as (S1 & S2 & P1 & P2).
  split; [intros l; apply argsort_stable_ok|]. split; [|split; [|split]].
  - split.
    + intros t l n p L. cbn. split; [rewrite firstn_length; lia|]. exists (skipn n l). rewrite firstn_skipn. reflexivity.
    + intros t l Hl. destruct l; [contradiction|]. left. reflexivity.
  - intros xs ys h. eexists. split; [reflexivity|]. intros a b. exists 1%R. split; [reflexivity|lra].
  - intros xh _ _. exists ex_co. split; [reflexivity|]. split; [reflexivity|auto].
  - exists ex_sx, ex_sy. split; [exact S1|]. split; [exact S2|]. split; [lra|]. split; [lra|].
    intros start _. eexists. split; [reflexivity|]. split; [reflexivity|]. intros u _.
    rewrite ex_poly. cbn [rev app]. unfold poly. rewrite !basis_cons. unfold basis_sum. cbn. field. lra.
Qed.

(** Lines at 100, 110 and 140, peaks at 0, 1 and 4: the straight line 100 + 10 u. *)
Example perfect_session_example_main :
  (forall e, sound_session (cover_c e) ex_a reg_pairs 1 10 10 10 10 95 105 1 2 [100; 10]%R [0; 1; 4]%R) /\
  (forall fuel, fit ex_o fuel (cover_c (1 / 10000)) ex_a = None) /\
  exists c' v, fit ex_o 2 (cover_c 0) ex_a = Some (c', Ok v) /\ fv_coeff v = map Fin [100; 10]%R /\
    fv_mpeaks v = MList (map Fin [0; 1; 4]%R).
Proof.
  destruct ex_libraries as (L1 & L2 & L3 & L4 & L5).
  split; [exact cover_sound|]. split.
  - eapply perfect_session_refuted_main; eauto; [apply cover_sound|reflexivity|lra].
  - destruct (perfect_session_partial_main ex_o (cover_c 0) ex_a reg_pairs 1 10 10 10 10 95 105 1 2 [100; 10]%R [0; 1; 4]%R 0
      L1 L2 L3 L4 L5 (cover_sound 0) eq_refl ltac:(lra) 2%nat ltac:(lia)) as (c' & v & H & H1 & H2 & _).
    exists c', v. auto.
Qed.

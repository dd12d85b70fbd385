(** * Main_Apart: with filter_close, the lines a fit matches are well separated. *)

From Coq Require Import ZArith Bool List String Lia Reals Lra Sorted.
From Verif Require Import Num F64 XReal Py Np NpFacts ArgsortFacts Util Models Atlas Hough PolyEval Calib SpecCalib Main_Calib Cand SpecCand CandFacts Ransac SpecRansac RansacFacts Main_Ransac Fit SpecFit FitFacts Main_Fit SpecPoly SpecRecover Main_Recover.
Import ListNotations.
Local Open Scope num_scope.

Definition without_close {A} (c : calib A) : calib A :=
  let r := c_rp c in
  set_c_rp (mkR (r_sample r) (r_top r) (r_linear r) (Some false) (r_tol r) (r_weighted r) (r_hweight r)
    (r_matches r) (r_util r) (r_fit_error r)) c.

Lemma close_split (o : oracle xr) c ctol x y t : r_close (c_rp c) = Some true -> r_tol (c_rp c) = Some (Fin t) ->
  ransac_xy o c ctol = Ok (x, y) ->
  exists x0 y0, ransac_xy o (without_close c) ctol = Ok (x0, y0) /\ filter_close (Fin t) x0 y0 = (x, y).
Proof.
  unfold ransac_xy. intros Hc Ht H. apply bind_Ok in H. destruct H as ([x0 y0] & Hq & H).
  rewrite Hc, Ht in H. cbn [need bind fst snd] in H. exists x0, y0. split; [|congruence].
  assert (E : ransac_candidates o (without_close c) ctol = ransac_candidates o c ctol) by reflexivity.
  rewrite E, Hq. cbn [bind]. unfold without_close. cbn [c_rp set_c_rp r_close r_tol]. rewrite Ht. reflexivity.
Qed.

Lemma finite_list (l : list xr) base : (forall v, In v l -> In v (map Fin base)) -> exists r, l = map Fin r.
Proof.
  induction l as [|v l IH]; intros H; [exists []; reflexivity|].
  destruct IH as (r & ->); [intros; apply H; right; auto|].
  pose proof (H v (or_introl eq_refl)) as Hv. apply in_map_iff in Hv. destruct Hv as (b & <- & _).
  exists (b :: r). reflexivity.
Qed.

Lemma nth_both {T U} (x : list T) (y : list U) : List.length x = List.length y ->
  (forall v, In v x -> exists w, In (v, w) (combine x y)) /\ (forall w, In w y -> exists v, In (v, w) (combine x y)).
Proof.
  revert y. induction x as [|a x IH]; intros [|b y] L; try discriminate; [split; intros ? []|].
  injection L as L. destruct (IH y L) as [I1 I2]. cbn [combine]. split; intros v [->|Hv].
  - exists b. left; auto.
  - destruct (I1 v Hv) as (w & Hw). exists w. right; auto.
  - exists a. left; auto.
  - destruct (I2 v Hv) as (w & Hw). exists w. right; auto.
Qed.

(** C88, seen through fit: with filter_close any two matched wavelengths are at least
    three ransac_tolerances apart. *)
Lemma fit_lines_separated_main :
  forall (o : oracle xr) fuel c a c' v at_ (peaks lines : list R) t,
    (forall l, is_argsort l (o_argsort o l)) -> pairs_current c -> c_atlas c = Some at_ ->
    c_peaks c = map Fin peaks -> get_lines at_ = map Fin lines ->
    r_close (c_rp c) = Some true -> r_tol (c_rp c) = Some (Fin t) ->
    fit o fuel c a = Some (c', Ok v) ->
    exists ws, fv_matlas v = MList (map Fin ws) /\ (degree_used a < List.length ws)%nat /\
      forall w w', In w ws -> In w' ws -> (w < w')%R -> (3 * t <= w' - w)%R.
Proof.
  intros o fuel c a c' v at_ peaks lines t Harg Hc Ha Hpk Hln Hcl Htol H.
  assert (Np : no_nan (c_peaks c)).
  { rewrite Hpk. intros z Hz. apply in_map_iff in Hz. destruct Hz as (u & <- & _). reflexivity. }
  assert (Na : no_nan (get_lines at_)).
  { rewrite Hln. intros z Hz. apply in_map_iff in Hz. destruct Hz as (u & <- & _). reflexivity. }
  destruct (fit_inv _ _ _ _ _ _ H) as (c2 & c3 & r & co & at' & size & m & F2 & Ha' & Hs & Hm & Hco & Hk & Hs2 & Hm2 &
    Hsol & Hp & Hpu & Hau & Ec' & Ev & Emp & Ema & Erms & Eres).
  assert (at' = at_) as -> by congruence.
  pose proof (pairs_current_frame _ _ F2 Hc) as Hc2.
  assert (G2 : same_input c c2) by apply F2. destruct G2 as (E1 & E2 & E3 & E4 & E5 & E6 & E7 & E8 & E9).
  assert (R2 : same_ransac c c2) by apply F2.
  assert (Hcl2 : r_close (c_rp c2) = Some true) by (unfold same_ransac in R2; decompose [and] R2; congruence).
  assert (Htol2 : r_tol (c_rp c2) = Some (Fin t)) by (unfold same_ransac in R2; decompose [and] R2; congruence).
  destruct (solve_ransac_inv o Harg _ _ _ _ _ _ _ _ _ Hsol) as [(K & _)|(x & y & size2 & f & samples & s0 & s & Hxy & Hrest)];
    [congruence|].
  assert (NN : no_nan x /\ no_nan y).
  { eapply xy_no_nan; eauto; [rewrite E3; eauto|rewrite E1; auto]. }
  destruct NN as (Nx & Ny).
  destruct (ransac_valid_matching_main _ _ _ o fuel c2 _ _ _ _ _ c3 r co x y Harg Hxy Nx Ny Hsol Hp) as
    (xs & ys & M1 & M2 & (L & D1 & D2 & M3) & Hl & Hsort).
  destruct (ransac_quality_partial_main _ _ _ o fuel c2 _ _ _ _ _ c3 r co x y Harg Hxy Nx Ny Hsol Hp) as (Hdeg & _).
  destruct (close_split _ _ _ _ _ _ Hcl2 Htol2 Hxy) as (x0 & y0 & Hxy0 & Hfc).
  assert (Hc0 : pairs_current (without_close c2)) by exact Hc2.
  pose proof (ransac_xy_length o Harg _ _ _ _ Hxy0) as L0.
  destruct (nth_both x0 y0 L0) as [B1 B2].
  destruct (finite_list x0 peaks) as (rx & Ex).
  { intros z Hz. destruct (B1 z Hz) as (w & Hin). destruct (xy_current o Harg _ _ _ _ _ _ Hc0 Hxy0 Hin) as (at2 & _ & Q & _).
    change (In z (c_peaks c2)) in Q. rewrite E1, Hpk in Q. exact Q. }
  destruct (finite_list y0 lines) as (ry & Ey).
  { intros z Hz. destruct (B2 z Hz) as (w & Hin). destruct (xy_current o Harg _ _ _ _ _ _ Hc0 Hxy0 Hin) as (at2 & Q0 & _ & Q).
    change (c_atlas c2 = Some at2) in Q0. assert (at2 = at_) as -> by congruence. rewrite Hln in Q. exact Q. }
  subst x0 y0. rewrite !map_length in L0.
  destruct (filter_close_separates_main t rx ry L0) as (Ek & Hsep & _). cbv zeta in Ek, Hsep.
  set (kept := filter (fun q => isolated t ry (snd q)) (combine rx ry)) in *. clearbody kept.
  assert (Exy : (map Fin (map fst kept), map Fin (map snd kept)) = (x, y)) by congruence.
  assert (Ey : y = map Fin (map snd kept)) by congruence. clear Exy Ek Hfc.
  assert (Hy : forall w, In w ys -> exists u, w = Fin u /\ In u (map snd kept)).
  { intros w Hin. apply In_nth_error in Hin. destruct Hin as (k & Ek).
    destruct (nth_error xs k) as [p|] eqn:Ew; [|apply nth_error_None in Ew; assert (k < List.length ys)%nat by (apply nth_error_Some; congruence); lia].
    destruct (M3 _ _ _ Ew Ek) as (p' & w' & Hin & P1 & P2).
    apply in_combine_r in Hin. rewrite Ey in Hin. apply in_map_iff in Hin. destruct Hin as (u & <- & Hu).
    exists u. split; auto. destruct w as [z| |]; try discriminate P2.
    change (Fin u ==' Fin z) with (Reqb u z) in P2. destruct (Reqb_spec u z); congruence. }
  destruct (finite_list ys (map snd kept)) as (ws & Ews).
  { intros w Hw. destruct (Hy w Hw) as (u & -> & Hu). apply in_map. exact Hu. }
  exists ws. split; [congruence|]. split.
  { rewrite Ews, map_length in L. lia. }
  assert (Hin : forall w, In w ws -> In w (map snd kept)).
  { intros w Hw. destruct (Hy (Fin w)) as (u & E & Hu); [rewrite Ews; apply in_map; auto|].
    apply (f_equal (fun v => match v with Fin r => r | _ => 0%R end)) in E. cbn in E. subst w. exact Hu. }
  intros w w' Hw Hw' Hlt. apply Hsep; auto.
Qed.

(** The session of C110 with filter_close. *)
Definition apart_c : calib xr :=
  set_c_rp (mkR (Some 2%nat) (Some 1%nat) (Some true) (Some true) (Some (Fin 1)) (Some false) (Some (Fin 1))
       (Some (Fin 0)) (Some (Fin 0)) (Some (Fin 0))) (ex_c 0).

Lemma apart_xy (c : calib xr) : r_close (c_rp c) = Some true -> r_tol (c_rp c) = Some (Fin 1) ->
  ransac_xy ex_o (without_close c) (Fin 1) = Ok (map Fin ex_us, map Fin (map (poly ex_co) ex_us)) ->
  ransac_xy ex_o c (Fin 1) = Ok (map Fin ex_us, map Fin (map (poly ex_co) ex_us)).
Proof.
  intros Hc Ht H. unfold ransac_xy in *.
  assert (E : ransac_candidates ex_o (without_close c) (Fin 1) = ransac_candidates ex_o c (Fin 1)) by reflexivity.
  rewrite E in H. apply bind_Ok in H. destruct H as ([x y] & Hq & H). rewrite Hq. cbn [bind fst snd].
  unfold without_close in H. cbn [c_rp set_c_rp r_close r_tol] in H. rewrite Ht in H. cbn [need bind] in H.
  rewrite Hc, Ht. cbn [need bind]. injection H as -> ->. apply f_equal.
  destruct (filter_close_separates_main 1 ex_us (map (poly ex_co) ex_us) eq_refl) as (K & _). cbv zeta in K.
  etransitivity; [exact K|]. clear K.
  assert (F : filter (fun q => isolated 1 (map (poly ex_co) ex_us) (snd q)) (combine ex_us (map (poly ex_co) ex_us)) =
              combine ex_us (map (poly ex_co) ex_us)).
  { unfold ex_us. cbn [map combine filter snd isolated forallb]. rewrite !ex_poly. unfold isolated. cbn [forallb].
    repeat match goal with |- context [Rltb ?a ?b] => destruct (Rltb_spec a b); try lra end.
    repeat match goal with |- context [Rleb ?a ?b] => destruct (Rleb_spec a b); try lra end. reflexivity. }
  rewrite F. reflexivity.
Qed.

Example fit_lines_separated_example_main :
  pairs_current apart_c /\ r_close (c_rp apart_c) = Some true /\ r_tol (c_rp apart_c) = Some (Fin 1) /\
  exists c' v, fit ex_o 2 apart_c ex_a = Some (c', Ok v) /\ fv_mpeaks v = MList (map Fin [0; 1; 4]%R) /\
    fv_matlas v = MList (map Fin (map (poly [100; 10]%R) [0; 1; 4]%R)).
Proof.
  split.
  { eexists. split; [reflexivity|]. unfold apart_c, ex_c. cbn [c_pairs c_peaks set_c_rp]. intros a b H.
    apply in_flat_map in H. destruct H as (u & Hu & H). apply in_map_iff in H. destruct H as (w & E & Hw).
    injection E as <- <-. split; [apply in_map; exact Hu|].
    unfold get_lines. cbn [at_lines]. rewrite map_map. apply in_map_iff. exists w. split; [reflexivity|exact Hw]. }
  split; [reflexivity|]. split; [reflexivity|].
  assert (G : exists c1 c2, fit_begin apart_c ex_a = (c1, Ok tt) /\ fit_prepare ex_o c1 ex_a = (c2, Ok tt) /\
    exact_problem ex_o c2 (fa_ctol ex_a) (fa_deg ex_a) 2 ex_co ex_us /\ r_fit_error (c_rp c2) = Some (Fin 0) /\
    c_atlas c2 = c_atlas (ex_c 0)).
  { eexists. eexists. split; [reflexivity|]. split.
    { unfold fit_prepare, fit_hough.
      cbn [c_atlas c_rp c_lines c_points set_sample set_c_rp set_c_kind set_c_coeff set_c_deg apart_c ex_c r_sample r_matches].
      reflexivity. }
    split; [|split; reflexivity].
    apply ex_exact; try reflexivity; [apply apart_xy; [reflexivity|reflexivity|exact (ex_xy 0)]|].
    cbn [c_rp set_matches set_c_rp r_matches]. f_equal. unfold adjusted_matches. rewrite !nnat_Fin.
    repeat match goal with |- context [?a <' ?b] =>
      lazymatch a with Fin (INR ?n) => change (a <' b) with (Rltb (INR n) 0) end;
      match goal with |- context [Rltb ?u ?v] => destruct (Rltb_spec u v) as [L|_]; [cbn in L; lra|] end end.
    reflexivity. }
  destruct G as (c1 & c2 & B & P & X & E & Ea).
  destruct (exact_data_partial_main ex_o apart_c ex_a c1 c2 2 ex_co ex_us 0 _ eq_refl eq_refl ltac:(cbn; lia) B P X E ltac:(lra) Ea
    2%nat ltac:(lia)) as (c' & v & H & _ & H2 & H3 & _).
  exists c', v. auto.
Qed.

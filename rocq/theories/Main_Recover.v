(** * Main_Recover: fitting candidates that lie exactly on a polynomial. *)

From Coq Require Import ZArith Bool List String Lia Reals Lra Sorted Permutation.
From Verif Require Import Num F64 XReal Py Np NpFacts ArgsortFacts Util Models Atlas Hough SpecHough HoughFacts PolyEval SpecPoly PolyFacts Main_Models Calib Main_Calib Cand SpecCand CandFacts Ransac SpecRansac RansacFacts SampleFacts SpecRecover RecoverFacts PolyIdent Fit SpecFit FitFacts.
Import ListNotations.
Local Open Scope num_scope.

Lemma in_combine_map {T U} (g : T -> U) l a b : In (a, b) (combine l (map g l)) -> In a l /\ b = g a.
Proof.
  induction l as [|x l IH]; [intros []|]. cbn [map combine]. intros [E|H].
  - injection E as <- <-. split; [left|]; auto.
  - destruct (IH H). split; [right|]; auto.
Qed.
Lemma in_combine_map' {T U} (g : T -> U) l a : In a l -> In (a, g a) (combine l (map g l)).
Proof. induction l as [|x l IH]; [intros []|]. cbn [map combine]. intros [->|H]; [left|right]; auto. Qed.

Lemma robust_exact (o : oracle xr) deg co us : exact_robust o deg co us ->
  List.length co = S deg -> NoDup us -> (deg < List.length us)%nat ->
  robust_polyfit (o_ls o) (map Fin us) (map Fin (map (poly co) us)) deg None = Ok (map Fin co).
Proof.
  intros (sx & sy & Hx & Hy & Nx & Ny & Hls) Lc Hn Lu.
  destruct (Hls (map (fun _ => nZ 1) (seq 0 (deg + 1)))) as (q & Eq & Lq & Hq).
  { rewrite map_length, seq_length. reflexivity. }
  destruct (robust_polyfit_denorm (o_ls o) us (map (poly co) us) deg None sx sy
    (map (fun _ => nZ 1) (seq 0 (deg + 1))) q) as (c & E & L & _ & H); auto.
  - rewrite map_length, seq_length. reflexivity.
  - rewrite E. do 2 f_equal. apply (poly_ident c co us); auto; try lia. intros u Hu. apply H.
    + intros xi yi Hi. apply in_combine_map in Hi. destruct Hi as [Hi ->]. apply Hq; auto.
    + apply (in_combine_map' (poly co)). auto.
Qed.

Lemma SS_NoDup us : StronglySorted Rlt us -> NoDup us.
Proof.
  induction 1 as [|a l S IH F]; constructor; auto. intros Ha. rewrite Forall_forall in F. apply F in Ha. lra.
Qed.

Lemma prob_positive qs : (forall q, In q qs -> 0 < q)%R ->
  existsb nisnan (map Fin qs) = false /\
  List.length (filter (fun p => negb (p ==' nZ 0)) (map Fin qs)) = List.length qs.
Proof.
  rewrite nZ_Fin. induction qs as [|q qs IH]; intros H; [split; reflexivity|]. cbn [map existsb filter].
  destruct IH as [I1 I2]; [intros; apply H; right; auto|].
  change (Fin q ==' Fin 0) with (Reqb q 0). specialize (H q (or_introl eq_refl)).
  destruct (Reqb_spec q 0); [lra|]. cbn [negb]. split; [exact I1|]. cbn [List.length]. f_equal. exact I2.
Qed.

Lemma bonus_nonneg (o : oracle xr) (c : calib xr) f px co :
  usable_density o c -> f_kind f = FitPoly -> f_pixels f = map Fin px -> (2 <= List.length co)%nat ->
  f_hw f = r_hweight (c_rp c) -> make_spline o (c_ht c) (r_hweight (c_rp c)) = Ok (f_spline f) ->
  exists W, hough_bonus f (map Fin co) = Ok (Fin W) /\ (0 <= W)%R.
Proof.
  intros Hd Hk Hp Hl Hw Hs. unfold hough_bonus. rewrite derivative_real.
  set (d := map _ (combine _ _)).
  assert (Hdne : exists d0 dr, map Fin d = d0 :: dr).
  { unfold d. destruct co as [|a [|b co]]; [cbn in Hl; lia|cbn in Hl; lia|]. cbn. eauto. }
  destruct Hdne as (d0 & dr & Ed). rewrite Ed. cbv iota beta zeta. rewrite <- Ed. rewrite Hp, Hk.
  destruct Hd as [Hn|(x0 & x1 & xe & y0 & y1 & ye & h & w & E1 & E2 & E3 & E4 & Hw0 & Hsp)].
  - unfold make_spline in Hs. rewrite Hn in Hs. injection Hs as <-. exists 1%R. rewrite nZ_Fin. split; [reflexivity|lra].
  - unfold make_spline in Hs. rewrite E1, E2, E3, E4 in Hs. cbn [need bind nisfinite XRnum xisfinite] in Hs.
    match type of Hs with bind (o_spline o ?a ?b ?e) _ = _ => destruct (Hsp a b) as (sp & Esp & Hv) end.
    rewrite Esp in Hs. cbn [bind] in Hs. injection Hs as <-. rewrite Hw, E4.
    assert (G : exists vs, map (fun q => sp (fst q) (snd q))
      (map (fun p => (eval_kind FitPoly p (map Fin co) -' eval_kind FitPoly p (map Fin d) *' p, eval_kind FitPoly p (map Fin d))) (map Fin px))
      = map Fin vs /\ forall v, In v vs -> (0 <= v)%R).
    { clear - Hv. induction px as [|p px IH]; [exists []; split; [reflexivity|intros ? []]|].
      destruct IH as (vs & E & Hvs). cbn [map fst snd].
      assert (Ev : forall l, eval_kind FitPoly (Fin p) (map Fin l) = Fin (basis_sum powB l p)) by (intros; apply basis_evaluation_main).
      rewrite !Ev. cbn [map] in E. rewrite E.
      destruct (Hv (basis_sum powB co p + - (basis_sum powB d p * p))%R (basis_sum powB d p)) as (v & Esv & Hv0).
      exists (v :: vs). split; [|intros z [<-|Hz]; auto].
      cbn [map]. f_equal. exact Esv. }
    destruct G as (vs & E & Hvs).
    match goal with |- exists W, Ok (_ *' np_sum ?l) = _ /\ _ => replace l with (map Fin vs) end.
    rewrite np_sum_Fin_R. eexists. split; [reflexivity|]. apply Rmult_le_pos; auto.
    clear - Hvs. induction vs as [|v vs IH]; cbn [fold_right]; [lra|].
    pose proof (Hvs v (or_introl eq_refl)). assert (0 <= fold_right Rplus 0 vs)%R by (apply IH; intros; apply Hvs; right; auto). lra.
Qed.

Lemma exact_dict co x u : In u x ->
  exists ys, dict_get (build_dict (map Fin x) (map Fin (map (poly co) x))) (Fin u) = Ok ys /\ ys <> [] /\
    forall y, In y ys -> y = Fin (poly co u).
Proof.
  intros Hu.
  assert (Hn : no_nan (map Fin x)).
  { intros z Hz. apply in_map_iff in Hz. destruct Hz as (r & <- & _). reflexivity. }
  assert (Hin : In (Fin u) (np_unique (map Fin x))).
  { destruct (np_unique_Fin x) as (us & E & _ & H). rewrite E. apply in_map. apply H; auto. }
  rewrite build_dict_get by auto. eexists. split; [reflexivity|]. split.
  - intros E. assert (X : In (Fin (poly co u)) []); [|destruct X]. rewrite <- E. apply masked_pair.
    + rewrite !map_length. reflexivity.
    + exists (Fin u). split; [|apply (eqb_refl (Fin u)); reflexivity].
      clear - Hu. induction x as [|a x IH]; [destruct Hu|]. cbn [map combine]. destruct Hu as [->|Hu]; [left; auto|right; auto].
  - intros y Hy. apply masked_pair in Hy; [|rewrite !map_length; reflexivity].
    destruct Hy as (a & Ha & Eq). clear - Ha Eq. induction x as [|b x IH]; [destruct Ha|]. cbn [map combine] in Ha.
    destruct Ha as [E|Ha]; [|auto]. injection E as <- <-. change (Reqb b u = true) in Eq.
    destruct (Reqb_spec b u); [subst; reflexivity|discriminate].
Qed.

Lemma exact_search (o : oracle xr) (c : calib xr) ctol deg size co us n e :
  exact_problem o c ctol deg size co us -> r_fit_error (c_rp c) = Some (Fin e) -> (1 <= n)%nat ->
  ((0 < e)%R -> forall fuel, solve_ransac o fuel c deg n None ctol false = None) /\
  ((e <= 0)%R -> forall fuel, (2 <= fuel)%nat ->
     exists c', solve_ransac o fuel c deg n None ctol false =
       Some (c', Ok (mkRR (Some (map Fin co)) (Fin 0) (Some (repeat (Fin 0) (List.length us))) (List.length us) true)) /\
       c_mpeaks c' = MList (map Fin us) /\ c_matlas c' = MList (map Fin (map (poly co) us))).
Proof.
  intros [(x & Hx & Hxu) Hs (Lco & Hd) Hk Hkn (Hsz & Lsz) (tol & Ht & Ht0) (ilo & ihi & Hi1 & Hi2 & Hic) Hinc
    (px & Hpx) (m & Hm & Hmle) (ut & Hut & Hutle) Hedge Hden Hdr Hpf Hrob] He Hn.
  pose proof (robust_exact _ _ _ _ Hrob Lco (SS_NoDup _ Hs) ltac:(lia)) as Er.
  assert (Hr' : forall u, In u us -> poly co u = poly co u) by auto.
  assert (Eu : np_unique (map Fin x) = map Fin us).
  { destruct (np_unique_Fin x) as (vs & -> & Sv & Hv). f_equal. apply SS_Rlt_unique; auto.
    intros v. rewrite Hv, Hxu. reflexivity. }
  assert (Hne : us <> []) by (intros ->; cbn in Lsz; lia).
  set (c1 := set_c_deg (Some deg) c).
  assert (Hx1 : ransac_xy o c1 ctol = Ok (map Fin x, map Fin (map (poly co) x))) by exact Hx.
  assert (Hcand : exists cd, ransac_candidates o c ctol = Ok cd).
  { unfold ransac_xy in Hx. destruct (ransac_candidates o c ctol); [eauto|discriminate]. }
  destruct Hcand as (cd & Hcand).
  destruct (bin_edges_Fin us 10) as (lo & hi & _ & Drange & _); [lia|].
  destruct (sampling_prob_Fin us lo hi) as (qs & Eq & Lq & Hq & _); auto.
  destruct (prob_positive qs Hq) as [Hq1 Hq2].
  assert (Hspl : exists sp, make_spline o (c_ht c) (r_hweight (c_rp c)) = Ok sp).
  { destruct Hden as [E|(x0 & x1 & xe & y0 & y1 & ye & h & w & E1 & E2 & E3 & E4 & _ & Hsp)]; unfold make_spline.
    - rewrite E. eauto.
    - rewrite E1, E2, E3, E4. cbn [need bind nisfinite XRnum xisfinite].
      match goal with |- exists _, bind (o_spline o ?a ?b ?e) _ = _ => destruct (Hsp a b) as (sp & -> & _) end.
      cbn [bind]. eauto. }
  destruct Hspl as (sp & Hspl).
  set (f := mkCfg FitPoly deg (map Fin x) (map Fin (map (poly co) x)) (map Fin us)
              (build_dict (map Fin x) (map Fin (map (poly co) x))) (Fin tol) (Fin ilo) (Fin ihi) (map Fin px)
              (r_hweight (c_rp c)) sp (Fin e) (Fin m) (Fin ut) (List.length (c_peaks c)) None false size (map Fin qs)).
  set (s0 := mkRS None (nlit 1 50) (nlit 1 50) None 0 (c_mpeaks c) (c_matlas c) 0 []).
  assert (Hleb : Nat.leb (List.length us) size = false) by (apply Nat.leb_gt; lia).
  assert (Hset : ransac_setup o c1 (map Fin x) (map Fin (map (poly co) x)) deg size n None false =
    Ok (f, map (fun i => [i]) (seq 0 n), s0)).
  { unfold ransac_setup. rewrite Eu, map_length, Hleb. cbn [orb].
    change (c_ht c1) with (c_ht c). change (c_rp c1) with (c_rp c). change (c_kind c1) with (c_kind c).
    change (c_hp c1) with (c_hp c). change (c_gp c1) with (c_gp c). change (c_known c1) with (c_known c).
    rewrite Hspl, Hk, Eq, Ht, Hi1, Hi2, Hpx, He, Hm, Hut, Hkn. reflexivity. }
  assert (Hsolve : forall fuel, solve_ransac o fuel c deg n None ctol false =
    match run_samples o fuel f s0 (map (fun i => [i]) (seq 0 n)) with
    | Out _ => None
    | Fail s e => Some (set_c_matlas (s_ma s) (set_c_mpeaks (s_mp s) c1), Raise e)
    | Done s => Some (set_c_matlas (s_ma s) (set_c_mpeaks (s_mp s) c1), ransac_result deg s)
    end).
  { intros fuel. unfold solve_ransac. rewrite Hcand. fold c1. cbv zeta. rewrite Hx1, Eu, map_length.
    destruct (Nat.leb_spec (List.length us) deg); [lia|].
    change (c_rp c1) with (c_rp c). rewrite Hsz, Hleb, Hset. reflexivity. }
  assert (Hdict : forall u, In u us -> exists ys, dict_get (f_dict f) (Fin u) = Ok ys /\ In (Fin (poly co u)) ys /\ forall y, In y ys -> exists r, y = Fin r).
  { intros u Hu. destruct (exact_dict co x u) as (ys & E & Hy & Hys); [apply Hxu; auto|].
    exists ys. split; [exact E|]. split.
    - destruct ys as [|y ys]; [contradiction|]. left. apply Hys. left; auto.
    - intros y Hi. rewrite (Hys y Hi). eauto. }
  assert (Hone : forall u ys, In u us -> dict_get (f_dict f) (Fin u) = Ok ys -> forall y, In y ys -> y = Fin (poly co u)).
  { intros u ys Hu Ed. destruct (exact_dict co x u) as (ys' & E & Hy & Hys); [apply Hxu; auto|].
    change (f_dict f) with (build_dict (map Fin x) (map Fin (map (poly co) x))) in Ed. rewrite E in Ed.
    injection Ed as <-. exact Hys. }
  assert (Lu : (deg < List.length us)%nat) by lia.
  assert (Hsmp : map (fun i => [i]) (seq 0 n) <> []) by (destruct n; [lia|discriminate]).
  assert (Hc0 : s_cost s0 = Fin (Rlit 1 50)) by reflexivity.
  assert (Hc0' : (0 <= Rlit 1 50)%R).
  { unfold Rlit. rewrite Rmult_1_l. apply Rlt_le, powerRZ_lt. lra. }
  assert (Hbon : exists W, hough_bonus f (map Fin co) = Ok (Fin W) /\ (0 <= W)%R).
  { apply (bonus_nonneg o c f px); auto. lia. }
  assert (Hpr : existsb nisnan (f_prob f) = false /\
    List.length (filter (fun p => negb (p ==' nZ 0)) (f_prob f)) = List.length us).
  { split; [exact Hq1|]. change (f_prob f) with (map Fin qs). rewrite Hq2. exact Lq. }
  split.
  - intros He0 fuel. rewrite Hsolve.
    destruct (run_rejects o f deg co us eq_refl eq_refl eq_refl Hs Lco Hd Hdict eq_refl eq_refl Lu tol eq_refl Ht0
      ilo ihi eq_refl eq_refl Hic Hinc Hbon e m ut eq_refl eq_refl eq_refl Hmle Hutle Hdr Hpf co Er Hr' Hone Hpr Lsz
      fuel (map (fun i => [i]) (seq 0 n)) s0 (Rlit 1 50) He0 Hsmp Hc0 Hc0') as (s' & ->). reflexivity.
  - intros He0 fuel Hf. rewrite Hsolve.
    destruct fuel as [|[|fuel]]; [lia|lia|].
    destruct (run_accepts o f deg co us eq_refl eq_refl eq_refl Hs Lco Hd Hdict eq_refl eq_refl Lu tol eq_refl Ht0
      ilo ihi eq_refl eq_refl Hic Hinc Hbon e m ut eq_refl eq_refl eq_refl Hmle Hutle Hdr Hpf co Er Hr' Hone Hpr Lsz
      fuel (map (fun i => [i]) (seq 0 n)) He0 s0 (Rlit 1 50) Hsmp Hc0 Hc0') as (s' & ->).
    match goal with |- exists c', Some (?x, _) = _ /\ _ => exists x end. split; [|split; reflexivity]. do 2 f_equal.
    unfold ransac_result, found. cbn [s_mp s_ma s_inl s_p s_err s_resid mseq_len mseq_vals].
    assert (SP : StronglySorted Rlt (map (poly co) us)).
    { apply SS_map_inc; auto. intros u v Hu Hv L.
      pose proof (SS_hd_last us Hs Hne u Hu). pose proof (SS_hd_last us Hs Hne v Hv). apply Hinc; lra. }
    rewrite np_unique_sorted_id by auto. rewrite !map_length, !Nat.eqb_refl. cbn [andb]. do 2 f_equal.
    destruct (Nat.leb_spec (List.length us) (deg + 1)); [lia|reflexivity].
Qed.

Lemma fit_search (o : oracle xr) c a c1 c2 fuel :
  fa_coeff a = None -> fit_begin c a = (c1, Ok tt) -> fit_prepare o c1 a = (c2, Ok tt) ->
  fit o fuel c a =
  match solve_ransac o fuel c2 (fa_deg a) (fa_tries a) None (fa_ctol a) (fa_brute a) with
  | None => None
  | Some (c3, Raise e) => Some (c3, Raise e)
  | Some (c3, Ok r) => Some (fit_end c3 r)
  end.
Proof.
  intros Hc Hb Hp. unfold fit. rewrite Hc, Hb, Hp.
  pose proof (fit_begin_spec c a) as (_ & B & _). rewrite Hb in B. cbn [fst] in B.
  pose proof (fit_prepare_spec o c1 a) as (_ & Q & _). rewrite Hp in Q. cbn [fst] in Q.
  unfold degree_used. rewrite Q, B, Hc. reflexivity.
Qed.

(** Candidates that lie exactly on a polynomial, with fitters that find it: as long as
    minimum_fit_error is positive (it is 1e-4 unless set), every trial is rejected for
    being too good and fit never returns, whatever the random draws. *)
Lemma exact_data_refuted_main :
  forall (o : oracle xr) (c : calib xr) (a : fit_args xr) c1 c2 size (co us : list R) (e : R),
    fa_coeff a = None -> fa_brute a = false -> (1 <= fa_tries a)%nat ->
    fit_begin c a = (c1, Ok tt) -> fit_prepare o c1 a = (c2, Ok tt) ->
    exact_problem o c2 (fa_ctol a) (fa_deg a) size co us ->
    r_fit_error (c_rp c2) = Some (Fin e) -> (0 < e)%R ->
    forall fuel, fit o fuel c a = None.
Proof.
  intros o c a c1 c2 size co us e Hc Hbr Ht Hb Hp Hex He He0 fuel.
  rewrite (fit_search o c a c1 c2 fuel) by auto. rewrite Hbr.
  destruct (exact_search o c2 (fa_ctol a) (fa_deg a) size co us (fa_tries a) e Hex He Ht) as [H _].
  rewrite H by auto. reflexivity.
Qed.

(** With minimum_fit_error = 0 the fit of such data returns exactly the polynomial,
    matches every candidate peak with its wavelength, and reports no error. *)
Lemma exact_data_partial_main :
  forall (o : oracle xr) (c : calib xr) (a : fit_args xr) c1 c2 size (co us : list R) (e : R) at_,
    fa_coeff a = None -> fa_brute a = false -> (1 <= fa_tries a)%nat ->
    fit_begin c a = (c1, Ok tt) -> fit_prepare o c1 a = (c2, Ok tt) ->
    exact_problem o c2 (fa_ctol a) (fa_deg a) size co us ->
    r_fit_error (c_rp c2) = Some (Fin e) -> (e <= 0)%R -> c_atlas c2 = Some at_ ->
    forall fuel, (2 <= fuel)%nat ->
    exists c' v, fit o fuel c a = Some (c', Ok v) /\
      fv_coeff v = map Fin co /\
      fv_mpeaks v = MList (map Fin us) /\ fv_matlas v = MList (map Fin (map (poly co) us)) /\
      fv_rms v = Fin 0 /\ fv_resid v = Some (map (fun _ => Fin 0) us) /\
      fv_putil v = nnat (List.length us) /' nnat (List.length (c_peaks c2)) /\
      fv_autil v = nnat (List.length us) /' nnat (atlas_len at_) /\
      c_coeff c' = Some (map Fin co) /\ c_mpeaks c' = fv_mpeaks v /\ c_matlas c' = fv_matlas v.
Proof.
  intros o c a c1 c2 size co us e at_ Hc Hbr Ht Hb Hp Hex He He0 Ha fuel Hf.
  rewrite (fit_search o c a c1 c2 fuel) by auto. rewrite Hbr.
  destruct (exact_search o c2 (fa_ctol a) (fa_deg a) size co us (fa_tries a) e Hex He Ht) as [_ H].
  destruct (H He0 fuel Hf) as (c' & E & M1 & M2). rewrite E.
  apply solve_frame in E. destruct E as ((Fi & _) & _). destruct Fi as (Fp & _ & Fa & _).
  assert (Lu : List.length us <> 0%nat).
  { destruct Hex as [_ _ _ _ _ (_ & L) _ _ _ _ _ _ _ _ _ _ _]. lia. }
  unfold fit_end. rewrite Fa, Ha, Fp. unfold utilisation. cbn [rr_inl].
  destruct (Nat.eqb_spec (List.length us) 0) as [|_]; [contradiction|]. cbn [andb rr_p rr_err rr_resid].
  eexists. eexists. split; [reflexivity|]. cbn [fv_coeff fv_mpeaks fv_matlas fv_rms fv_resid fv_putil fv_autil].
  split; [reflexivity|]. split; [exact M1|]. split; [exact M2|]. split; [reflexivity|].
  split; [|split; [reflexivity|split; [reflexivity|split; [reflexivity|split; reflexivity]]]].
  f_equal. clear. induction us as [|u us IH]; [reflexivity|]. cbn [List.length repeat map]. f_equal. exact IH.
Qed.

(* ------------------------------------------------------------------ *)
(** ** A concrete problem: 100 + 10 u at the pixels 0, 1 and 4 *)

Definition ex_co : list R := [100; 10]%R.
Definition ex_us : list R := [0; 1; 4]%R.
Definition ex_sx : R := match np_std (map Fin ex_us) with Fin r => r | _ => 0%R end.
Definition ex_sy : R := match np_std (map Fin (map (poly ex_co) ex_us)) with Fin r => r | _ => 0%R end.
Definition ex_o : oracle xr := {|
  o_argsort := argsort_stable;
  o_random := fun _ => [];
  o_polyfit := fun _ _ _ _ => Ok (map Fin ex_co);
  o_ls := fun _ _ _ _ => Ok (map Fin [10 * ex_sx / ex_sy; 100 / ex_sy]%R);
  o_sample := fun _ l n _ => firstn n l;
  o_pick := fun _ l => hd NaN l;
  o_spline := fun _ _ _ => Ok (fun _ _ => Fin 1);
  o_np123 := true
|}.
Definition ex_line (w : R) : atlas_line xr := mkAL (Fin w) "Xe"%string (Fin 1) None.
Definition ex_lines : list R := [100; 110; 140]%R.
Definition ex_c (e : R) : calib xr :=
  mkCal (map Fin ex_us) None (Some (mkAtlas (map ex_line ex_lines) (Fin 0) (Fin 1000) (Fin 0))) None
    (mkG (Some (Fin 3)) (Some (map Fin [0; 1; 2; 3; 4]%R)) None false false)
    (mkH None None None None None (Some (Fin 5)) (Some (Fin 5)) (Some (Fin 50)) (Some (Fin 150)) None None)
    (mkR (Some 2%nat) (Some 1%nat) (Some true) (Some false) (Some (Fin 1)) (Some false) (Some (Fin 1))
       (Some (Fin 0)) (Some (Fin 0)) (Some (Fin e)))
    None false
    (PArr (flat_map (fun u => map (fun w => (Fin u, Fin w)) ex_lines) ex_us))
    (mkHough None None (Some [[1%nat]]) (Some [Fin 50; Fin 150]) (Some [Fin 5; Fin 15]) None None None None)
    (Some [(Fin 10, Fin 100)]) (Some (HArr [])) (MList []) (MList []) None None None None None None None None.
Definition ex_a : fit_args xr := mkFA 5 1 None (Fin 0) (Some FitPoly) (Fin 1) false.

Lemma near_Fin a b p w t : (nabs ((Fin a *' Fin p +' Fin b) -' Fin w) <=' Fin t) = Rleb (Rabs (a * p + b + - w)%R) t.
Proof. reflexivity. Qed.
Lemma Rleb_yes x y : (x <= y)%R -> Rleb x y = true. Proof. intros H. destruct (Rleb_spec x y); [auto|contradiction]. Qed.
Lemma Rleb_no x y : ~ (x <= y)%R -> Rleb x y = false. Proof. intros H. destruct (Rleb_spec x y); [contradiction|auto]. Qed.
Lemma Reqb_yes x y : x = y -> Reqb x y = true. Proof. intros H. destruct (Reqb_spec x y); [auto|contradiction]. Qed.
Lemma Reqb_no x y : x <> y -> Reqb x y = false. Proof. intros H. destruct (Reqb_spec x y); [contradiction|auto]. Qed.

Lemma line_candidates_real (rt lt : xr) (tol a b : R) (prs : list (R * R)) : exists g : R * R -> xr,
  line_candidates rt lt (Fin tol) (map (fun q => (Fin (fst q), Fin (snd q))) prs) (Fin a, Fin b) =
  map (fun q => (Fin (fst q), Fin (snd q), g q)) (filter (fun q => Rleb (Rabs (a * fst q + b + - snd q)%R) tol) prs).
Proof.
  unfold line_candidates. cbn [fst snd].
  eexists (fun q => gauss (Fin (snd q)) (nZ 1) (Fin a *' Fin (fst q) +' Fin b) ((rt +' lt) *' nlit 11775 (-4))).
  induction prs as [|q prs IH]; [reflexivity|]. cbn [map filter fst snd]. rewrite near_Fin.
  destruct (Rleb (Rabs (a * fst q + b + - snd q)%R) tol); [|exact IH]. cbn [map fst snd]. f_equal. exact IH.
Qed.

Ltac real_filter :=
  cbn [filter fst snd];
  repeat match goal with |- context [Rleb (Rabs ?x) 1] =>
    first [rewrite (Rleb_yes (Rabs x) 1) by (unfold Rabs; destruct Rcase_abs; lra)
          |rewrite (Rleb_no (Rabs x) 1) by (unfold Rabs; destruct Rcase_abs; lra)] end;
  cbn [map fst snd].

Lemma ex_rows e : exists w1 w2 w3, candidates_linear (ex_c e) (Fin 1) =
  Ok [[(Fin 0, Fin 100, w1); (Fin 1, Fin 110, w2); (Fin 4, Fin 140, w3)]].
Proof.
  unfold candidates_linear, ex_c. cbn [c_lines c_hp h_rt h_lt c_pairs].
  destruct (line_candidates_real (Fin 5) (Fin 5) 1 10 100
    [(0, 100); (0, 110); (0, 140); (1, 100); (1, 110); (1, 140); (4, 100); (4, 110); (4, 140)]%R) as (g & E).
  exists (g (0, 100)%R), (g (1, 110)%R), (g (4, 140)%R). apply f_equal. cbn [map fst snd flat_map app ex_us ex_lines] in E |- *.
  f_equal. etransitivity; [exact E|]. clear E. real_filter. reflexivity.
Qed.

Lemma ex_sorted : StronglySorted Rlt ex_us.
Proof. unfold ex_us. repeat constructor; lra. Qed.

Lemma ex_xy e : ransac_xy ex_o (ex_c e) (Fin 1) = Ok (map Fin ex_us, map Fin (map (poly ex_co) ex_us)).
Proof.
  destruct (ex_rows e) as (w1 & w2 & w3 & E).
  unfold ransac_xy, ransac_candidates. change (c_rp (ex_c e)) with
   (mkR (Some 2%nat) (Some 1%nat) (Some true) (Some false) (Some (Fin 1)) (Some false) (Some (Fin 1))
       (Some (Fin 0)) (Some (Fin 0)) (Some (Fin e))).
  cbn [need bind r_linear r_top r_weighted r_close r_tol]. rewrite E. cbn [bind].
  unfold most_common_candidates. cbn [List.concat app map row_x row_y fst snd].
  change [Fin 0; Fin 1; Fin 4] with (map Fin ex_us). rewrite np_unique_sorted_id by apply ex_sorted.
  unfold ex_us at 1 2. cbn [map]. unfold common_for. cbn [filter row_x row_y fst snd].
  repeat match goal with |- context [Fin ?x ==' Fin ?y] => change (Fin x ==' Fin y) with (Reqb x y) end.
  repeat match goal with |- context [Reqb ?x ?y] =>
    first [rewrite (Reqb_yes x y) by lra|rewrite (Reqb_no x y) by lra] end.
  cbn [map].
  assert (U : forall w, np_unique [Fin w] = [Fin w]) by (intros w; apply (np_unique_sorted_id [w]); repeat constructor).
  cbn [row_y fst snd]. rewrite !U. cbn [map mask_select List.length Nat.min ex_o o_argsort seq firstn gather flat_map fst snd repeat app filter row_x].
  repeat match goal with |- context [Fin ?x ==' Fin ?y] => change (Fin x ==' Fin y) with (Reqb x y) end.
  repeat match goal with |- context [Reqb ?x ?y] =>
    first [rewrite (Reqb_yes x y) by lra|rewrite (Reqb_no x y) by lra] end.
  cbn [map row_y fst snd]. rewrite ?U. cbn.
  unfold gather. cbn. repeat f_equal; lra.
Qed.

Lemma ex_std (l : list R) m v : (1 <= List.length l)%nat -> fold_right Rplus 0%R l = (m * INR (List.length l))%R ->
  fold_right Rplus 0%R (map (fun u => (u - m) * (u - m))%R l) = (v * INR (List.length l))%R -> (0 < v)%R ->
  np_std (map Fin l) = Fin (sqrt v).
Proof.
  intros L Hm Hv V. assert (LN : (0 < INR (List.length l))%R) by (apply lt_0_INR; lia).
  unfold np_std, np_mean. rewrite !map_length, nnat_Fin, np_sum_Fin_R, xdiv_Fin by lra.
  replace (fold_right Rplus 0 l / INR (List.length l))%R with m by (rewrite Hm; field; lra).
  rewrite map_map. rewrite (map_ext _ (fun u => Fin ((u - m) * (u - m)))).
  2:{ intros u. change (Fin u -' Fin m) with (Fin (u + - m)%R). 
      change (Fin (Rabs (u + - m) * Rabs (u + - m))%R = Fin ((u - m) * (u - m))%R). f_equal.
      rewrite <- Rabs_mult. apply Rabs_pos_eq. apply Rle_0_sqr. }
  rewrite <- (map_map (fun u => (u - m) * (u - m))%R Fin), np_sum_Fin_R, Hv, xdiv_Fin by lra.
  replace (v * INR (List.length l) / INR (List.length l))%R with v by (field; lra).
  cbn [nsqrt XRnum xsqrt]. destruct (Rltb_spec v 0); [lra|reflexivity].
Qed.

Lemma ex_poly u : poly ex_co u = (100 + 10 * u)%R.
Proof. unfold poly, ex_co. rewrite !basis_cons. unfold basis_sum. cbn. lra. Qed.

Lemma ex_stds : np_std (map Fin ex_us) = Fin ex_sx /\ np_std (map Fin (map (poly ex_co) ex_us)) = Fin ex_sy /\
  (0 < ex_sx /\ 0 < ex_sy)%R.
Proof.
  assert (E1 : np_std (map Fin ex_us) = Fin (sqrt (26 / 9))).
  { apply (ex_std ex_us (5/3)); cbn; try lia; lra. }
  assert (E2 : np_std (map Fin (map (poly ex_co) ex_us)) = Fin (sqrt (2600 / 9))).
  { apply (ex_std (map (poly ex_co) ex_us) (350/3)); cbn [ex_us map]; rewrite ?ex_poly; cbn; try lia; lra. }
  unfold ex_sx, ex_sy. rewrite E1, E2. repeat split; apply sqrt_lt_R0; lra.
Qed.

Lemma ex_edges : forall lo hi, data_range ex_us lo hi -> forall p i, In p ex_us -> (1 <= i <= 9)%nat -> p <> edge lo hi 10 i.
Proof.
    intros lo hi D p i Hp Hi.
    assert (D0 : data_range ex_us 0 4).
    { right. exists 0%R, 4%R. split; [left; reflexivity|]. split; [right; right; left; reflexivity|].
      split; [intros z [<-|[<-|[<-|[]]]]; lra|]. left. lra. }
    destruct (data_range_unique _ _ _ _ _ D D0) as [-> ->].
    unfold edge. replace (INR 10) with 10%R by (cbn; lra).
    assert (Hi' : (1 <= INR i <= 9)%R) by (split; [change 1%R with (INR 1)|replace 9%R with (INR 9) by (cbn; lra)]; apply le_INR; lia).
    intros E. destruct Hp as [<-|[<-|[<-|[]]]]; try lra.
    assert (E5 : (INR (2 * i) = INR 5)%R) by (rewrite mult_INR; cbn; cbn in E; lra).
    apply INR_eq in E5. lia.
Qed.

Lemma ex_exact_any (c : calib xr) lo hi x0 x1 xe y0 y1 ye h :
  ransac_xy ex_o c (Fin 1) = Ok (map Fin ex_us, map Fin (map (poly ex_co) ex_us)) ->
  c_kind c = Some FitPoly -> c_known c = None -> r_sample (c_rp c) = Some 2%nat -> r_tol (c_rp c) = Some (Fin 1) ->
  h_min_intercept (c_hp c) = Some (Fin lo) -> h_max_intercept (c_hp c) = Some (Fin hi) -> (lo <= 100 <= hi)%R ->
  g_pixels (c_gp c) = Some (map Fin [0; 1; 2; 3; 4]%R) -> r_matches (c_rp c) = Some (Fin 0) -> r_util (c_rp c) = Some (Fin 0) ->
  ho_xedges (c_ht c) = Some (x0 :: x1 :: xe) -> ho_yedges (c_ht c) = Some (y0 :: y1 :: ye) -> ho_hist (c_ht c) = Some h ->
  r_hweight (c_rp c) = Some (Fin 1) ->
  exact_problem ex_o c (Fin 1) 1 2 ex_co ex_us.
Proof.
  intros Hxy Hk Hkn Hs Ht Hlo Hhi Hin Hp Hm Hu Hx Hy Hh Hw.
  destruct ex_stds as (S1 & S2 & P1 & P2).
  split.
  - exists ex_us. split; [exact Hxy|tauto].
  - apply ex_sorted.
  - split; [reflexivity|lia].
  - exact Hk.
  - exact Hkn.
  - split; [exact Hs|cbn; lia].
  - exists 1%R. split; [exact Ht|lra].
  - exists lo, hi. split; [exact Hlo|]. split; [exact Hhi|]. cbn. lra.
  - cbv zeta. intros u v _ _ L. rewrite !ex_poly. lra.
  - exists [0; 1; 2; 3; 4]%R. exact Hp.
  - exists 0%R. split; [exact Hm|]. cbn. lra.
  - exists 0%R. split; [exact Hu|]. rewrite Rmult_0_l. apply pos_INR.
  - exact ex_edges.
  - right. exists x0, x1, xe, y0, y1, ye, h, 1%R.
    repeat split; auto; try lra. intros xs ys. eexists. split; [reflexivity|]. intros a b. exists 1%R. split; [reflexivity|lra].
  - split.
    + intros t l n p L. cbn. split; [rewrite firstn_length; lia|]. exists (skipn n l). rewrite firstn_skipn. reflexivity.
    + intros t l Hl. destruct l; [contradiction|]. left. reflexivity.
  - intros xh _ _. exists ex_co. split; [reflexivity|]. split; [reflexivity|auto].
  - exists ex_sx, ex_sy. split; [exact S1|]. split; [exact S2|]. split; [lra|]. split; [lra|].
    intros start _. eexists. split; [reflexivity|]. split; [reflexivity|]. intros u _.
    rewrite ex_poly. cbn [rev app]. unfold poly. rewrite !basis_cons. unfold basis_sum. cbn. field. lra.
Qed.

Lemma ex_exact (c : calib xr) :
  ransac_xy ex_o c (Fin 1) = Ok (map Fin ex_us, map Fin (map (poly ex_co) ex_us)) ->
  c_kind c = Some FitPoly -> c_known c = None -> r_sample (c_rp c) = Some 2%nat -> r_tol (c_rp c) = Some (Fin 1) ->
  h_min_intercept (c_hp c) = Some (Fin 50) -> h_max_intercept (c_hp c) = Some (Fin 150) ->
  g_pixels (c_gp c) = Some (map Fin [0; 1; 2; 3; 4]%R) -> r_matches (c_rp c) = Some (Fin 0) -> r_util (c_rp c) = Some (Fin 0) ->
  ho_xedges (c_ht c) = Some [Fin 50; Fin 150] -> ho_yedges (c_ht c) = Some [Fin 5; Fin 15] -> ho_hist (c_ht c) = Some [[1%nat]] ->
  r_hweight (c_rp c) = Some (Fin 1) ->
  exact_problem ex_o c (Fin 1) 1 2 ex_co ex_us.
Proof. intros. eapply ex_exact_any; eauto. lra. Qed.

Lemma ex_prepared (e : R) : exists c1 c2, fit_begin (ex_c e) ex_a = (c1, Ok tt) /\ fit_prepare ex_o c1 ex_a = (c2, Ok tt) /\
  exact_problem ex_o c2 (fa_ctol ex_a) (fa_deg ex_a) 2 ex_co ex_us /\ r_fit_error (c_rp c2) = Some (Fin e) /\
  c_atlas c2 = c_atlas (ex_c e).
Proof.
  eexists. eexists. split; [reflexivity|]. split.
  { unfold fit_prepare, fit_hough.
    cbn [c_atlas c_rp c_lines c_points set_sample set_c_rp set_c_kind set_c_coeff set_c_deg ex_c r_sample r_matches].
    reflexivity. }
  split; [|split; reflexivity].
  apply ex_exact; try reflexivity; [exact (ex_xy e)|].
  { cbn [c_rp set_matches set_c_rp r_matches]. f_equal. unfold adjusted_matches. rewrite !nnat_Fin.
    repeat match goal with |- context [?a <' ?b] =>
      lazymatch a with Fin (INR ?n) => change (a <' b) with (Rltb (INR n) 0) end;
      match goal with |- context [Rltb ?u ?v] => destruct (Rltb_spec u v) as [L|_]; [cbn in L; lra|] end end.
    reflexivity. }
Qed.

(** Three lines at 100, 110 and 140 on the pixels 0, 1 and 4, a straight line to fit
    and the default minimum_fit_error. *)
Example exact_data_refuted_example_main :
  exists c1 c2, fit_begin (ex_c (1 / 10000)) ex_a = (c1, Ok tt) /\ fit_prepare ex_o c1 ex_a = (c2, Ok tt) /\
    exact_problem ex_o c2 (fa_ctol ex_a) (fa_deg ex_a) 2 [100; 10]%R [0; 1; 4]%R /\
    r_fit_error (c_rp c2) = Some (Fin (1 / 10000)) /\ (forall fuel, fit ex_o fuel (ex_c (1 / 10000)) ex_a = None).
Proof.
  destruct (ex_prepared (1 / 10000)) as (c1 & c2 & B & P & X & E & _).
  exists c1, c2. split; auto. split; auto. split; auto. split; auto.
  apply (exact_data_refuted_main _ _ _ c1 c2 2 ex_co ex_us (1 / 10000)); auto; try reflexivity; [cbn; lia|lra].
Qed.

(** The same with minimum_fit_error = 0. *)
Example exact_data_example_main :
  exists c' v, fit ex_o 2 (ex_c 0) ex_a = Some (c', Ok v) /\ fv_coeff v = map Fin [100; 10]%R /\
    fv_mpeaks v = MList (map Fin [0; 1; 4]%R) /\ fv_rms v = Fin 0.
Proof.
  destruct (ex_prepared 0) as (c1 & c2 & B & P & X & E & Ea).
  destruct (exact_data_partial_main ex_o (ex_c 0) ex_a c1 c2 2 ex_co ex_us 0 _ eq_refl eq_refl ltac:(cbn; lia) B P X E ltac:(lra) Ea
    2%nat ltac:(lia)) as (c' & v & H & H1 & H2 & _ & H3 & _). exists c', v. auto.
Qed.

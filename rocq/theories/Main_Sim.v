(** * Main_Sim: a simulated arc, calibrated (C143). *)

From Coq Require Import ZArith Bool List String Lia Reals Lra Sorted Permutation.
From Verif Require Import Num F64 XReal Py Np NpFacts ArgsortFacts Util Models Atlas Hough SpecHough HoughFacts PolyEval SpecPoly PolyFacts Main_Models Calib SpecCalib CalibFacts Main_Calib Cand SpecCand CandFacts Ransac SpecRansac RansacFacts SampleFacts SpecRecover RecoverFacts PolyIdent Fit SpecFit FitFacts Main_Fit Main_Recover SpecVote Main_Cand Main_Vote SpecRegion Main_Region SpecCover Main_Cover Synthetic SpecSim Main_Optimal.
Import ListNotations.
Local Open Scope num_scope.

Lemma FinP_prod us ls : map FinP (list_prod us ls) = list_prod (map Fin us) (map Fin ls).
Proof.
  induction us as [|u us IH]; [reflexivity|]. cbn [list_prod map]. rewrite map_app, IH, !map_map. f_equal.
Qed.

(** The simulated pixels lie on the curve. *)
Lemma pixels_on_curve (inv : inverter xr) coefs lo hi s ws us wl :
  (2 <= List.length coefs)%nat ->
  synth_init (CSeq (map Fin coefs)) (LFloat (Fin lo)) (LFloat (Fin hi)) = Ok s -> inverts inv s ->
  (forall b, coefs = [hd 0%R coefs; b] -> b <> 0%R) ->
  get_pixels inv s (Some (map Fin ws)) = Ok (map Fin us, map Fin wl) ->
  let co := if Nat.eqb (List.length coefs) 2 then coefs else rev coefs in
  wl = filter (fun w => Rltb lo w && Rltb w hi) ws /\ map (poly co) us = wl.
Proof.
  intros Lc Hs Hinv Hnz Hg co.
  assert (Es : s = mkSynth (Fin lo) (Fin hi) (Some (map Fin coefs)) (Some (map Fin coefs))).
  { unfold synth_init, new_limits in Hs. cbn [bind] in Hs. destruct (Fin lo <' Fin hi); [|discriminate].
    cbn [bind fst snd] in Hs. congruence. }
  assert (Ew : filter (fun x => x <' Fin hi) (filter (fun x => Fin lo <' x) (map Fin ws))
               = map Fin (filter (fun w => Rltb lo w && Rltb w hi) ws)).
  { clear. induction ws as [|w ws IH]; [reflexivity|]. cbn [map filter].
    change (Fin lo <' Fin w) with (Rltb lo w). destruct (Rltb lo w); cbn [andb]; [|exact IH].
    cbn [filter]. change (Fin w <' Fin hi) with (Rltb w hi). destruct (Rltb w hi); [cbn [map]; f_equal|]; exact IH. }
  subst s. unfold get_pixels in Hg. cbn [sy_min sy_max sy_coef sy_model] in Hg. rewrite Ew in Hg.
  set (wl' := filter (fun w => Rltb lo w && Rltb w hi) ws) in *. clearbody wl'. clear Ew Hs.
  destruct coefs as [|c0 [|c1 [|c2 coefs]]]; try (cbn in Lc; lia).
  - cbn [map nth_error bind] in Hg. apply (f_equal (fun r => match r with Ok p => p | Raise _ => ([], []) end)) in Hg.
    cbn [bind] in Hg. assert (H1 := f_equal fst Hg). assert (H2 := f_equal snd Hg). cbn [fst snd] in H1, H2. clear Hg.
    apply map_Fin_inj in H2. subst wl. split; [reflexivity|].
    assert (Hc1 : c1 <> 0%R) by (apply Hnz; reflexivity).
    unfold co. cbn [List.length Nat.eqb].
    assert (us = map (fun w => (w - c0) / c1)%R wl') as ->.
    { apply map_Fin_inj. rewrite <- H1, !map_map. apply map_ext. intros w.
      change (Fin w -' Fin c0) with (Fin (w + - c0)%R). rewrite xdiv_Fin by auto. reflexivity. }
    rewrite map_map. rewrite <- (map_id wl') at 2. apply map_ext. intros w.
    unfold poly. rewrite !basis_cons. unfold basis_sum. cbn. field. auto.
  - set (cs := c0 :: c1 :: c2 :: coefs) in *.
    assert (Hm : match inv (Some (map Fin cs)) (map Fin wl') with Ok px => Ok (px, map Fin wl') | Raise e => Raise e end
                 = Ok (map Fin us, map Fin wl)).
    { revert Hg. unfold cs. cbn [map]. destruct (inv _ _); exact (fun H => H). }
    clear Hg. destruct (inv (Some (map Fin cs)) (map Fin wl')) as [px|e] eqn:Ei; [|discriminate].
    assert (H1 : px = map Fin us) by congruence. assert (H2 : map Fin wl' = map Fin wl) by congruence. clear Hm.
    apply map_Fin_inj in H2. subst wl px. split; [reflexivity|].
    apply Hinv in Ei. unfold co. replace (Nat.eqb (List.length cs) 2) with false by reflexivity.
    clear -Ei. remember (map Fin us) as px eqn:Ep. remember (map Fin wl') as pw eqn:Epw.
    revert us wl' Ep Epw. induction Ei as [|p w px pw Hpw Ei IH]; intros us wl' Ep Epw.
    + destruct us, wl'; try discriminate. reflexivity.
    + destruct us as [|u us]; [discriminate|]. destruct wl' as [|w' wl']; [discriminate|].
      cbn [map] in Ep, Epw |- *. injection Ep as -> ->. injection Epw as -> ->. rewrite (IH us wl' eq_refl eq_refl). f_equal.
      unfold model_at in Hpw. cbn [sy_model] in Hpw.
      assert (Hpw' : bind (polynomial (map Fin cs) (List.length (map Fin cs) - 1)) (fun f => Ok (f (Fin u))) = Ok (Fin w')) by exact Hpw.
      clear Hpw. unfold polynomial in Hpw'. rewrite map_length in Hpw'.
      replace (Nat.eqb (List.length cs) (List.length cs - 1 + 1)) with true in Hpw'
        by (symmetry; apply Nat.eqb_eq; unfold cs; cbn [List.length]; lia).
      cbn [bind] in Hpw'. rewrite poly_at_real in Hpw' by (unfold cs; cbn [List.length]; lia).
      apply (f_equal (fun r => match r with Ok (Fin v) => v | _ => 0%R end)) in Hpw'. exact Hpw'.
Qed.

Lemma SS_filter (f : R -> bool) l : StronglySorted Rlt l -> StronglySorted Rlt (filter f l).
Proof.
  induction 1 as [|a l Hs IH Ha]; [constructor|]. cbn [filter]. destruct (f a); [|exact IH].
  constructor; auto. apply Forall_forall. intros x Hx. apply filter_In in Hx. rewrite Forall_forall in Ha. apply Ha. tauto.
Qed.

Lemma SS_pull (g : R -> R) p0 p1 l : (forall u v, (p0 <= u <= p1)%R -> (p0 <= v <= p1)%R -> (u < v -> g u < g v)%R) ->
  (forall u, In u l -> (p0 <= u <= p1)%R) -> StronglySorted Rlt (map g l) -> StronglySorted Rlt l.
Proof.
  intros Hg. induction l as [|a l IH]; intros Hl H; [constructor|]. cbn [map] in H. inversion H as [|? ? H1 H2]; subst.
  constructor; [apply IH; auto; intros u Hu; apply Hl; right; auto|]. apply Forall_forall. intros x Hx.
  rewrite Forall_forall in H2. specialize (H2 (g x) (in_map g _ _ Hx)).
  assert (Ba := Hl a (or_introl eq_refl)). assert (Bx := Hl x (or_intror Hx)).
  destruct (Rtotal_order a x) as [L|[->|L]]; auto; [lra|]. specialize (Hg x a Bx Ba L). lra.
Qed.

Lemma last_in (l : list R) d : l <> [] -> In (last l d) l.
Proof.
  induction l as [|a l IH]; [congruence|]. intros _. destruct l as [|b l]; [left; reflexivity|].
  right. apply IH. discriminate.
Qed.

Lemma sim_sound inv coefs lo hi s ws us wl hull c0 at_ ct c ls a n xb yb lo_s hi_s lo_i hi_i tol size p0 p1 :
  (2 <= List.length coefs)%nat ->
  synth_init (CSeq (map Fin coefs)) (LFloat (Fin lo)) (LFloat (Fin hi)) = Ok s -> inverts inv s ->
  StronglySorted Rlt ws -> get_pixels inv s (Some (map Fin ws)) = Ok (map Fin us, map Fin wl) ->
  c_peaks c0 = map Fin us -> get_lines at_ = map Fin ls -> incl wl ls ->
  set_atlas hull c0 at_ ct false = (c, Ok tt) ->
  let co := if Nat.eqb (List.length coefs) 2 then coefs else rev coefs in
  on_detector co us p0 p1 ->
  sim_settings c a us ls n xb yb lo_s hi_s lo_i hi_i tol size co ->
  sound_session c a (list_prod us ls) n xb yb lo_s hi_s lo_i hi_i tol size co us /\ wl = map (poly co) us.
Proof.
  intros Lc Hs Hinv Sw Hg Hpk Hl Hwl Hset co (Hp01 & Hin & Hinc) H. cbv zeta in Hinc.
  assert (Lco : List.length co = List.length coefs) by (unfold co; destruct (Nat.eqb _ _); [reflexivity|apply rev_length]).
  destruct H as [A1 D1 (S1 & S2 & S3 & S4 & S5 & S6 & S7 & S8 & S9 & S10 & S11 & S12 & S13) W1 L1 T1 T2 (Z1 & Z2 & Z3)
    M1 (t & U1 & U2) G1 R1 RR WW I1 E1].
  assert (Hne : us <> []) by (intros ->; cbn in Z2; lia).
  assert (Hnz : forall b, coefs = [hd 0%R coefs; b] -> b <> 0%R).
  { intros b Eb Hb. subst b.
    assert (Eco : co = [hd 0%R coefs; 0%R]) by (unfold co; rewrite Eb at 1; cbn [List.length Nat.eqb]; exact Eb).
    assert (Hflat : forall u v, poly co u = poly co v).
    { intros u v. rewrite Eco. unfold poly. rewrite !basis_cons. unfold basis_sum. cbn. lra. }
    specialize (Hinc p0 p1 ltac:(lra) ltac:(lra) Hp01). rewrite (Hflat p0 p1) in Hinc. lra. }
  destruct (pixels_on_curve inv coefs lo hi s ws us wl Lc Hs Hinv Hnz Hg) as (Ewl & Ecurve). fold co in Ecurve.
  assert (Swl : StronglySorted Rlt wl) by (rewrite Ewl; apply SS_filter; exact Sw).
  assert (Sus : StronglySorted Rlt us).
  { apply (SS_pull (poly co) p0 p1); [|exact Hin|rewrite Ecurve; exact Swl].
    intros u v Hu Hv L. apply Hinc; lra. }
  assert (Lls : ls <> []) by (intros ->; cbn in Z3; lia).
  assert (Hprod : list_prod us ls <> []).
  { destruct us as [|u us']; [congruence|]. destruct ls as [|l ls']; [congruence|]. discriminate. }
  unfold set_atlas, generate_pairs in Hset. cbn [c_atlas c_constrain set_c_constrain set_c_cand_tol set_c_atlas c_peaks] in Hset.
  unfold product_pairs in Hset. rewrite Hpk, Hl, <- FinP_prod in Hset.
  assert (Hm : match map FinP (list_prod us ls) with [] => PFlat | _ => PArr (map FinP (list_prod us ls)) end
               = PArr (map FinP (list_prod us ls))).
  { destruct (list_prod us ls); [congruence|reflexivity]. }
  rewrite Hm in Hset. apply (f_equal fst) in Hset. cbn [fst] in Hset.
  assert (Cp : c_pairs c = PArr (map FinP (list_prod us ls))) by (rewrite <- Hset; reflexivity).
  assert (Ck : c_peaks c = map Fin us) by (rewrite <- Hset; exact Hpk).
  assert (Ca : c_atlas c = Some at_) by (rewrite <- Hset; reflexivity).
  clear Hset Hm.
  assert (La : atlas_len at_ = List.length ls).
  { unfold get_lines in Hl. apply (f_equal (@List.length xr)) in Hl. rewrite !map_length in Hl. exact Hl. }
  split; [|symmetry; exact Ecurve].
  split.
  - exact A1.
  - split; lia.
  - split; [|exact S13]. unfold hough_ready. repeat (split; [assumption|]). assumption.
  - exact W1.
  - exact L1.
  - exact T1.
  - exact T2.
  - split; [exact Z1|]. split; [lia|]. exists at_. split; [exact Ca|lia].
  - exact M1.
  - exists t. split; [exact U1|]. rewrite Ck, map_length. assert (0 <= INR (List.length us))%R by apply pos_INR. nra.
  - exact G1.
  - exact R1.
  - split; [exact Sus|]. intros u. split.
    + intros Hu. apply in_prod; [exact Hu|]. apply Hwl. rewrite <- Ecurve. apply in_map. exact Hu.
    + intros Hu. apply in_prod_iff in Hu. tauto.
  - exact RR.
  - intros p w Hp. apply in_prod_iff in Hp. destruct Hp. apply WW; auto.
  - exact I1.
  - cbv zeta. intros u v Hu Hv L.
    assert (B1 := Hin (last us 0%R) (last_in us 0 Hne)).
    assert (B2 : (p0 <= hd 0 us <= p1)%R) by (apply Hin; destruct us; [congruence|left; reflexivity]).
    apply Hinc; lra.
  - exact E1.
Qed.

(** C143: an arc is simulated from the coefficients coefs and some of the atlas lines,
    and the simulated pixels are calibrated.  Two coefficients come back as they were
    given; three or more come back in the opposite order. *)
Lemma simulated_arc_partial_main :
  forall (o : oracle xr) (inv : inverter xr) coefs lo hi s ws us wl hull c0 at_ ct c ls a n xb yb lo_s hi_s lo_i hi_i tol size p0 p1 (e : R),
    (* the simulation *)
    (2 <= List.length coefs)%nat ->
    synth_init (CSeq (map Fin coefs)) (LFloat (Fin lo)) (LFloat (Fin hi)) = Ok s -> inverts inv s ->
    StronglySorted Rlt ws -> get_pixels inv s (Some (map Fin ws)) = Ok (map Fin us, map Fin wl) ->
    (* the calibrator is given the simulated pixels and an atlas with the simulated lines *)
    c_peaks c0 = map Fin us -> get_lines at_ = map Fin ls -> incl wl ls ->
    set_atlas hull c0 at_ ct false = (c, Ok tt) ->
    let co := if Nat.eqb (List.length coefs) 2 then coefs else rev coefs in
    on_detector co us p0 p1 ->
    sim_settings c a us ls n xb yb lo_s hi_s lo_i hi_i tol size co ->
    r_fit_error (c_rp c) = Some (Fin e) -> (e <= 0)%R ->
    (* the libraries *)
    (forall l, is_argsort l (o_argsort o l)) ->
    honest_draws o -> spline_not_negative o -> exact_polyfit o (fa_deg a) co -> exact_robust o (fa_deg a) co us ->
    forall fuel, (2 <= fuel)%nat ->
    exists c' v, fit o fuel c a = Some (c', Ok v) /\
      fv_coeff v = map Fin co /\
      fv_mpeaks v = MList (map Fin us) /\ fv_matlas v = MList (map Fin wl) /\
      fv_rms v = Fin 0 /\ fv_resid v = Some (map (fun _ => Fin 0) us).
Proof.
  intros o inv coefs lo hi s ws us wl hull c0 at_ ct c ls a n xb yb lo_s hi_s lo_i hi_i tol size p0 p1 e
    Lc Hs Hinv Sw Hg Hpk Hl Hwl Hset co Hd Hsim He He0 O1 O2 O3 O4 O5 fuel Hf.
  destruct (sim_sound inv coefs lo hi s ws us wl hull c0 at_ ct c ls a n xb yb lo_s hi_s lo_i hi_i tol size p0 p1
    Lc Hs Hinv Sw Hg Hpk Hl Hwl Hset Hd Hsim) as (X & Ewl). fold co in X, Ewl.
  rewrite Ewl. eapply perfect_session_partial_main; eauto.
Qed.

(** C143 REFUTED: with any positive minimum_fit_error (the default is 1e-4) fit never
    returns on a simulated arc. *)
Lemma simulated_arc_refuted_main :
  forall (o : oracle xr) (inv : inverter xr) coefs lo hi s ws us wl hull c0 at_ ct c ls a n xb yb lo_s hi_s lo_i hi_i tol size p0 p1 (e : R),
    (2 <= List.length coefs)%nat ->
    synth_init (CSeq (map Fin coefs)) (LFloat (Fin lo)) (LFloat (Fin hi)) = Ok s -> inverts inv s ->
    StronglySorted Rlt ws -> get_pixels inv s (Some (map Fin ws)) = Ok (map Fin us, map Fin wl) ->
    c_peaks c0 = map Fin us -> get_lines at_ = map Fin ls -> incl wl ls ->
    set_atlas hull c0 at_ ct false = (c, Ok tt) ->
    let co := if Nat.eqb (List.length coefs) 2 then coefs else rev coefs in
    on_detector co us p0 p1 ->
    sim_settings c a us ls n xb yb lo_s hi_s lo_i hi_i tol size co ->
    r_fit_error (c_rp c) = Some (Fin e) -> (0 < e)%R ->
    (forall l, is_argsort l (o_argsort o l)) ->
    honest_draws o -> spline_not_negative o -> exact_polyfit o (fa_deg a) co -> exact_robust o (fa_deg a) co us ->
    forall fuel, fit o fuel c a = None.
Proof.
  intros o inv coefs lo hi s ws us wl hull c0 at_ ct c ls a n xb yb lo_s hi_s lo_i hi_i tol size p0 p1 e
    Lc Hs Hinv Sw Hg Hpk Hl Hwl Hset co Hd Hsim He He0 O1 O2 O3 O4 O5 fuel.
  destruct (sim_sound inv coefs lo hi s ws us wl hull c0 at_ ct c ls a n xb yb lo_s hi_s lo_i hi_i tol size p0 p1
    Lc Hs Hinv Sw Hg Hpk Hl Hwl Hset Hd Hsim) as (X & Ewl). fold co in X.
  eapply perfect_session_refuted_main; eauto.
Qed.

(** ** Non-vacuity: a quadratic *)

Definition sim_co : list R := [100; 10; 1 / 10]%R.
Definition sim_us : list R := [0; 1; 4; 6]%R.
Definition sim_wl : list R := [100; 1101 / 10; 1416 / 10; 1636 / 10]%R.
Definition sim_ls : list R := [100; 1101 / 10; 1416 / 10; 1636 / 10; 250]%R.
Definition sim_sx : R := match np_std (map Fin sim_us) with Fin r => r | _ => 0%R end.
Definition sim_sy : R := match np_std (map Fin (map (poly sim_co) sim_us)) with Fin r => r | _ => 0%R end.
Definition sim_o : oracle xr := {|
  o_argsort := argsort_stable;
  o_random := fun _ => [];
  o_polyfit := fun _ _ _ _ => Ok (map Fin sim_co);
  o_ls := fun _ _ _ _ => Ok (map Fin [sim_sx * sim_sx / (10 * sim_sy); 10 * sim_sx / sim_sy; 100 / sim_sy]%R);
  o_sample := fun _ l n _ => firstn n l;
  o_pick := fun _ l => hd NaN l;
  o_spline := fun _ _ _ => Ok (fun _ _ => Fin 1);
  o_np123 := true
|}.
(* the solution of 100 + 10 u + u^2 / 10 = w *)
Definition sim_inv : inverter xr := fun _ v =>
  if forallb (fun w => match w with Fin r => Rleb (-150) r | _ => false end) v
  then Ok (map (fun w => match w with Fin r => Fin (sqrt (1500 + 10 * r) - 50) | _ => NaN end) v) else Raise ValueError.
Definition sim_atlas : atlas xr := mkAtlas (map ex_line sim_ls) (Fin 0) (Fin 1000) (Fin 0).
Definition sim_c0 (e : R) : calib xr :=
  mkCal (map Fin sim_us) None None None
    (mkG (Some (Fin 4)) (Some (map Fin [0; 1; 2; 3; 4]%R)) None false false)
    (mkH (Some 1%Z) (Some 10%nat) (Some 10%nat) None None (Some (Fin 5)) (Some (Fin 5)) (Some (Fin 95)) (Some (Fin 105))
       (Some (Fin 10)) (Some (Fin 10)))
    (mkR (Some 3%nat) (Some 1%nat) (Some true) (Some false) (Some (Fin 1)) (Some false) (Some (Fin 1))
       (Some (Fin 0)) (Some (Fin 0)) (Some (Fin e)))
    None false PFlat (hough_init (A := xr)) None None (MList []) (MList [])
    None None None None None None None None.
Definition sim_hull : hull_test xr := fun _ _ => Raise ValueError.
Definition sim_c (e : R) : calib xr := fst (set_atlas sim_hull (sim_c0 e) sim_atlas (Fin 10) false).
Definition sim_a : fit_args xr := mkFA 5 2 None (Fin 0) (Some FitPoly) (Fin 1) false.

Lemma sim_poly u : poly sim_co u = (100 + 10 * u + u * u / 10)%R.
Proof. unfold poly, sim_co. rewrite !basis_cons. unfold basis_sum. cbn. field. Qed.

Lemma sim_stds : np_std (map Fin sim_us) = Fin sim_sx /\ np_std (map Fin (map (poly sim_co) sim_us)) = Fin sim_sy /\
  (0 < sim_sx /\ 0 < sim_sy)%R.
Proof.
  assert (E1 : np_std (map Fin sim_us) = Fin (sqrt (91 / 16))).
  { apply (ex_std sim_us (11/4)); cbn; try lia; lra. }
  assert (E2 : np_std (map Fin (map (poly sim_co) sim_us)) = Fin (sqrt (638501875 / 1000000))).
  { apply (ex_std (map (poly sim_co) sim_us) (128825/1000)); cbn [sim_us map]; rewrite ?sim_poly; cbn; try lia; lra. }
  unfold sim_sx, sim_sy. rewrite E1, E2. repeat split; apply sqrt_lt_R0; lra.
Qed.

Lemma sim_sorted : StronglySorted Rlt (sim_wl ++ [300])%R.
Proof. unfold sim_wl; cbn [app]; repeat (constructor; [|repeat constructor; lra]). constructor. Qed.

Lemma sim_edges : forall lo hi, data_range sim_us lo hi -> forall p i, In p sim_us -> (1 <= i <= 9)%nat -> p <> edge lo hi 10 i.
Proof.
  intros lo hi D p i Hp Hi.
  assert (D0 : data_range sim_us 0 6).
  { right. exists 0%R, 6%R. split; [left; reflexivity|]. split; [do 3 right; left; reflexivity|].
    split; [intros z [<-|[<-|[<-|[<-|[]]]]]; lra|]. left. lra. }
  destruct (data_range_unique _ _ _ _ _ D D0) as [-> ->].
  unfold edge. replace (INR 10) with 10%R by (cbn; lra).
  assert (Hi' : (1 <= INR i <= 9)%R) by (split; [change 1%R with (INR 1)|replace 9%R with (INR 9) by (cbn; lra)]; apply le_INR; lia).
  intros E. destruct Hp as [<-|[<-|[<-|[<-|[]]]]]; try lra.
  - assert (E5 : (INR (3 * i) = INR 5)%R) by (rewrite mult_INR; cbn; cbn in E; lra). apply INR_eq in E5. lia.
  - assert (E5 : (INR (3 * i) = INR 20)%R) by (rewrite mult_INR; cbn; cbn in E; lra). apply INR_eq in E5. lia.
Qed.

Lemma sim_right p w : In p sim_us -> In w sim_ls -> compatible 10 10 95 105 1 (list_prod sim_us sim_ls) 1 p w -> w = poly sim_co p.
Proof.
  intros Hp Hw (m & i & Rm & Ri & Hnear).
  assert (Adm : forall l, admitted 10 10 95 105 1 (list_prod sim_us sim_ls) l -> fst l = 10%R /\ (95 <= snd l <= 105)%R).
  { intros l (k & p' & w' & Hk & _ & Es & _ & B). assert (k = 0%nat) as -> by lia.
    unfold slope_at in Es. cbn [Nat.eqb] in Es. auto. }
  assert (One : admitted 10 10 95 105 1 (list_prod sim_us sim_ls) (10, 100)%R).
  { exists 0%nat, 0%R, 100%R. cbn [fst snd]. split; [lia|]. split; [apply in_prod; left; reflexivity|].
    split; [unfold slope_at; reflexivity|]. lra. }
  assert (Bm : (19 / 2 <= m <= 21 / 2)%R).
  { destruct Rm as [((a & b & (l & A1 & A2) & (l' & A3 & A4) & D) & _)|[(a & (l & A1 & A2) & _ & B)|(K & _)]].
    - apply Adm in A1, A3. destruct A1, A3. congruence.
    - apply Adm in A1. destruct A1 as (A1 & _). lra.
    - exfalso. apply (K 10%R). exists (10, 100)%R. split; [exact One|reflexivity]. }
  assert (Bi : (189 / 2 <= i <= 211 / 2)%R).
  { destruct Ri as [(_ & B)|[(a & (l & A1 & A2) & _ & B)|(K & _)]].
    - lra.
    - apply Adm in A1. destruct A1 as (_ & A1). lra.
    - exfalso. apply (K 100%R). exists (10, 100)%R. split; [exact One|reflexivity]. }
  apply Rabs_le_inv in Hnear. rewrite sim_poly.
  destruct Hp as [<-|[<-|[<-|[<-|[]]]]]; destruct Hw as [<-|[<-|[<-|[<-|[<-|[]]]]]]; lra.
Qed.

Lemma sim_ok e : sim_settings (sim_c e) sim_a sim_us sim_ls 1 10 10 10 10 95 105 1 3 sim_co.
Proof.
  split.
  - repeat split; cbn; lia.
  - reflexivity.
  - cbn. repeat split; try lra; try lia.
  - split; eexists; reflexivity.
  - split; reflexivity.
  - split; [exists 1%nat; split; [reflexivity|lia]|eexists; reflexivity].
  - exists 1%R. split; [reflexivity|lra].
  - split; [reflexivity|]. cbn. lia.
  - exists 0%R. split; [reflexivity|]. apply pos_INR.
  - exists 0%R. split; [reflexivity|lra].
  - exists 1%R. split; [reflexivity|lra].
  - split; [reflexivity|]. eexists. reflexivity.
  - intros u Hu. assert (B : (0 <= u <= 6)%R) by (destruct Hu as [<-|[<-|[<-|[<-|[]]]]]; lra). split.
    + exists 0%nat. split; [lia|]. rewrite sim_poly. unfold slope_at. cbn [Nat.eqb]. split; nra.
    + unfold half_bin. rewrite !Rminus_diag_eq by reflexivity.
      rewrite (Rmax_right 0 1), (Rmax_left (105 - 95) 1) by lra. cbn [INR]. rewrite Rabs_pos_eq by lra. lra.
  - exact sim_right.
  - cbn [hd sim_co]. lra.
  - exact sim_edges.
Qed.

Lemma sim_libraries : (forall l, is_argsort l (o_argsort sim_o l)) /\ honest_draws sim_o /\ spline_not_negative sim_o /\
  exact_polyfit sim_o 2 sim_co /\ exact_robust sim_o 2 sim_co sim_us.
Proof.
  destruct sim_stds as (S1 & S2 & P1 & P2).
  split; [intros l; apply argsort_stable_ok|]. split; [|split; [|split]].
  - split.
    + intros t l n p L. cbn. split; [rewrite firstn_length; lia|]. exists (skipn n l). rewrite firstn_skipn. reflexivity.
    + intros t l Hl. destruct l; [contradiction|]. left. reflexivity.
  - intros xs ys h. eexists. split; [reflexivity|]. intros a b. exists 1%R. split; [reflexivity|lra].
  - intros xh _ _. exists sim_co. split; [reflexivity|]. split; [reflexivity|auto].
  - exists sim_sx, sim_sy. split; [exact S1|]. split; [exact S2|]. split; [lra|]. split; [lra|].
    intros start _. eexists. split; [reflexivity|]. split; [reflexivity|]. intros u _.
    rewrite sim_poly. cbn [rev app]. unfold poly. rewrite !basis_cons. unfold basis_sum. cbn. field. lra.
Qed.

Definition sim_s : synth xr :=
  mkSynth (Fin 50) (Fin 200) (Some (map Fin [1 / 10; 10; 100]%R)) (Some (map Fin [1 / 10; 10; 100]%R)).

Lemma sim_init : synth_init (CSeq (map Fin [1 / 10; 10; 100]%R)) (LFloat (Fin 50)) (LFloat (Fin 200)) = Ok sim_s.
Proof.
  unfold synth_init, new_limits. cbn [bind]. change (Fin 50 <' Fin 200) with (Rltb 50 200).
  destruct (Rltb_spec 50 200); [reflexivity|lra].
Qed.

Lemma sim_inverts : inverts sim_inv sim_s.
Proof.
  intros v p. unfold sim_inv. destruct (forallb _ v) eqn:E; [|discriminate]. intros H. injection H as <-.
  induction v as [|w v IH]; [constructor|]. cbn [forallb] in E. apply andb_true_iff in E. destruct E as [E1 E2].
  cbn [map]. constructor; [|apply IH; exact E2]. destruct w as [r| |]; try discriminate.
  destruct (Rleb_spec (-150) r) as [L|]; [|discriminate].
  assert (E : polynomial (map Fin [1 / 10; 10; 100]%R) 2 = Ok (poly_at (map Fin [1 / 10; 10; 100]%R) 2)) by reflexivity.
  unfold model_at, sim_s. cbn [sy_model].
  change (bind (polynomial (map Fin [1 / 10; 10; 100]%R) 2) (fun f => Ok (f (Fin (sqrt (1500 + 10 * r) - 50)))) = Ok (Fin r)).
  rewrite E. cbn [bind]. rewrite poly_at_real by reflexivity. cbn [rev app]. do 2 f_equal.
  assert (S : (sqrt (1500 + 10 * r) * sqrt (1500 + 10 * r) = 1500 + 10 * r)%R) by (apply sqrt_sqrt; lra).
  change (poly sim_co (sqrt (1500 + 10 * r) - 50) = r)%R. rewrite sim_poly. set (q := sqrt _) in *. nra.
Qed.

Lemma sim_pixels : get_pixels sim_inv sim_s (Some (map Fin (sim_wl ++ [300])%R)) = Ok (map Fin sim_us, map Fin sim_wl).
Proof.
  unfold get_pixels, sim_s. cbn [sy_min sy_max sy_model sy_coef].
  assert (E : filter (fun x => x <' Fin 200) (filter (fun x => Fin 50 <' x) (map Fin (sim_wl ++ [300])%R)) = map Fin sim_wl).
  { unfold sim_wl. cbn [app map filter].
    repeat match goal with |- context [Fin 50 <' Fin ?w] => change (Fin 50 <' Fin w) with (Rltb 50 w); destruct (Rltb_spec 50 w); [|lra] end.
    cbn [filter].
    repeat match goal with |- context [Fin ?w <' Fin 200] => change (Fin w <' Fin 200) with (Rltb w 200); destruct (Rltb_spec w 200); try lra end.
    reflexivity. }
  rewrite E. cbn [map]. change (bind (sim_inv (Some (map Fin [1 / 10; 10; 100]%R)) (map Fin sim_wl)) (fun px => Ok (px, map Fin sim_wl)) = Ok (map Fin sim_us, map Fin sim_wl)).
  unfold sim_inv, sim_wl. cbn [map forallb].
  repeat match goal with |- context [Rleb (-150) ?w] => destruct (Rleb_spec (-150) w); [|lra] end.
  cbn [andb bind sim_us map].
  replace (sqrt (1500 + 10 * 100)) with 50%R by (symmetry; apply sqrt_lem_1; lra).
  replace (sqrt (1500 + 10 * (1101 / 10))) with 51%R by (symmetry; apply sqrt_lem_1; lra).
  replace (sqrt (1500 + 10 * (1416 / 10))) with 54%R by (symmetry; apply sqrt_lem_1; lra).
  replace (sqrt (1500 + 10 * (1636 / 10))) with 56%R by (symmetry; apply sqrt_lem_1; lra).
  repeat f_equal; lra.
Qed.

Lemma sim_detector : on_detector sim_co sim_us 0 10.
Proof.
  split; [lra|]. split; [intros u [<-|[<-|[<-|[<-|[]]]]]; lra|]. cbv zeta. intros u v Hu Hv L. rewrite !sim_poly. nra.
Qed.

(** The arc is simulated between 50 and 200 with 100 + 10 u + u^2 / 10 (a line at 300
    is beyond); the atlas has one line more.  The coefficients come back lowest power
    first, or fit never returns. *)
Example simulated_arc_example_main :
  synth_init (CSeq (map Fin [1 / 10; 10; 100]%R)) (LFloat (Fin 50)) (LFloat (Fin 200)) = Ok sim_s /\
  inverts sim_inv sim_s /\
  get_pixels sim_inv sim_s (Some (map Fin [100; 1101 / 10; 1416 / 10; 1636 / 10; 300]%R))
    = Ok (map Fin [0; 1; 4; 6]%R, map Fin [100; 1101 / 10; 1416 / 10; 1636 / 10]%R) /\
  (forall e, c_peaks (sim_c0 e) = map Fin [0; 1; 4; 6]%R /\
     set_atlas sim_hull (sim_c0 e) sim_atlas (Fin 10) false = (sim_c e, Ok tt) /\
     on_detector [100; 10; 1 / 10]%R [0; 1; 4; 6]%R 0 10 /\
     sim_settings (sim_c e) sim_a [0; 1; 4; 6]%R sim_ls 1 10 10 10 10 95 105 1 3 [100; 10; 1 / 10]%R) /\
  (exists c' v, fit sim_o 2 (sim_c 0) sim_a = Some (c', Ok v) /\ fv_coeff v = map Fin [100; 10; 1 / 10]%R /\
     fv_mpeaks v = MList (map Fin [0; 1; 4; 6]%R)) /\
  (forall fuel, fit sim_o fuel (sim_c (1 / 10000)) sim_a = None).
Proof.
  assert (Hset : forall e, set_atlas sim_hull (sim_c0 e) sim_atlas (Fin 10) false = (sim_c e, Ok tt)) by reflexivity.
  assert (Hl : get_lines sim_atlas = map Fin sim_ls) by reflexivity.
  assert (Hi : incl sim_wl sim_ls) by (intros w Hw; cbn in Hw |- *; tauto).
  destruct sim_libraries as (L1 & L2 & L3 & L4 & L5).
  split; [exact sim_init|]. split; [exact sim_inverts|]. split; [exact sim_pixels|].
  split; [intros e; split; [reflexivity|]; split; [apply Hset|]; split; [exact sim_detector|apply sim_ok]|]. split.
  - destruct (simulated_arc_partial_main sim_o sim_inv [1 / 10; 10; 100]%R 50 200 sim_s (sim_wl ++ [300])%R sim_us sim_wl
      sim_hull (sim_c0 0) sim_atlas (Fin 10) (sim_c 0) sim_ls sim_a 1 10 10 10 10 95 105 1 3 0 10 0
      ltac:(cbn; lia) sim_init sim_inverts sim_sorted sim_pixels eq_refl Hl Hi (Hset _) sim_detector (sim_ok 0) eq_refl ltac:(lra)
      L1 L2 L3 L4 L5 2%nat ltac:(lia)) as (c' & v & H & H1 & H2 & _).
    exists c', v. auto.
  - exact (simulated_arc_refuted_main sim_o sim_inv [1 / 10; 10; 100]%R 50 200 sim_s (sim_wl ++ [300])%R sim_us sim_wl
      sim_hull (sim_c0 (1 / 10000)) sim_atlas (Fin 10) (sim_c (1 / 10000)) sim_ls sim_a 1 10 10 10 10 95 105 1 3 0 10 (1 / 10000)
      ltac:(cbn; lia) sim_init sim_inverts sim_sorted sim_pixels eq_refl Hl Hi (Hset _) sim_detector (sim_ok _) eq_refl ltac:(lra)
      L1 L2 L3 L4 L5).
Qed.

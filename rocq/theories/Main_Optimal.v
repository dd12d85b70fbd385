(** * Main_Optimal: the solutions of robust_polyfit, manual_refit, match_peaks and fit
    are the best polynomials of their degree (C134, C135), with proofs.  The statements
    are repeated, without proofs, in Props_Optimal.v. *)

From Coq Require Import String ZArith Bool List Lia Reals Lra Sorted Permutation.
From Verif Require Import Num F64 XReal Py Np NpFacts ArgsortFacts Util Models SpecPoly SpecUnits PolyFacts PolyIdent Main_Models Main_Units Atlas Hough SpecHough HoughFacts PolyEval Calib SpecCalib CalibFacts Main_Calib Cand SpecCand CandFacts Ransac SpecRansac RansacFacts Main_Ransac Fit SpecFit FitFacts Main_Fit MatchPeaks SpecMatch MatchFacts Main_Match SpecPairs Main_Edit SpecRecover Main_Recover SpecOptimal.
Import ListNotations.
Local Open Scope list_scope.
Local Open Scope R_scope.

Lemma map_Fin_inj (l m : list R) : map Fin l = map Fin m -> l = m.
Proof. revert m. induction l as [|a l IH]; intros [|b m] H; cbn in H; try discriminate; auto. injection H as -> H. f_equal. auto. Qed.

(** A polynomial expressed in other units. *)
Fixpoint rescale (k s : R) (p : list R) : list R :=
  match p with [] => [] | c :: r => (c * k) :: rescale (k * s) s r end.

Lemma rescale_length p : forall k s, length (rescale k s p) = length p.
Proof. induction p as [|c p IH]; intros; cbn; [reflexivity|]. rewrite IH. reflexivity. Qed.

Lemma rescale_value s p : s <> 0 -> forall k u, basis_sum powB (rescale k s p) (u / s) = k * basis_sum powB p u.
Proof.
  intros Hs. induction p as [|c p IH]; intros k u; cbn [rescale].
  - unfold basis_sum. cbn. lra.
  - rewrite !basis_cons, IH. field. exact Hs.
Qed.

Lemma cost_real a xn yn d : length a = (d + 1)%nat ->
  poly_cost_function (map Fin a) (map Fin xn) (map Fin yn) d =
  Ok (map Fin (map (fun q => snd q - basis_sum powB (rev a) (fst q)) (combine xn yn))).
Proof.
  intros L. unfold poly_cost_function, polynomial. rewrite map_length, L, Nat.eqb_refl. cbn [bind]. f_equal.
  revert yn. induction xn as [|x xn IH]; intros [|y yn]; cbn [map combine]; try reflexivity.
  cbn [fst snd]. rewrite poly_at_real by auto. rewrite <- IH. reflexivity.
Qed.

Lemma combine_scaled (sx sy : R) (g : R * R -> R) : forall x y,
  map g (combine (map (fun v => v / sx) x) (map (fun v => v / sy) y)) =
  map (fun q => g (fst q / sx, snd q / sy)) (combine x y).
Proof. induction x as [|a x IH]; intros [|b y]; cbn; try reflexivity. rewrite IH. reflexivity. Qed.

(** C134: robust_polyfit returns a polynomial of the degree asked for that no other
    polynomial of that degree beats on the data, if the library finds the minimum it is
    asked for. *)
Lemma robust_polyfit_best_main :
  forall (ls : optimiser xr) (loss : list R -> R) (x y : list R) (degree : nat) x0 co,
    x <> [] -> y <> [] -> std x <> 0 -> std y <> 0 -> library_minimises ls loss degree x y ->
    robust_polyfit ls (map Fin x) (map Fin y) degree x0 = Ok co ->
    exists c, co = map Fin c /\ best_polynomial loss degree x y c.
Proof.
  intros ls loss x y d x0 co Nx Ny Sx Sy Hl H.
  pose proof (np_std_R x Nx) as Ex. pose proof (np_std_R y Ny) as Ey.
  assert (H' := H). unfold robust_polyfit, normalise_input in H'. rewrite Ex, Ey, !scaled_list in H' by auto.
  apply bind_Ok in H'. destruct H' as (start & Hs & H').
  destruct (Nat.eqb_spec (length start) (d + 1)) as [Ls|Ls]; [|discriminate]. cbn [negb] in H'.
  apply bind_Ok in H'. destruct H' as (q & Hq & _).
  destruct (Hl start q Hq) as (a & ra & -> & La & Ha & Hmin).
  destruct (robust_polyfit_denorm ls x y d x0 _ _ start a Ex Ey Sx Sy Hs Ls Hq La) as (c & Hc & Lc & V & _).
  assert (co = map Fin c) as -> by congruence. exists c. split; [reflexivity|]. split; [exact Lc|].
  assert (Ra : ra = residuals c x y).
  { rewrite cost_real in Ha by auto. apply (f_equal (fun r => match r with Ok l => l | _ => [] end)) in Ha.
    apply map_Fin_inj in Ha. subst ra. rewrite combine_scaled. unfold residuals. apply map_ext. intros [u w].
    cbn [fst snd]. unfold poly. rewrite V. field. auto. }
  intros p Lp. rewrite <- Ra.
  assert (Lb : length (rev (rescale (/ std y) (std x) p)) = (d + 1)%nat) by (rewrite rev_length, rescale_length; auto).
  apply (Hmin _ _ Lb). rewrite cost_real by auto. do 2 f_equal. rewrite combine_scaled. unfold residuals.
  apply map_ext. intros [u w]. cbn [fst snd]. rewrite rev_involutive, rescale_value by auto. unfold poly. field. auto.
Qed.

(** C19: without initial coefficients robust_polyfit succeeds whenever the library,
    started from all ones on the data divided by their standard deviations, returns
    degree + 1 numbers; the result is that solution in the units of the data. *)
Lemma robust_polyfit_default_main :
  forall (ls : optimiser xr) (x y : list R) (degree : nat) (q : list R),
    x <> [] -> y <> [] -> std x <> 0 -> std y <> 0 ->
    ls (map Fin (map (fun v => v / std x) x)) (map Fin (map (fun v => v / std y) y)) degree
       (repeat (Fin 1) (degree + 1)) = Ok (map Fin q) ->
    length q = (degree + 1)%nat ->
    exists c, robust_polyfit ls (map Fin x) (map Fin y) degree None = Ok (map Fin c) /\
      length c = (degree + 1)%nat /\ forall u, poly c u = std y * poly (rev q) (u / std x).
Proof.
  intros ls x y d q Nx Ny Sx Sy Hl Lq.
  destruct (robust_polyfit_denorm ls x y d None (std x) (std y) (repeat (Fin 1) (d + 1)) q
    (np_std_R x Nx) (np_std_R y Ny) Sx Sy) as (c & Hc & Lc & V & _); auto.
  - rewrite robust_start_default. rewrite nZ_Fin. reflexivity.
  - apply repeat_length.
  - exists c. auto.
Qed.

(** Two values and the best constant: 4, with residuals of one standard deviation. *)
Lemma huber_two b : huber [-1; 1] <= huber [0 - b; 2 - b].
Proof.
  unfold huber. cbn [map fold_right].
  repeat destruct Rle_dec; try lra; try nra;
    repeat match goal with H : ~ (_ <= _) |- _ => apply Rnot_le_lt in H end;
    unfold Rabs; repeat destruct Rcase_abs; try nra.
Qed.

Example robust_polyfit_best_example_main :
  std [0; 4] = 2 /\ std [0; 8] = 4 /\
  library_minimises (fun _ _ _ _ => Ok [Fin 1]) huber 0 [0; 4] [0; 8] /\
  robust_polyfit (fun _ _ _ _ => Ok [Fin 1]) (map Fin [0; 4]) (map Fin [0; 8]) 0 None = Ok [Fin 4] /\
  residuals [4] [0; 4] [0; 8] = [-1; 1].
Proof.
  assert (S : forall a, 0 < a -> std [0; 2 * a] = a).
  { intros a Ha. unfold std, mean. cbn [map fold_right length]. replace (INR 2) with 2 by (cbn; lra).
    replace (((0 - (0 + (2 * a + 0)) / 2) * (0 - (0 + (2 * a + 0)) / 2) +
      ((2 * a - (0 + (2 * a + 0)) / 2) * (2 * a - (0 + (2 * a + 0)) / 2) + 0)) / 2) with (a * a) by field.
    apply sqrt_square. lra. }
  assert (S1 : std [0; 4] = 2) by (rewrite <- (S 2) by lra; repeat f_equal; lra).
  assert (S2 : std [0; 8] = 4) by (rewrite <- (S 4) by lra; repeat f_equal; lra).
  split; [exact S1|]. split; [exact S2|]. split; [|split].
  - unfold library_minimises. cbv zeta. rewrite S1, S2. intros start q H. injection H as <-.
    exists [1], [-1; 1]. split; [reflexivity|]. split; [reflexivity|]. split.
    + rewrite (cost_real [1]) by reflexivity. cbn [map combine rev app fst snd].
      unfold basis_sum, powB. cbn. repeat f_equal; lra.
    + intros [|b [|]] rb L; try discriminate. rewrite cost_real by reflexivity. intros E.
      apply (f_equal (fun r => match r with Ok l => l | _ => [] end)) in E. apply map_Fin_inj in E. subst rb.
      cbn [map combine rev app fst snd]. unfold basis_sum, powB. cbn.
      replace (0 / 4 - (b * 1 + 0)) with (0 - b) by lra. replace (8 / 4 - (b * 1 + 0)) with (2 - b) by lra.
      apply huber_two.
  - unfold robust_polyfit, normalise_input. cbn [robust_init map seq Nat.add bind length Nat.eqb negb].
    change [Fin 0; Fin 8] with (map Fin [0; 8]). change [Fin 0; Fin 4] with (map Fin [0; 4]).
    rewrite (np_std_R [0; 8]), (np_std_R [0; 4]), S1, S2 by discriminate.
    change [Fin 1] with (map Fin [1]). rewrite (denormalise_real 2 4 0 [1]) by (try reflexivity; lra). cbn. repeat f_equal. lra.
  - unfold residuals. rewrite S2. cbn [combine map fst snd]. unfold poly, basis_sum, powB. cbn. repeat f_equal; lra.
Qed.

(** Numbers that are not all equal have a standard deviation. *)
Lemma std_different (l : list R) u v : In u l -> In v l -> u <> v -> std l <> 0.
Proof.
  intros Hu Hv D E. unfold std in E.
  assert (Hl : l <> []) by (intros ->; contradiction).
  pose proof (mean_sq_nonneg l (mean l) Hl) as P.
  apply sqrt_eq_0 in E; [|exact P].
  unfold mean at 1 in E. rewrite map_length in E.
  assert (LN : INR (length l) <> 0) by (apply not_0_INR; destruct l; [contradiction|discriminate]).
  assert (Z : fold_right Rplus 0 (map (fun w => (w - mean l) * (w - mean l)) l) = 0).
  { unfold Rdiv in E. apply Rmult_integral in E. destruct E as [E|E]; [exact E|]. exfalso. exact (Rinv_neq_0_compat _ LN E). }
  assert (G : forall m k, fold_right Rplus 0 (map (fun w => (w - m) * (w - m)) k) = 0 -> forall w, In w k -> w = m).
  { intros m. induction k as [|a k IH]; cbn [map fold_right]; [intros _ w []|]. intros K.
    assert (A1 : 0 <= fold_right Rplus 0 (map (fun w => (w - m) * (w - m)) k)).
    { clear. induction k as [|a k IH]; cbn; [lra|]. pose proof (Rle_0_sqr (a - m)) as Q. unfold Rsqr in Q. lra. }
    pose proof (Rle_0_sqr (a - m)) as Q. unfold Rsqr in Q.
    intros w [<-|Hw]; [|apply IH; auto; lra].
    assert (Q0 : (a - m) * (a - m) = 0) by lra. apply Rmult_integral in Q0. lra. }
  apply D. rewrite (G _ _ Z u Hu), (G _ _ Z v Hv). reflexivity.
Qed.

(** C135: so does manual_refit, for the pairs it is given (or the matched ones). *)
Lemma refit_best_main :
  forall (o : oracle xr) (loss : list R -> R) c a c' co mp ma rms res (d : nat) (x y : list R),
    manual_refit o c a = (c', Ok (co, mp, ma, rms, res)) ->
    refit_degree c a = Some (Z.of_nat d) ->
    mseq_vals mp = map Fin x -> mseq_vals ma = map Fin y -> std x <> 0 -> std y <> 0 ->
    library_minimises (o_ls o) loss d x y ->
    exists cs, co = map Fin cs /\ c_coeff c' = Some co /\ best_polynomial loss d x y cs.
Proof.
  intros o loss c a c' co mp ma rms res d x y H Hd Ex Ey Sx Sy Hl. unfold manual_refit in H.
  destruct (refit_start c a) as [[x0 d']|e] eqn:Es; [|discriminate].
  assert (Ed : d' = Z.of_nat d).
  { revert Hd Es. unfold refit_degree, refit_start. destruct (rf_x0 a), (rf_deg a); try discriminate.
    all: try (destruct (c_coeff c)); try (destruct (Z.eqb _ _)); congruence. }
  subst d'. cbv zeta in H.
  set (mp0 := match rf_peaks a with MNone => c_mpeaks c | m => m end) in *.
  set (ma0 := match rf_atlas a with MNone => c_matlas c | m => m end) in *. clearbody mp0 ma0.
  assert (H' : (if negb (Nat.eqb (length (mseq_vals mp0)) (length (mseq_vals ma0)) && negb (Nat.eqb (length (mseq_vals mp0)) 0) && (0 <? Z.of_nat d)%Z &&
                     (Z.of_nat d <=? Z.of_nat (length (mseq_vals mp0)) - 1)%Z)
            then (c, Raise AssertionError) else
            match robust_polyfit (o_ls o) (mseq_vals mp0) (mseq_vals ma0) (Z.to_nat (Z.of_nat d)) x0 with
            | Raise e => (c, Raise e)
            | Ok co =>
                let c1 := set_c_matlas ma0 (set_c_mpeaks mp0 (set_c_coeff (Some co) c)) in
                match polyvals_of (c_kind c) (mseq_vals mp0) co with
                | Raise e => (c1, Raise e)
                | Ok vs =>
                    let r := minus (mseq_vals ma0) vs in
                    (set_c_rms (Some (nan_rms r)) (set_c_residuals (Some r) c1),
                     Ok (co, mp0, ma0, nan_rms r, r))
                end
            end) = (c', Ok (co, mp, ma, rms, res))) by (destruct mp0, ma0; try discriminate; exact H).
  clear H. destruct (negb (_ && _ && _ && _)) eqn:En; [discriminate|]. apply negb_false_iff in En.
  apply andb_true_iff in En. destruct En as (En & _). apply andb_true_iff in En. destruct En as (En & _).
  apply andb_true_iff in En. destruct En as (L1 & L2). apply Nat.eqb_eq in L1. apply negb_true_iff, Nat.eqb_neq in L2.
  rewrite Nat2Z.id in H'.
  destruct (robust_polyfit (o_ls o) (mseq_vals mp0) (mseq_vals ma0) d x0) as [co1|e] eqn:Er; [|discriminate].
  cbv zeta in H'. destruct (polyvals_of (c_kind c) (mseq_vals mp0) co1) as [vs|]; [|discriminate].
  assert (mp0 = mp) as -> by congruence. assert (ma0 = ma) as -> by congruence. assert (co1 = co) as -> by congruence.
  rewrite Ex, Ey, ?map_length in *.
  assert (Nx : x <> []) by (intros ->; cbn in L2; contradiction).
  assert (Ny : y <> []) by (intros ->; cbn in L1; congruence).
  destruct (robust_polyfit_best_main _ loss x y d x0 co Nx Ny Sx Sy Hl Er) as (cs & -> & B).
  exists cs. split; [reflexivity|]. split; [|exact B].
  apply (f_equal fst) in H'. cbn [fst] in H'. subst c'. reflexivity.
Qed.

(** C135: match_peaks with robust_refit, for the pairs it returns. *)
Lemma match_best_main :
  forall (o : oracle xr) mini (loss : list R -> R) c a c' v l (x y : list R),
    match_peaks o mini c a = (c', Ok v) -> ma_robust a = true -> input_coeff c a l ->
    mv_peaks v = MArr (map Fin x) -> mv_atlas v = MArr (map Fin y) -> std x <> 0 -> std y <> 0 ->
    let d := match ma_deg a with Some d => d | None => (length l - 1)%nat end in
    library_minimises (o_ls o) loss d x y ->
    exists cs, mv_coeff v = map Fin cs /\ c_coeff c' = Some (map Fin cs) /\ best_polynomial loss d x y cs.
Proof.
  intros o mini loss c a c' v l x y H Hr Hi Ex Ey Sx Sy d Hl.
  apply match_peaks_inv in H. destruct H as (l' & Hi' & _ & H).
  assert (l' = l) as -> by (unfold input_coeff in *; destruct (ma_coeff a); congruence).
  destruct H as [(_ & _ & E & _)|(at_ & k & xs & cand & refined & _ & Hk & _ & _ & _ & H)]; [congruence|].
  destruct (match_store_Ok _ _ _ _ _ _ _ _ _ _ H) as (Nx & Ll & _ & _ & _ & Ep & Ea & _).
  assert (xs = map Fin x) as -> by congruence. assert (cand = map Fin y) as -> by congruence.
  assert (Ed : oget (length l - 1)%nat (ma_deg a) = d) by (subst d; destruct (ma_deg a); reflexivity).
  rewrite Ed, Hr in H. clearbody d. unfold match_store in H.
  destruct (bind _ _) as [[co resid]|e]; [|discriminate].
  destruct (negb (nltb (np_sum resid) (nlit 1 9))); [discriminate|]. cbv zeta in H.
  destruct (Nat.eqb (length (c_peaks c)) 0); [discriminate|]. destruct (Nat.eqb (atlas_len at_) 0); [discriminate|].
  destruct (robust_polyfit (o_ls o) (map Fin x) (map Fin y) d None) as [co'|] eqn:Er; [|discriminate].
  assert (Nx' : x <> []) by (intros ->; contradiction).
  assert (Ny' : y <> []) by (intros ->; destruct x; [contradiction|discriminate Ll]).
  destruct (robust_polyfit_best_main _ loss x y d None co' Nx' Ny' Sx Sy Hl Er) as (cs & -> & B).
  assert (Nn : existsb nisnan (map Fin cs) = false).
  { clear. induction cs as [|z cs IH]; [reflexivity|]. cbn. exact IH. }
  rewrite Nn in H. destruct (polyvals_of (c_kind c) (map Fin x) (map Fin cs)) as [vs|]; [|discriminate].
  exists cs. split; [|split; [|exact B]]; injection H as <- <-; reflexivity.
Qed.

Lemma real_matched (xs : list xr) (ps : list R) :
  (forall p, In p xs -> exists q, In q (map Fin ps) /\ neqb q p = true) -> exists rs, xs = map Fin rs.
Proof.
  intros H. induction xs as [|p xs IH]; [exists []; reflexivity|].
  destruct IH as (rs & ->); [intros; apply H; right; auto|].
  destruct (H p (or_introl eq_refl)) as (q & Hq & E). apply in_map_iff in Hq. destruct Hq as (r & <- & _).
  destruct p as [s| |]; try discriminate. exists (s :: rs). reflexivity.
Qed.

(** C135: fit, for the pairs it matched, whatever was drawn. *)
Lemma fit_best_main :
  forall (o : oracle xr) fuel (loss : list R -> R) c a c' v at_ (ps ws : list R),
    (forall l, is_argsort l (o_argsort o l)) -> pairs_current c -> c_atlas c = Some at_ ->
    c_peaks c = map Fin ps -> get_lines at_ = map Fin ws -> (1 <= degree_used a)%nat ->
    fit o fuel c a = Some (c', Ok v) ->
    exists x y, fv_mpeaks v = MList (map Fin x) /\ fv_matlas v = MList (map Fin y) /\
      (library_minimises (o_ls o) loss (degree_used a) x y ->
       exists cs, fv_coeff v = map Fin cs /\ best_polynomial loss (degree_used a) x y cs).
Proof.
  intros o fuel loss c a c' v at_ ps ws Harg Hc Ha Ep Ew D H.
  assert (NF : forall l : list R, no_nan (map Fin l)) by (intros l z Hz; apply in_map_iff in Hz; destruct Hz as (r & <- & _); reflexivity).
  assert (Np : no_nan (c_peaks c)) by (rewrite Ep; auto).
  assert (Na : no_nan (get_lines at_)) by (rewrite Ew; auto).
  destruct (fit_matched _ _ _ _ _ _ _ Harg Hc Ha Np Na H) as
    (xs & ys & H1 & H2 & H3 & H4 & H5 & H6 & H7 & H8 & _).
  rewrite Ep in H7. rewrite Ew in H8.
  destruct (real_matched _ _ H7) as (x & Ex). destruct (real_matched _ _ H8) as (y & Ey). subst xs ys. rewrite !map_length in *.
  exists x, y. split; [exact H1|]. split; [exact H2|]. intros Hl.
  assert (Sx : x <> [] /\ std x <> 0).
  { destruct x as [|u [|v' x]]; [cbn in H6; lia|cbn in H6; lia|]. split; [discriminate|].
    apply (std_different _ u v'); [left; auto|right; left; auto|]. intros ->.
    unfold pairwise_different in H4. cbn [map] in H4. inversion H4 as [|? ? _ F]; subst. inversion F as [|? ? K]; subst.
    cbn in K. change (Reqb v' v' = false) in K. destruct (Reqb_spec v' v'); congruence. }
  assert (Sy : y <> [] /\ std y <> 0).
  { destruct y as [|u [|v' y]]; [cbn in H3; lia|cbn in H3; lia|]. split; [discriminate|].
    apply (std_different _ u v'); [left; auto|right; left; auto|]. intros ->.
    cbn [map] in H5. inversion H5 as [|? ? _ F]; subst. inversion F as [|? ? K]; subst.
    change (Rltb v' v' = true) in K. destruct (Rltb_spec v' v'); [lra|discriminate]. }
  destruct Sx as (Nx & Sx). destruct Sy as (Ny & Sy).
  destruct (fit_inv _ _ _ _ _ _ H) as (c2 & c3 & r & co & at' & size & m & F2 & Ha' & Hs & Hm & Hco & Hk & Hs2 & Hm2 &
    Hsol & Hp & Hpu & Hau & Ec' & Ev & Emp & Ema & Erms & Eres).
  pose proof (pairs_current_frame _ _ F2 Hc) as Hc2.
  assert (G2 : same_input c c2) by apply F2. destruct G2 as (E1 & E2 & E3 & E4 & E5 & E6 & E7 & E8 & E9).
  destruct (solve_ransac_inv o Harg _ _ _ _ _ _ _ _ _ Hsol) as
    [(K & _)|(xx & yy & size2 & f & samples & s0 & s & Hxy & _ & _ & Hset & Hrun & Hmp & Hma & Hrp & _ & _ & _ & _ & Hinv)]; [congruence|].
  assert (NN : no_nan xx /\ no_nan yy).
  { eapply xy_no_nan; eauto; [rewrite E3; eauto|rewrite E1; auto]. }
  destruct NN as (Nxx & Nyy). destruct (Hinv Nxx Nyy) as (_ & Inv).
  pose proof (ransac_setup_Ok _ _ _ _ _ _ _ _ _ _ _ _ Hset) as HS.
  destruct HS as (_ & Fd & _ & _ & _ & _ & _ & _ & _ & _ & _ & _ & _ & _ & _ & _ & _ & _ & _ & _ & _ & S0 & _).
  destruct Inv as [(K & _)|(co' & Ec & Acc)]; [rewrite Hrp, K in Hp; congruence|].
  destruct (ac_ex _ _ _ _ Acc) as (tf & xh & yh & xs & ys & w & _ & _ & Mp & Ma & _ & _ & _ & _ & Rob & _).
  assert (xs = map Fin x) as -> by congruence. assert (ys = map Fin y) as -> by congruence.
  rewrite Fd in Rob. destruct (robust_polyfit_best_main _ loss x y _ None co' Nx Ny Sx Sy Hl Rob) as (cs & -> & B).
  exists cs. split; [|exact B]. congruence.
Qed.

Lemma huber_nonneg r : 0 <= huber r.
Proof.
  unfold huber.
  assert (G : 0 <= fold_right Rplus 0 (map (fun v => if Rle_dec (v * v) 1 then v * v else 2 * Rabs v - 1) r)).
  { induction r as [|v r IH]; cbn [map fold_right]; [lra|].
    assert (0 <= if Rle_dec (v * v) 1 then v * v else 2 * Rabs v - 1); [|lra].
    destruct Rle_dec as [L|L].
    - pose proof (Rle_0_sqr v) as K. exact K.
    - apply Rnot_le_lt in L. unfold Rabs. destruct Rcase_abs; nra. }
  lra.
Qed.

Lemma huber_zero (T : Type) (l : list T) : huber (map (fun _ => 0) l) = 0.
Proof.
  unfold huber. induction l as [|x l IH]; cbn [map fold_right]; [lra|].
  destruct Rle_dec as [L|L]; [|exfalso; apply L; lra]. lra.
Qed.

(** The session of C110: three lines on the pixels 0, 1 and 4. *)
Lemma ex_minimises : library_minimises (o_ls ex_o) huber 1 ex_us (map (poly ex_co) ex_us).
Proof.
  destruct ex_stds as (S1 & S2 & P1 & P2).
  rewrite np_std_R in S1 by discriminate. rewrite np_std_R in S2 by discriminate.
  apply (f_equal (fun v => match v with Fin r => r | _ => 0 end)) in S1, S2.
  unfold library_minimises. cbv zeta. rewrite S1, S2. intros start q H. cbn [o_ls ex_o] in H.
  assert (q = map Fin [10 * ex_sx / ex_sy; 100 / ex_sy]) as -> by congruence.
  eexists _, (map (fun _ => 0) ex_us). split; [reflexivity|]. split; [reflexivity|]. split.
  - rewrite (cost_real [10 * ex_sx / ex_sy; 100 / ex_sy]) by reflexivity. do 2 f_equal.
    rewrite combine_scaled. unfold ex_us. cbn [map combine fst snd rev app].
    rewrite !ex_poly, !basis_cons. unfold basis_sum. cbn [combine map fold_right length seq].
    repeat f_equal; field; lra.
  - intros b rb _ _. rewrite huber_zero. apply huber_nonneg.
Qed.

Example fit_best_example_main :
  (forall l, is_argsort l (o_argsort ex_o l)) /\ pairs_current (ex_c 0) /\ (1 <= degree_used ex_a)%nat /\
  exists c' v, fit ex_o 2 (ex_c 0) ex_a = Some (c', Ok v) /\
    fv_mpeaks v = MList (map Fin [0; 1; 4]) /\ fv_matlas v = MList (map Fin [100; 110; 140]) /\
    library_minimises (o_ls ex_o) huber 1 [0; 1; 4] [100; 110; 140].
Proof.
  split; [intros l; apply argsort_stable_ok|]. split.
  { eexists. split; [reflexivity|]. unfold ex_c. cbn [c_pairs c_peaks]. intros a b H.
    apply in_flat_map in H. destruct H as (u & Hu & H). apply in_map_iff in H. destruct H as (w & E & Hw).
    injection E as <- <-. split; [apply in_map; exact Hu|].
    unfold get_lines. cbn [at_lines]. rewrite map_map. apply in_map_iff. exists w. split; [reflexivity|exact Hw]. }
  split; [cbn; lia|].
  destruct (ex_prepared 0) as (c1 & c2 & B & P & X & E & Ea).
  destruct (exact_data_partial_main ex_o (ex_c 0) ex_a c1 c2 2 ex_co ex_us 0 _ eq_refl eq_refl ltac:(cbn; lia) B P X E ltac:(lra) Ea
    2%nat ltac:(lia)) as (c' & v & H & _ & H2 & H3 & _).
  exists c', v. split; [exact H|]. split; [exact H2|].
  assert (Ey : map (poly ex_co) ex_us = [100; 110; 140]).
  { unfold ex_us. cbn [map]. rewrite !ex_poly. repeat f_equal; lra. }
  split; [rewrite H3, Ey; reflexivity|]. rewrite <- Ey. exact ex_minimises.
Qed.

Example refit_best_example_main :
  let a := mkRF (MArr (map Fin [0; 1; 4])) (MArr (map Fin (map (poly ex_co) ex_us))) (Some 1%Z) MNone in
  let c := set_c_kind (Some FitPoly) (ex_c 0) in
  refit_degree c a = Some (Z.of_nat 1) /\ std ex_us <> 0 /\ std (map (poly ex_co) ex_us) <> 0 /\
  exists c' co mp ma rms res, manual_refit ex_o c a = (c', Ok (co, mp, ma, rms, res)) /\
    mseq_vals mp = map Fin ex_us /\ mseq_vals ma = map Fin (map (poly ex_co) ex_us).
Proof.
  cbv zeta. destruct ex_stds as (S1 & S2 & P1 & P2).
  assert (T1 := S1). assert (T2 := S2). rewrite np_std_R in T1 by discriminate. rewrite np_std_R in T2 by discriminate.
  apply (f_equal (fun v => match v with Fin r => r | _ => 0 end)) in T1, T2.
  split; [reflexivity|]. split; [rewrite T1; lra|]. split; [rewrite T2; lra|].
  destruct (robust_polyfit_denorm (o_ls ex_o) ex_us (map (poly ex_co) ex_us) 1 None ex_sx ex_sy
    (map (fun _ => nZ 1) (seq 0 2)) [10 * ex_sx / ex_sy; 100 / ex_sy] S1 S2 ltac:(lra) ltac:(lra) eq_refl eq_refl eq_refl eq_refl)
    as (cs & Hc & Lc & _).
  unfold manual_refit. cbn [rf_peaks rf_atlas refit_start rf_x0 rf_deg mseq_vals].
  change [0; 1; 4] with ex_us. rewrite !map_length. change (length ex_us) with 3%nat.
  cbn [Nat.eqb Z.ltb Z.compare Z.leb Z.of_nat Pos.of_succ_nat Z.sub Z.add Z.opp Pos.succ Z.pos_sub Pos.pred_double andb negb Pos.compare Pos.compare_cont].
  change (Z.to_nat 1) with 1%nat. rewrite Hc.
  change (c_kind (set_c_kind (Some FitPoly) (ex_c 0))) with (Some FitPoly).
  rewrite polyvals_map by (intros K; apply (f_equal (@length xr)) in K; rewrite map_length in K; cbn in K; lia).
  do 6 eexists. split; [reflexivity|]. split; reflexivity.
Qed.

Definition o_line : oracle xr :=
  mkO (fun l => seq 0 (List.length l)) (fun n => repeat (Fin 0) n) (fun _ _ _ _ => Ok (map Fin [3000; 10]%R))
    (fun _ _ _ _ => Ok (map Fin [1; 3001 / (39 / 2)])) (fun _ l n _ => firstn n l) (fun _ l => hd (Fin 0) l)
    (fun _ _ _ => Raise ValueError) false.

Lemma std_two a b : a <= b -> std [a; b] = (b - a) / 2.
Proof.
  intros H. unfold std, mean. cbn [map fold_right length]. replace (INR 2) with 2 by (cbn; lra).
  rewrite <- (sqrt_square ((b - a) / 2)) by lra. f_equal. field.
Qed.

Example match_best_example_main :
  let a := mkMA (MArr (map Fin [3000; 10]%R)) None false (Fin 5) (Fin 1) true None in
  exists c' v, match_peaks o_line (fun _ x0 => Ok x0) c_real a = (c', Ok v) /\
    mv_peaks v = MArr (map Fin [0; 4]) /\ mv_atlas v = MArr (map Fin [3001; 3040]) /\
    std [0; 4] <> 0 /\ std [3001; 3040] <> 0 /\ library_minimises (o_ls o_line) huber 1 [0; 4] [3001; 3040].
Proof.
  cbv zeta. set (a := mkMA _ _ _ _ _ _ _).
  assert (T1 : std [0; 4] = 2) by (rewrite std_two; lra).
  assert (T2 : std [3001; 3040] = 39 / 2) by (rewrite std_two; lra).
  destruct (c_atlas c_real) as [at_|] eqn:Ea; [|discriminate].
  assert (El : get_lines at_ = map Fin [3001; 3040]%R) by (injection Ea as <-; reflexivity).
  pose proof (match_peaks_succeeds_partial_main xr XRnum o_line (fun _ x0 => Ok x0) c_real a (map Fin [3000; 10]%R)
    FitPoly at_ (map Fin [3000; 10]%R)) as K. cbv zeta in K.
  assert (Xs : filter (fun p => existsb (within (fun p => eval_kind FitPoly p (map Fin [3000; 10]%R)) (ma_tol a) p) (get_lines at_)) (c_peaks c_real)
     = map Fin [0; 4]%R).
  { rewrite El. change (c_peaks c_real) with (map Fin [0; 4]%R). change (ma_tol a) with (Fin 5).
    cbn [map filter existsb]. rewrite !real_within. rdec. reflexivity. }
  assert (Ys : forall p, In p [0; 4]%R ->
     filter (within (fun p => eval_kind FitPoly p (map Fin [3000; 10]%R)) (ma_tol a) (Fin p)) (get_lines at_) =
     if Rltb p 2 then [Fin 3001] else [Fin 3040]).
  { intros p [<-|[<-|[]]]; rewrite El; change (ma_tol a) with (Fin 5); cbn [map filter]; rewrite !real_within; rdec; reflexivity. }
  assert (Yf : flat_map (fun p => filter (within (fun p => eval_kind FitPoly p (map Fin [3000; 10]%R)) (ma_tol a) p) (get_lines at_)) (map Fin [0; 4]%R) =
     map Fin [3001; 3040]%R).
  { cbn [map flat_map]. rewrite !Ys by (cbn; auto). rdec. reflexivity. }
  rewrite Xs in K. rewrite Yf in K.
  destruct K as (c' & v & K1 & K2 & K3);
    [reflexivity|discriminate|reflexivity|exact Ea| |discriminate|discriminate|right; reflexivity|reflexivity|discriminate| | |].
  - intros p Hp. change (c_peaks c_real) with (map Fin [0; 4]%R) in Hp. apply in_map_iff in Hp. destruct Hp as (q & <- & Hq).
    rewrite Ys by auto. destruct (Rltb q 2); cbn; lia.
  - cbn [map combine fst snd]. change [Fin 3000; Fin 10] with (map Fin [3000; 10]%R). rewrite !real_val.
    change (nabs (nsub (Fin 3001) (Fin (3000 + 10 * 0)%R))) with (Fin (Rabs (3001 - (3000 + 10 * 0))%R)).
    change (nabs (nsub (Fin 3040) (Fin (3000 + 10 * 4)%R))) with (Fin (Rabs (3040 - (3000 + 10 * 4))%R)).
    change [Fin (Rabs (3001 - (3000 + 10 * 0))%R); Fin (Rabs (3040 - (3000 + 10 * 4))%R)] with
      (map Fin [Rabs (3001 - (3000 + 10 * 0)); Rabs (3040 - (3000 + 10 * 4))]%R).
    rewrite np_sum_R. cbn [fold_right].
    change (nltb (Fin (Rabs (3001 - (3000 + 10 * 0)) + (Rabs (3040 - (3000 + 10 * 4)) + 0))) (nlit 1 9)) with
      (Rltb (Rabs (3001 - (3000 + 10 * 0)) + (Rabs (3040 - (3000 + 10 * 4)) + 0)) (Rlit 1 9)). unfold Rlit.
    assert (Hp : powerRZ 10 9 = 1000000000%R) by (unfold powerRZ; change (Pos.to_nat 9) with 9%nat; unfold pow; lra).
    rewrite ?Hp. rdec. reflexivity.
  - intros _.
    pose proof (np_std_R [0; 4] ltac:(discriminate)) as S1. pose proof (np_std_R [3001; 3040] ltac:(discriminate)) as S2.
    rewrite T1 in S1. rewrite T2 in S2.
    destruct (robust_polyfit_denorm (o_ls o_line) [0; 4] [3001; 3040] 1 None 2 (39 / 2)
      (map (fun _ => nZ 1) (seq 0 2)) [1; 3001 / (39 / 2)] S1 S2 ltac:(lra) ltac:(lra) eq_refl eq_refl eq_refl eq_refl)
      as (cs & Hc & Lc & _).
    exists (map Fin cs). split; [exact Hc|]. intros E. apply (f_equal (@length xr)) in E. rewrite map_length in E. cbn in E. lia.
  - exists c', v. split; [exact K1|]. split; [exact K2|]. split; [exact K3|].
    rewrite T1, T2. split; [lra|]. split; [lra|].
    unfold library_minimises. cbv zeta. rewrite T1, T2. intros start q H.
    assert (q = map Fin [1; 3001 / (39 / 2)]) as -> by (cbn [o_ls o_line] in H; congruence).
    eexists _, (map (fun _ => 0) [0; 4]). split; [reflexivity|]. split; [reflexivity|]. split.
    + rewrite (cost_real [1; 3001 / (39 / 2)]) by reflexivity. do 2 f_equal. cbn [map combine fst snd rev app].
      rewrite !basis_cons. unfold basis_sum. cbn. repeat f_equal; field.
    + intros b rb _ _. rewrite huber_zero. apply huber_nonneg.
Qed.

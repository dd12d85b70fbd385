(** * Main_Region: what a fit matches is compatible with the limits of the search. *)

From Coq Require Import ZArith Bool List String Lia Reals Lra Sorted Permutation.
From Verif Require Import Num F64 XReal Py Np NpFacts ArgsortFacts Util Models Atlas Hough SpecHough HoughFacts PolyEval SpecPoly PolyFacts Main_Models Calib SpecCalib Main_Calib Cand SpecCand CandFacts Ransac SpecRansac RansacFacts Main_Ransac SpecRecover RecoverFacts PolyIdent Fit SpecFit FitFacts Main_Fit Main_Recover SpecVote Main_Vote SpecUnits SpecOptimal Main_Optimal SpecRegion.
Import ListNotations.
Local Open Scope num_scope.

(** A fit of a calibrator without a transform computes one and uses its lines. *)
Lemma fit_lines (o : oracle xr) fuel c a c' v : c_lines c = None -> fit o fuel c a = Some (c', Ok v) ->
  exists c1 c2, c_pairs c1 = c_pairs c /\ c_hp c1 = c_hp c /\
    do_hough_transform (o_argsort o) c1 false = (c2, Ok tt) /\ c_lines c' = c_lines c2.
Proof.
  intros Hl H.
  assert (H' : match fit_begin c a with
        | (c1, Raise e) => Some (c1, Raise e)
        | (c1, Ok _) =>
            match fit_prepare o c1 a with
            | (c2, Raise e) => Some (c2, Raise e)
            | (c2, Ok _) =>
                match solve_ransac o fuel c2 (degree_used a) (fa_tries a) (c_coeff c2) (fa_ctol a) (fa_brute a) with
                | None => None
                | Some (c3, Raise e) => Some (c3, Raise e)
                | Some (c3, Ok r) => Some (fit_end c3 r)
                end
            end
        end = Some (c', Ok v)).
  { unfold fit in H. destruct (fa_coeff a) as [[|]|]; [discriminate|exact H|exact H]. }
  clear H. rename H' into H.
  assert (B : forall c1 r, fit_begin c a = (c1, r) -> c_pairs c1 = c_pairs c /\ c_hp c1 = c_hp c /\ c_lines c1 = None).
  { unfold fit_begin. intros c1 r E. destruct (fa_type a); injection E as <- _; auto. }
  destruct (fit_begin c a) as [c1 [u|e]]; [|discriminate]. destruct (B _ _ eq_refl) as (B1 & B2 & B3). clear B.
  unfold fit_prepare in H. destruct (c_atlas c1) as [at_|]; [|discriminate].
  destruct (r_sample (c_rp c1)) as [size|]; [|discriminate].
  set (c1' := set_sample (adjusted_size a (atlas_len at_) size) c1) in *.
  assert (L1 : c_lines c1' = None) by exact B3.
  unfold fit_hough in H. rewrite L1 in H.
  destruct (do_hough_transform (o_argsort o) c1' false) as [c2 [[]|e]] eqn:E; [|discriminate].
  destruct (r_matches (c_rp c2)) as [m|]; [|discriminate].
  set (c2' := set_matches _ c2) in *.
  destruct (solve_ransac o fuel c2' _ _ _ _ _) as [[c3 [r|e]]|] eqn:Es; [|discriminate|discriminate].
  pose proof (solve_frame _ _ _ _ _ _ _ _ _ _ Es) as (_ & _ & _ & _ & Hlines & _).
  exists c1', c2. split; [exact B1|]. split; [exact B2|]. split; [exact E|].
  assert (He : fit_end c3 r = (c', Ok v)) by congruence. unfold fit_end in He.
  destruct (c_atlas c3); [|discriminate]. destruct (utilisation _ _); [|discriminate].
  destruct (utilisation _ _); [|discriminate]. destruct (rr_p r); [|discriminate].
  injection He as <- _. exact Hlines.
Qed.

Lemma centre_between lo hi n i : (lo < hi)%R -> (i < n)%nat -> (lo <= centre lo hi n i <= hi)%R.
Proof.
  intros L Hi. unfold centre, edge. rewrite S_INR.
  assert (Pn : (0 < INR n)%R) by (apply lt_0_INR; lia).
  assert (P0 : (0 <= INR i)%R) by apply pos_INR.
  assert (P1 : (INR i + 1 <= INR n)%R) by (rewrite <- S_INR; apply le_INR; lia).
  assert (W : (0 < (hi - lo) / INR n)%R) by (apply Rdiv_lt_0_compat; lra).
  assert (E : (INR n * ((hi - lo) / INR n) = hi - lo)%R) by (field; lra).
  set (w := ((hi - lo) / INR n)%R) in *.
  assert ((INR i + 1) * w <= INR n * w)%R by (apply Rmult_le_compat_r; lra).
  assert (0 <= INR i * w)%R by (apply Rmult_le_pos; lra).
  lra.
Qed.

(** The centres of the bins of an axis are in reach. *)
Lemma centre_reach lo hi (vals : list R) (vote : R -> Prop) a b n i :
  (forall v, In v vals <-> vote v) -> (forall v, In v vals -> (lo <= v <= hi)%R) ->
  data_range vals a b -> (i < n)%nat -> reach lo hi vote (centre a b n i).
Proof.
  intros Hv Hb D Hi. destruct D as [(-> & -> & ->)|(u & w & Hu & Hw & Hall & D)].
  - right. right. split; [intros z Hz; apply Hv in Hz; destruct Hz|]. apply centre_between; [lra|auto].
  - destruct D as [(L & -> & ->)|(E & -> & ->)].
    + left. split; [exists u, w; split; [apply Hv; auto|]; split; [apply Hv; auto|lra]|].
      pose proof (centre_between u w n i L Hi). pose proof (Hb u Hu). pose proof (Hb w Hw). lra.
    + right. left. exists u. split; [apply Hv; auto|]. subst w. split.
      * intros z Hz. apply Hv, Hall in Hz. lra.
      * apply centre_between; [lra|auto].
Qed.

Lemma votes_admitted lo_s hi_s lo_i hi_i n pairs line :
  In line (filter (fun q => Rleb lo_i (snd q) && Rleb (snd q) hi_i) (all_lines lo_s hi_s n pairs)) <->
  admitted lo_s hi_s lo_i hi_i n pairs line.
Proof.
  rewrite filter_In. unfold all_lines, admitted. rewrite in_flat_map. split.
  - intros ((k & Hk & Hl) & Hb). apply in_seq in Hk. apply in_map_iff in Hl. destruct Hl as ([p w] & <- & Hp).
    apply andb_true_iff in Hb. destruct Hb as (B1 & B2). unfold line_with in *. cbn [fst snd] in *.
    destruct (Rleb_spec lo_i (w - slope_at lo_s hi_s n k * p)); [|discriminate].
    destruct (Rleb_spec (w - slope_at lo_s hi_s n k * p) hi_i); [|discriminate].
    exists k, p, w. split; [lia|]. split; [exact Hp|]. split; [reflexivity|]. split; lra.
  - intros (k & p & w & Hk & Hp & Es & Ew & B). split.
    + exists k. split; [apply in_seq; lia|]. apply in_map_iff. exists (p, w). split; [|exact Hp].
      unfold line_with. cbn [fst snd]. destruct line as [s i]. cbn [fst snd] in *. subst s. f_equal. lra.
    + apply andb_true_iff. split; [destruct (Rleb_spec lo_i (snd line)); auto; lra|
        destruct (Rleb_spec (snd line) hi_i); auto; lra].
Qed.

Lemma in_Fin x l : In (Fin x) (map Fin l) -> In x l.
Proof.
  intros H. apply in_map_iff in H. destruct H as (y & E & Hy).
  apply (f_equal (fun v => match v with Fin r => r | _ => 0%R end)) in E. cbn in E. subst y. exact Hy.
Qed.

(** C137, the part that holds: every pair a fit matches is one of the pairs, within
    candidate_tolerance of a straight line whose slope and intercept are inside the
    limits, provided that at least two different slopes and two different intercepts
    were admitted by the limits (the cases of [reach] say what happens otherwise). *)
Lemma fit_within_limits_partial_main :
  forall (o : oracle xr) fuel c a c' v at_ peaks lines pairs n xb yb lo_s hi_s lo_i hi_i tol,
    (forall l, is_argsort l (o_argsort o l)) -> pairs_current c -> c_atlas c = Some at_ ->
    c_peaks c = map Fin peaks -> get_lines at_ = map Fin lines ->
    r_linear (c_rp c) = Some true -> fa_ctol a = Fin tol ->
    hough_ready c pairs n xb yb lo_s hi_s lo_i hi_i -> c_lines c = None ->
    fit o fuel c a = Some (c', Ok v) ->
    exists ps ws,
      fv_mpeaks v = MList (map Fin ps) /\ fv_matlas v = MList (map Fin ws) /\
      List.length ps = List.length ws /\ NoDup ps /\ (degree_used a < List.length ps)%nat /\
      forall p w, In (p, w) (combine ps ws) ->
        In (p, w) pairs /\ compatible lo_s hi_s lo_i hi_i n pairs tol p w.
Proof.
  intros o fuel c a c' v at_ peaks lines pairs n xb yb lo_s hi_s lo_i hi_i tol Harg Hc Ha Ep Ew Hlin Htol Hr Hnone H.
  assert (NF : forall l : list R, no_nan (map Fin l)) by (intros l z Hz; apply in_map_iff in Hz; destruct Hz as (r & <- & _); reflexivity).
  assert (Np : no_nan (c_peaks c)) by (rewrite Ep; auto).
  assert (Na : no_nan (get_lines at_)) by (rewrite Ew; auto).
  destruct (fit_matched _ _ _ _ _ _ _ Harg Hc Ha Np Na H) as
    (xs & ys & H1 & H2 & H3 & H4 & H5 & H6 & H7 & H8 & _ & _ & H9 & _).
  rewrite Ep in H7. rewrite Ew in H8.
  destruct (real_matched _ _ H7) as (ps & Ex). destruct (real_matched _ _ H8) as (ws & Ey). subst xs ys.
  rewrite !map_length in *.
  exists ps, ws. split; [exact H1|]. split; [exact H2|]. split; [exact H3|]. split.
  { clear -H4. unfold pairwise_different in H4. induction ps as [|u ps IH]; [constructor|].
    cbn [map] in H4. inversion H4 as [|? ? F Hr]; subst. constructor; [|apply IH; auto].
    intros Hu. rewrite Forall_forall in Hr. specialize (Hr (Fin u) (in_map Fin _ _ Hu)).
    change (Reqb u u = false) in Hr. destruct (Reqb_spec u u); congruence. }
  split; [exact H6|].
  destruct (fit_lines _ _ _ _ _ _ Hnone H) as (c1 & c2 & P1 & P2 & Ht & Hl').
  assert (Hr1 : hough_ready c1 pairs n xb yb lo_s hi_s lo_i hi_i) by (unfold hough_ready in *; rewrite P1, P2; exact Hr).
  destruct (do_hough_ready _ _ _ _ _ _ _ _ _ _ _ _ Harg Hr1 Ht)
    as (_ & _ & _ & Hv). cbv zeta in Hv.
  set (votes := filter _ (all_lines lo_s hi_s n pairs)) in *.
  destruct Hv as (_ & ra & rb & rd & re & hist & bins & D1 & D2 & _ & _ & _ & _ & _ & Hlines & Hperm & _).
  destruct Hr as (Hpairs & _ & _ & _ & _ & _ & _ & _ & _ & _ & _ & _ & Ls & Li).
  destruct (H9 Hlin) as (ls & prs & Q1 & Q2 & Q3). rewrite Hl', Hlines in Q1. rewrite Hpairs in Q2.
  assert (El : ls = map (fun q => (Fin (centre ra rb xb (fst q)), Fin (centre rd re yb (snd q)))) bins) by congruence.
  assert (Epr : prs = map FinP pairs) by congruence. clear Q1 Q2.
  intros p w Hin.
  assert (Hk : exists k, nth_error (map Fin ps) k = Some (Fin p) /\ nth_error (map Fin ws) k = Some (Fin w)).
  { clear -Hin. revert ws Hin. induction ps as [|u ps IH]; intros [|z ws] Hin; try (destruct Hin; fail).
    destruct Hin as [E|Hin]; [injection E as -> ->; exists 0%nat; auto|].
    destruct (IH _ Hin) as (k & K1 & K2). exists (S k). auto. }
  destruct Hk as (k & K1 & K2). destruct (Q3 _ _ _ K1 K2) as (p' & w' & Hin' & E1 & E2 & (m & i & Hmi & Hnear)).
  rewrite Epr in Hin'. apply in_map_iff in Hin'. destruct Hin' as ([p0 w0] & E & Hin').
  assert (p' = Fin p0) as -> by (unfold FinP in E; cbn in E; congruence).
  assert (w' = Fin w0) as -> by (unfold FinP in E; cbn in E; congruence). clear E.
  change (Reqb p0 p = true) in E1. change (Reqb w0 w = true) in E2.
  destruct (Reqb_spec p0 p) as [->|]; [|discriminate]. destruct (Reqb_spec w0 w) as [->|]; [|discriminate].
  split; [exact Hin'|].
  rewrite El in Hmi. apply in_map_iff in Hmi. destruct Hmi as ([bi bj] & Eb & Hb). cbn [fst snd] in Eb.
  assert (m = Fin (centre ra rb xb bi)) as -> by congruence. assert (i = Fin (centre rd re yb bj)) as -> by congruence.
  apply (Permutation_in _ Hperm) in Hb. apply in_prod_iff in Hb. destruct Hb as (Hb1 & Hb2). apply in_seq in Hb1, Hb2.
  rewrite Htol in Hnear.
  exists (centre ra rb xb bi), (centre rd re yb bj).
  assert (V : forall l, In l votes <-> admitted lo_s hi_s lo_i hi_i n pairs l) by (intros l; apply votes_admitted).
  split; [|split].
  - apply (centre_reach lo_s hi_s (map fst votes) _ _ _ _ _); auto; [| |lia].
    + intros z. rewrite in_map_iff. split; intros (l & A1 & A2); exists l; split; auto; apply V; auto.
    + intros z Hz. apply in_map_iff in Hz. destruct Hz as (l & <- & Hz). apply V in Hz.
      destruct Hz as (k0 & p1 & w1 & Hk0 & _ & -> & _). apply slope_at_bounds; auto.
  - apply (centre_reach lo_i hi_i (map snd votes) _ _ _ _ _); auto; [| |lia].
    + intros z. rewrite in_map_iff. split; intros (l & A1 & A2); exists l; split; auto; apply V; auto.
    + intros z Hz. apply in_map_iff in Hz. destruct Hz as (l & <- & Hz). apply V in Hz.
      destruct Hz as (k0 & p1 & w1 & _ & _ & _ & _ & B). exact B.
  - change (Rleb (Rabs (centre ra rb xb bi * p + centre rd re yb bj + - w)%R) tol = true) in Hnear.
    destruct (Rleb_spec (Rabs (centre ra rb xb bi * p + centre rd re yb bj + - w)%R) tol); [assumption|discriminate].
Qed.

(** C137 fails when the limits admit nothing: the lines searched then lie in the unit
    square.  Here the limits ask for at least 14 per pixel from an intercept of at
    least -100, which puts every peak beyond every line by more than the tolerance of
    2; the fit succeeds all the same, with all peaks and less than 1 per pixel. *)
Definition off_session : list (cal_op f64) :=
  [OGeneral None (Some [fz 0; fz 150; fz 300; fz 450; fz 600]) None;
   OHough (mkHA (Some (fz 9)) (Some 1%nat) (Some 1%nat) (Some (fz 0)) (Some (fz 9000)) (Some (fz 100)) (Some (fz 20)));
   ORansac (mkRA (Some 2%nat) None None None (Some (fz 5)) None None (Some (fz 1)) None None);
   OAddUser (user_lines [fz 6; fz 11; fz 17; fz 24; fz 27]) (fz 10) false].
Definition off_peaks : list f64 := [fz 10; fz 21; fz 33; fz 47; fz 52].
Lemma fit_within_limits_refuted_main :
  let c := after off_peaks off_session in
  let a := mkFA 3 1 None (fz 5) (Some FitPoly) (fz 2) false in
  h_min_intercept (c_hp c) = Some (fz (-100)) /\
  match h_min_slope (c_hp c), fit o_ex 60 c a return Prop with
  | Some s, Some (c', Ok v) =>
      fz 14 <' s = true /\ fv_mpeaks v = MList off_peaks /\
      nth 1 (fv_coeff v) (fz 0) <' fz 1 = true /\
      forallb (fun q => snd q +' fz 2 <' s *' fst q +' fz (-100))
        (combine off_peaks (mseq_vals (fv_matlas v))) = true
  | _, _ => False
  end.
Proof. vm_compute. repeat split. Qed.

Lemma huber_term v : (0 <= if Rle_dec (v * v) 1 then v * v else 2 * Rabs v - 1)%R.
Proof.
  destruct Rle_dec as [L|L]; [pose proof (Rle_0_sqr v) as K; exact K|].
  apply Rnot_le_lt in L. unfold Rabs. destruct Rcase_abs; nra.
Qed.

Lemma huber_zeros r : (huber r <= 0)%R -> forall v, In v r -> v = 0%R.
Proof.
  unfold huber. intros H.
  assert (G : (fold_right Rplus 0 (map (fun v => if Rle_dec (v * v) 1 then v * v else 2 * Rabs v - 1) r) <= 0)%R) by lra.
  clear H. induction r as [|u r IH]; intros v Hv; [destruct Hv|]. cbn [map fold_right] in G.
  pose proof (huber_term u) as U.
  assert (P : (0 <= fold_right Rplus 0 (map (fun v => if Rle_dec (v * v) 1 then v * v else 2 * Rabs v - 1) r))%R).
  { clear. induction r as [|a r IH]; cbn [map fold_right]; [lra|]. pose proof (huber_term a). lra. }
  destruct Hv as [<-|Hv]; [|apply IH; auto; lra].
  assert (E : ((if Rle_dec (u * u) 1 then u * u else 2 * Rabs u - 1) = 0)%R) by lra.
  destruct Rle_dec as [L|L].
  - apply Rmult_integral in E. tauto.
  - apply Rnot_le_lt in L. exfalso. revert E. unfold Rabs. destruct Rcase_abs; nra.
Qed.

Lemma combine_map_r {T U} (g : T -> U) l l2 : List.length l = List.length l2 ->
  (forall a b, In (a, b) (combine l l2) -> b = g a) -> l2 = map g l.
Proof.
  revert l2. induction l as [|a l IH]; intros [|b l2] L H; try discriminate; [reflexivity|].
  cbn [map]. f_equal; [apply H; left; reflexivity|]. apply IH; [injection L; auto|]. intros; apply H; right; auto.
Qed.

(** C138: if the limits leave only right pairs, that is, every (peak, line) pair within
    candidate_tolerance of a line that can be tried satisfies w = P(p) for one
    polynomial P of the degree asked for, then whatever was drawn and whatever the fitter
    used in the search returned, a successful fit matches right pairs only and, if
    least_squares finds the minimum it is asked for, returns exactly P. *)
Lemma fit_finds_truth_main :
  forall (o : oracle xr) fuel c a c' v at_ peaks lines pairs n xb yb lo_s hi_s lo_i hi_i tol co,
    (forall l, is_argsort l (o_argsort o l)) -> pairs_current c -> c_atlas c = Some at_ ->
    c_peaks c = map Fin peaks -> get_lines at_ = map Fin lines ->
    r_linear (c_rp c) = Some true -> fa_ctol a = Fin tol ->
    hough_ready c pairs n xb yb lo_s hi_s lo_i hi_i -> c_lines c = None ->
    (1 <= degree_used a)%nat -> List.length co = S (degree_used a) ->
    (forall p w, In (p, w) pairs -> compatible lo_s hi_s lo_i hi_i n pairs tol p w -> w = poly co p) ->
    fit o fuel c a = Some (c', Ok v) ->
    exists ps,
      fv_mpeaks v = MList (map Fin ps) /\ fv_matlas v = MList (map Fin (map (poly co) ps)) /\
      (library_minimises (o_ls o) huber (degree_used a) ps (map (poly co) ps) -> fv_coeff v = map Fin co).
Proof.
  intros o fuel c a c' v at_ peaks lines pairs n xb yb lo_s hi_s lo_i hi_i tol co
    Harg Hc Ha Ep Ew Hlin Htol Hr Hnone Hd Lco Hright H.
  destruct (fit_within_limits_partial_main _ _ _ _ _ _ _ _ _ _ _ _ _ _ _ _ _ _ Harg Hc Ha Ep Ew Hlin Htol Hr Hnone H)
    as (ps & ws & H1 & H2 & H3 & H4 & H5 & H6).
  assert (Ews : ws = map (poly co) ps).
  { apply combine_map_r; auto. intros p w Hin. destruct (H6 p w Hin) as (Hp & Hcomp). apply Hright; auto. }
  exists ps. split; [exact H1|]. split; [congruence|]. intros Hmin.
  destruct (fit_best_main o fuel huber c a c' v at_ peaks lines Harg Hc Ha Ep Ew Hd H) as (x & y & X1 & X2 & X3).
  assert (x = ps) as -> by (apply map_Fin_inj; congruence).
  assert (y = map (poly co) ps) as -> by (apply map_Fin_inj; congruence).
  destruct (X3 Hmin) as (cs & -> & (Lcs & Hbest)). f_equal.
  apply (poly_ident cs co ps); auto; try lia.
  specialize (Hbest co ltac:(lia)).
  assert (Z : residuals co ps (map (poly co) ps) = map (fun _ => 0%R) ps).
  { unfold residuals. generalize (std (map (poly co) ps)) as sd. intros sd. clear.
    induction ps as [|p ps IH]; [reflexivity|]. cbn [map combine]. f_equal; [cbn [fst snd]; unfold Rdiv; ring|exact IH]. }
  rewrite Z, huber_zero in Hbest. intros u Hu.
  assert (Sy : std (map (poly co) ps) <> 0%R).
  { assert (NF : forall l : list R, no_nan (map Fin l)) by (intros l z Hz; apply in_map_iff in Hz; destruct Hz as (r & <- & _); reflexivity).
    destruct (fit_matched _ _ _ _ _ _ _ Harg Hc Ha (eq_ind_r no_nan (NF peaks) Ep) (eq_ind_r no_nan (NF lines) Ew) H) as
      (xs & ys & _ & Y2 & _ & _ & Y5 & _).
    assert (ys = map Fin (map (poly co) ps)) as -> by congruence.
    destruct ps as [|p0 [|p1 ps]]; [cbn in H5; lia|cbn in H5; lia|].
    apply (std_different _ (poly co p0) (poly co p1)); [left; auto|right; left; auto|].
    intros E. cbn [map] in Y5. inversion Y5 as [|? ? _ F]; subst. inversion F as [|? ? K]; subst.
    rewrite E in K. change (Rltb (poly co p1) (poly co p1) = true) in K.
    destruct (Rltb_spec (poly co p1) (poly co p1)); [lra|discriminate]. }
  assert (Q : ((poly co u - poly cs u) / std (map (poly co) ps) = 0)%R).
  { apply (huber_zeros _ Hbest). unfold residuals. apply in_map_iff. exists (u, poly co u). split; [reflexivity|].
    apply (in_combine_map' (poly co)). exact Hu. }
  unfold Rdiv in Q. apply Rmult_integral in Q. destruct Q as [Q|Q]; [change (poly cs u = poly co u); lra|].
  exfalso. exact (Rinv_neq_0_compat _ Sy Q).
Qed.

Lemma xy_lines (o : oracle xr) (c d : calib xr) ctol : r_linear (c_rp c) = Some true -> r_linear (c_rp d) = Some true ->
  r_top (c_rp c) = r_top (c_rp d) -> r_weighted (c_rp c) = r_weighted (c_rp d) -> r_close (c_rp c) = r_close (c_rp d) ->
  r_tol (c_rp c) = r_tol (c_rp d) -> c_lines c = c_lines d -> c_pairs c = c_pairs d ->
  h_rt (c_hp c) = h_rt (c_hp d) -> h_lt (c_hp c) = h_lt (c_hp d) -> ransac_xy o c ctol = ransac_xy o d ctol.
Proof.
  intros H1 H2 H3 H4 H5 H6 H7 H8 H9 H10. unfold ransac_xy, ransac_candidates. rewrite H1, H2, H3, H4, H5, H6.
  cbn [need bind]. unfold candidates_linear. rewrite H7, H8, H9, H10. reflexivity.
Qed.

(** The session of C110 with one slope to try, intercepts from 95 to 105 and no
    transform yet. *)
Definition reg_pairs : list (R * R) :=
  [(0, 100); (0, 110); (0, 140); (1, 100); (1, 110); (1, 140); (4, 100); (4, 110); (4, 140)]%R.
Definition reg_c : calib xr :=
  mkCal (map Fin ex_us) None (Some (mkAtlas (map ex_line ex_lines) (Fin 0) (Fin 1000) (Fin 0))) None
    (mkG (Some (Fin 3)) (Some (map Fin [0; 1; 2; 3; 4]%R)) None false false)
    (mkH (Some 1%Z) (Some 1%nat) (Some 1%nat) None None (Some (Fin 5)) (Some (Fin 5)) (Some (Fin 95)) (Some (Fin 105))
       (Some (Fin 10)) (Some (Fin 10)))
    (mkR (Some 2%nat) (Some 1%nat) (Some true) (Some false) (Some (Fin 1)) (Some false) (Some (Fin 1))
       (Some (Fin 0)) (Some (Fin 0)) (Some (Fin 0)))
    None false (PArr (map FinP reg_pairs)) (hough_init (A := xr)) None None (MList []) (MList [])
    None None None None None None None None.

Lemma reg_ready : hough_ready reg_c reg_pairs 1 1 1 10 10 95 105.
Proof. unfold hough_ready. cbn. repeat split; try lra; try lia; discriminate. Qed.

Lemma reg_admitted line : admitted 10 10 95 105 1 reg_pairs line <-> line = (10, 100)%R.
Proof.
  unfold admitted. split.
  - intros (k & p & w & Hk & Hp & Es & Ew & B). assert (k = 0%nat) as -> by lia.
    unfold slope_at in Es. cbn [Nat.eqb] in Es. rewrite Es in Ew. destruct line as [s i]. cbn [fst snd] in *. subst s.
    cbn [reg_pairs In] in Hp.
    repeat (destruct Hp as [Hp|Hp]; [injection Hp as <- <-; f_equal; lra|]). destruct Hp.
  - intros ->. exists 0%nat, 0%R, 100%R. cbn [fst snd]. split; [lia|]. split; [left; auto|].
    split; [unfold slope_at; reflexivity|]. lra.
Qed.

Lemma reg_right : forall p w, In (p, w) reg_pairs -> compatible 10 10 95 105 1 reg_pairs 1 p w -> w = poly ex_co p.
Proof.
  intros p w Hp (m & i & Rm & Ri & Hnear).
  assert (Bm : (19 / 2 <= m <= 21 / 2)%R).
  { destruct Rm as [((a & b & (l & A1 & A2) & (l' & A3 & A4) & D) & _)|[(a & (l & A1 & A2) & _ & B)|(K & _)]].
    - apply reg_admitted in A1, A3. subst l l'. congruence.
    - apply reg_admitted in A1. subst l a. cbn [fst] in B. lra.
    - exfalso. apply (K 10%R). exists (10, 100)%R. split; [apply reg_admitted; auto|reflexivity]. }
  assert (Bi : (199 / 2 <= i <= 201 / 2)%R).
  { destruct Ri as [((a & b & (l & A1 & A2) & (l' & A3 & A4) & D) & _)|[(a & (l & A1 & A2) & _ & B)|(K & _)]].
    - apply reg_admitted in A1, A3. subst l l'. congruence.
    - apply reg_admitted in A1. subst l a. cbn [snd] in B. lra.
    - exfalso. apply (K 100%R). exists (10, 100)%R. split; [apply reg_admitted; auto|reflexivity]. }
  apply Rabs_le_inv in Hnear. rewrite ex_poly. cbn [reg_pairs In] in Hp.
  repeat (destruct Hp as [Hp|Hp]; [injection Hp as <- <-; lra|]). destruct Hp.
Qed.

Lemma reg_current : pairs_current reg_c.
Proof.
  eexists. split; [reflexivity|]. unfold reg_c. cbn [c_pairs c_peaks]. intros a b H.
  apply in_map_iff in H. destruct H as ([u w] & E & H). unfold FinP in E. cbn [fst snd] in E. injection E as <- <-.
  unfold get_lines. cbn [at_lines map ex_us ex_lines]. cbn [reg_pairs In] in H.
  repeat (destruct H as [H|H]; [injection H as <- <-; cbn; auto 8|]). destruct H.
Qed.

(** Non-vacuity of C137 and C138. *)
Example fit_finds_truth_example_main :
  (forall l, is_argsort l (o_argsort ex_o l)) /\ pairs_current reg_c /\
  hough_ready reg_c reg_pairs 1 1 1 10 10 95 105 /\ c_lines reg_c = None /\
  (forall p w, In (p, w) reg_pairs -> compatible 10 10 95 105 1 reg_pairs 1 p w -> w = poly [100; 10]%R p) /\
  exists c' v, fit ex_o 2 reg_c ex_a = Some (c', Ok v) /\ fv_mpeaks v = MList (map Fin [0; 1; 4]%R) /\
    library_minimises (o_ls ex_o) huber 1 [0; 1; 4]%R (map (poly [100; 10]%R) [0; 1; 4]%R).
Proof.
  split; [intros l; apply argsort_stable_ok|]. split; [exact reg_current|]. split; [exact reg_ready|].
  split; [reflexivity|]. split; [exact reg_right|].
  set (c1 := set_c_kind (Some FitPoly) (set_c_coeff None (set_c_deg (Some 1%nat) reg_c))).
  assert (B : fit_begin reg_c ex_a = (c1, Ok tt)) by reflexivity.
  set (c1' := set_sample 2 c1).
  destruct (do_hough_transform (o_argsort ex_o) c1' false) as [c2 r2] eqn:Et.
  assert (R1 : hough_ready c1' reg_pairs 1 1 1 10 10 95 105) by exact reg_ready.
  destruct (do_hough_ready _ _ _ _ _ _ _ _ _ _ _ _ (fun l => argsort_stable_ok l) R1 Et) as (-> & _ & _ & Hv).
  cbv zeta in Hv. set (votes := filter _ _) in Hv.
  destruct Hv as (_ & ra & rb & rd & re & hist & bins & D1 & D2 & _ & St & _ & _ & _ & Hl & Hperm & _).
  assert (V : forall l, In l votes <-> l = (10, 100)%R) by (intros l; rewrite <- reg_admitted; apply votes_admitted).
  clearbody votes.
  assert (Hb : bins = [(0, 0)%nat]).
  { apply Permutation_sym in Hperm. cbn [seq list_prod map app] in Hperm. apply Permutation_length_1_inv in Hperm. exact Hperm. }
  subst bins. cbn [map fst snd] in Hl.
  assert (C1 : centre ra rb 1 0 = 10%R /\ centre rd re 1 0 = 100%R).
  { assert (V1 : forall z, In z (map fst votes) -> z = 10%R).
    { intros z Hz. apply in_map_iff in Hz. destruct Hz as (l & <- & Hz). apply V in Hz. subst l. reflexivity. }
    assert (V2 : forall z, In z (map snd votes) -> z = 100%R).
    { intros z Hz. apply in_map_iff in Hz. destruct Hz as (l & <- & Hz). apply V in Hz. subst l. reflexivity. }
    assert (NE : In (10, 100)%R votes) by (apply V; reflexivity).
    unfold centre, edge. cbn [INR].
    destruct D1 as [(E & _)|(u & w & Hu & Hw & _ & D1)]; [destruct votes; [destruct NE|discriminate]|].
    destruct D2 as [(E & _)|(u' & w' & Hu' & Hw' & _ & D2)]; [destruct votes; [destruct NE|discriminate]|].
    apply V1 in Hu, Hw. apply V2 in Hu', Hw'. subst u w u' w'.
    split; [destruct D1 as [(L & _)|(_ & -> & ->)]; [lra|field]|destruct D2 as [(L & _)|(_ & -> & ->)]; [lra|field]]. }
  destruct C1 as (C1 & C2). rewrite C1, C2 in Hl.
  assert (Fr := fit_hough_frame (o_argsort ex_o) c1'). cbv zeta in Fr.
  assert (Ef : fit_hough (o_argsort ex_o) c1' = (c2, Ok tt)) by exact Et.
  rewrite Ef in Fr. cbn [fst] in Fr. destruct Fr as (((P1 & P2 & P3 & P4 & P5 & P6 & P7 & P8 & P9) & _) & Frp & Fco & Fk & _).
  assert (Em : r_matches (c_rp c2) = Some (Fin 0)) by (rewrite Frp; reflexivity).
  set (c2' := set_matches (adjusted_matches 3 3 (Fin 0)) c2).
  assert (Mm : adjusted_matches 3 3 (Fin 0) = Fin 0).
  { unfold adjusted_matches. rewrite !nnat_Fin.
    repeat match goal with |- context [?a <' ?b] =>
      lazymatch a with Fin (INR ?n) => change (a <' b) with (Rltb (INR n) 0) end;
      match goal with |- context [Rltb ?u ?v] => destruct (Rltb_spec u v) as [L|_]; [cbn in L; lra|] end end.
    reflexivity. }
  assert (P : fit_prepare ex_o c1 ex_a = (c2', Ok tt)).
  { unfold fit_prepare. change (c_atlas c1) with (c_atlas reg_c). change (r_sample (c_rp c1)) with (Some 2%nat).
    cbn [c_atlas reg_c]. change (adjusted_size ex_a (atlas_len _) 2) with 2%nat. fold c1'. rewrite Ef, Em.
    assert (Lp : List.length (c_peaks c2) = 3%nat) by (rewrite P1; reflexivity). rewrite Lp. reflexivity. }
  destruct St as (S1 & S2 & S3). cbn [seq map] in S2, S3.
  assert (X : exact_problem ex_o c2' (fa_ctol ex_a) (fa_deg ex_a) 2 ex_co ex_us).
  { eapply (ex_exact_any c2' 95 105); try (cbn [c2' set_matches c_rp set_c_rp]; rewrite ?Frp; reflexivity).
    - rewrite <- (ex_xy 0). apply xy_lines; try (unfold c2', set_matches; cbn [c_rp set_c_rp r_linear r_top r_weighted r_close r_tol];
        rewrite ?Frp; reflexivity).
      + unfold c2', set_matches. cbn [c_lines set_c_rp]. rewrite Hl. reflexivity.
      + unfold c2', set_matches. cbn [c_pairs set_c_rp]. rewrite P9. reflexivity.
      + unfold c2', set_matches. cbn [c_hp set_c_rp]. rewrite P6. reflexivity.
      + unfold c2', set_matches. cbn [c_hp set_c_rp]. rewrite P6. reflexivity.
    - unfold c2', set_matches. cbn [c_kind set_c_rp]. rewrite Fk. reflexivity.
    - unfold c2', set_matches. cbn [c_known set_c_rp]. rewrite P4. reflexivity.
    - unfold c2', set_matches. cbn [c_hp set_c_rp]. rewrite P6. reflexivity.
    - unfold c2', set_matches. cbn [c_hp set_c_rp]. rewrite P6. reflexivity.
    - lra.
    - unfold c2', set_matches. cbn [c_gp set_c_rp]. rewrite P5. reflexivity.
    - unfold c2', set_matches. cbn [c_rp set_c_rp r_matches]. rewrite Mm. reflexivity.
    - unfold c2', set_matches. cbn [c_ht set_c_rp]. exact S2.
    - unfold c2', set_matches. cbn [c_ht set_c_rp]. exact S3.
    - unfold c2', set_matches. cbn [c_ht set_c_rp]. exact S1. }
  destruct (exact_data_partial_main ex_o reg_c ex_a c1 c2' 2 ex_co ex_us 0 _ eq_refl eq_refl ltac:(cbn; lia) B P X
    ltac:(unfold c2', set_matches; cbn [c_rp set_c_rp r_fit_error]; rewrite Frp; reflexivity) ltac:(lra)
    ltac:(unfold c2', set_matches; cbn [c_atlas set_c_rp]; rewrite P3; reflexivity)
    2%nat ltac:(lia)) as (c' & v & H & _ & H2 & _).
  exists c', v. split; [exact H|]. split; [exact H2|]. exact ex_minimises.
Qed.

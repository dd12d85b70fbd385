(** * Main_Fit: the properties of Calibrator.fit with their proofs.  The statements
    are repeated, without proofs, in Props_Fit.v. *)

From Coq Require Import ZArith Bool List String Lia Reals Lra Sorted.
From Verif Require Import Num F64 XReal Py Np NpFacts ArgsortFacts Util Models Atlas Hough PolyEval Calib SpecCalib Main_Calib Cand SpecCand CandFacts Ransac SpecRansac RansacFacts Main_Ransac Fit SpecFit FitFacts.
Import ListNotations.
Local Open Scope num_scope.

(** Lines supplied by the user for the examples. *)
Definition user_lines (l : list f64) : user_args f64 :=
  mkUserArgs (UElSeq (SeqList (map (fun _ => "Ar"%string) l))) (SeqList l)
    (Some (SeqList (map (fun _ => fz 1) l))) false (fz 0) (fz 0) (fz 0).
(** A session: pixel list, Hough properties, RANSAC properties (sample size [n], minimum
    matches [m]) and a user atlas. *)
Definition session (n : nat) (m : f64) (l : list f64) : list (cal_op f64) :=
  [OGeneral None (Some [fz 0; fz 150; fz 300; fz 450; fz 600]) None;
   OHough (mkHA (Some (fz 9)) (Some 5%nat) (Some 5%nat) None None (Some (fz 100)) (Some (fz 20)));
   ORansac (mkRA (Some n) None None None (Some (fz 5)) None None (Some m) None None);
   OAddUser (user_lines l) (fz 10) false].
Definition after (peaks : list f64) (h : list (cal_op f64)) : calib f64 :=
  match calib_init all_inside peaks None with
  | Ok c0 => cal_run env0 c0 h
  | Raise _ => calib_blank [] None
  end.
Definition c_session : calib f64 := after ex_peaks (session 2 (fz 1) ex_waves).
Definition a_session : fit_args f64 := mkFA 3 1 None (fz 5) (Some FitPoly) (fz 50) false.

Lemma pairs_current_frame {A} {N : Num A} (c c' : calib A) : frame c c' -> pairs_current c -> pairs_current c'.
Proof.
  intros ((E1 & _ & E3 & _ & _ & _ & _ & _ & E9) & _) (at_ & Ha & H). exists at_. rewrite E3, E9, E1. auto.
Qed.

(** What a successful fit matched. *)
Lemma fit_matched {A} {N : Num A} {O : NumOrder A} (o : oracle A) fuel c a c' v at_ :
    (forall l, is_argsort l (o_argsort o l)) -> pairs_current c -> c_atlas c = Some at_ ->
    no_nan (c_peaks c) -> no_nan (get_lines at_) ->
    fit o fuel c a = Some (c', Ok v) ->
    exists xs ys,
      fv_mpeaks v = MList xs /\ fv_matlas v = MList ys /\ List.length xs = List.length ys /\
      pairwise_different xs /\ StronglySorted (fun u w => u <' w = true) ys /\
      (degree_used a < List.length xs)%nat /\
      (forall p, In p xs -> exists q, In q (c_peaks c) /\ q ==' p = true) /\
      (forall w, In w ys -> exists z, In z (get_lines at_) /\ z ==' w = true) /\
      (List.length xs <= List.length (c_peaks c))%nat /\ (List.length xs <= atlas_len at_)%nat /\
      (r_linear (c_rp c) = Some true ->
       exists lines pairs, c_lines c' = Some lines /\ c_pairs c = PArr pairs /\
         forall k p w, nth_error xs k = Some p -> nth_error ys k = Some w ->
           exists p' w', In (p', w') pairs /\ p' ==' p = true /\ w' ==' w = true /\ near_line lines (fa_ctol a) p' w') /\
      utilisation (List.length xs) (List.length (c_peaks c)) = Ok (fv_putil v) /\
      utilisation (List.length xs) (atlas_len at_) = Ok (fv_autil v).
Proof.
  intros Harg Hc Ha Np Na H.
  destruct (fit_inv _ _ _ _ _ _ H) as (c2 & c3 & r & co & at' & size & m & F2 & Ha' & Hs & Hm & Hco & Hk & Hs2 & Hm2 &
    Hsol & Hp & Hpu & Hau & Ec' & Ev & Emp & Ema & Erms & Eres).
  assert (at' = at_) as -> by congruence.
  pose proof (pairs_current_frame _ _ F2 Hc) as Hc2.
  assert (G2 : same_input c c2) by apply F2. destruct G2 as (E1 & E2 & E3 & E4 & E5 & E6 & E7 & E8 & E9).
  destruct (solve_ransac_inv o Harg _ _ _ _ _ _ _ _ _ Hsol) as [(K & _)|(x & y & size2 & f & samples & s0 & s & Hxy & Hrest)];
    [congruence|].
  assert (NN : no_nan x /\ no_nan y).
  { eapply xy_no_nan; eauto; [rewrite E3; eauto|rewrite E1; auto]. }
  destruct NN as (Nx & Ny).
  destruct (ransac_valid_matching_main A N O o fuel c2 _ _ _ _ _ c3 r co x y Harg Hxy Nx Ny Hsol Hp) as
    (xs & ys & M1 & M2 & (L & D1 & D2 & M3) & Hl & Hsort).
  destruct (ransac_quality_partial_main A N O o fuel c2 _ _ _ _ _ c3 r co x y Harg Hxy Nx Ny Hsol Hp) as (Hdeg & _).
  exists xs, ys.
  assert (Hprov : forall k p w, nth_error xs k = Some p -> nth_error ys k = Some w ->
     exists p' w', In (p', w') (combine x y) /\ p' ==' p = true /\ w' ==' w = true) by exact M3.
  assert (Hx : forall p, In p xs -> exists q, In q (c_peaks c) /\ q ==' p = true).
  { intros p Hin. apply In_nth_error in Hin. destruct Hin as (k & Ek).
    destruct (nth_error ys k) as [w|] eqn:Ew; [|apply nth_error_None in Ew; assert (k < List.length xs)%nat by (apply nth_error_Some; congruence); lia].
    destruct (Hprov _ _ _ Ek Ew) as (p' & w' & Hin & P1 & P2).
    destruct (xy_current o Harg _ _ _ _ _ _ Hc2 Hxy Hin) as (at2 & _ & Q1 & _). rewrite E1 in Q1. eauto. }
  assert (Hy : forall w, In w ys -> exists z, In z (get_lines at_) /\ z ==' w = true).
  { intros w Hin. apply In_nth_error in Hin. destruct Hin as (k & Ek).
    destruct (nth_error xs k) as [p|] eqn:Ew; [|apply nth_error_None in Ew; assert (k < List.length ys)%nat by (apply nth_error_Some; congruence); lia].
    destruct (Hprov _ _ _ Ew Ek) as (p' & w' & Hin & P1 & P2).
    destruct (xy_current o Harg _ _ _ _ _ _ Hc2 Hxy Hin) as (at2 & Q0 & _ & Q1).
    assert (at2 = at_) as -> by congruence. eauto. }
  split; [congruence|]. split; [congruence|]. split; auto. split; auto. split; auto. split; [lia|].
  split; auto. split; auto.
  split; [apply pigeonhole; auto|].
  split; [rewrite L; replace (atlas_len at_) with (List.length (get_lines at_)) by (unfold get_lines, atlas_len; apply map_length); apply pigeonhole; auto|].
  split.
  - intros Hlin. assert (Hlin2 : r_linear (c_rp c2) = Some true).
    { destruct F2 as (_ & _ & F2). destruct F2 as (_ & F2 & _). congruence. }
    pose proof (solve_frame _ _ _ _ _ _ _ _ _ _ Hsol) as (_ & _ & _ & _ & Hlines & _).
    destruct (nth_error xs 0) as [p0|] eqn:P0; [|apply nth_error_None in P0; lia].
    destruct (nth_error ys 0) as [w0|] eqn:W0; [|apply nth_error_None in W0; lia].
    destruct (Hprov _ _ _ P0 W0) as (p0' & w0' & Hin0 & _).
    destruct (xy_linear o Harg _ _ _ _ _ _ Hxy Hin0 Hlin2) as (lines & pairs & _ & L1 & L2 & _).
    exists lines, pairs. split; [subst c'; cbn; congruence|]. split; [congruence|].
    intros k p w Ep Ew. destruct (Hprov _ _ _ Ep Ew) as (p' & w' & Hin & P1 & P2).
    destruct (xy_linear o Harg _ _ _ _ _ _ Hxy Hin Hlin2) as (lines' & pairs' & p'' & L1' & L2' & L3' & L4' & L5').
    assert (lines' = lines) as -> by congruence. assert (pairs' = pairs) as -> by congruence.
    exists p'', w'. split; auto. split; [eapply eqb_trans; eauto|]. auto.
  - rewrite Hl. auto.
Qed.

(** C90: what a successful fit reports was observed: different peaks of the calibrator,
    in one-to-one correspondence with lines of its atlas in increasing order, more of
    them than the degree; with linear candidates each pair is one of the pairs allowed
    by the calibrator's limits and lies within candidate_tolerance of a Hough line. *)
Lemma fit_matches_observed_main :
  forall (A : Type) (N : Num A) (O : NumOrder A) (o : oracle A) fuel c a c' v at_,
    (forall l, is_argsort l (o_argsort o l)) -> pairs_current c -> c_atlas c = Some at_ ->
    no_nan (c_peaks c) -> no_nan (get_lines at_) ->
    fit o fuel c a = Some (c', Ok v) ->
    exists xs ys,
      fv_mpeaks v = MList xs /\ fv_matlas v = MList ys /\ List.length xs = List.length ys /\
      pairwise_different xs /\ StronglySorted (fun u w => u <' w = true) ys /\
      (degree_used a < List.length xs)%nat /\
      (forall p, In p xs -> exists q, In q (c_peaks c) /\ q ==' p = true) /\
      (forall w, In w ys -> exists z, In z (get_lines at_) /\ z ==' w = true) /\
      (r_linear (c_rp c) = Some true ->
       exists lines pairs, c_lines c' = Some lines /\ c_pairs c = PArr pairs /\
         forall k p w, nth_error xs k = Some p -> nth_error ys k = Some w ->
           exists p' w', In (p', w') pairs /\ p' ==' p = true /\ w' ==' w = true /\
                         near_line lines (fa_ctol a) p' w').
Proof.
  intros A N O o fuel c a c' v at_ Harg Hc Ha Np Na H.
  destruct (fit_matched _ _ _ _ _ _ _ Harg Hc Ha Np Na H) as
    (xs & ys & H1 & H2 & H3 & H4 & H5 & H6 & H7 & H8 & _ & _ & H9 & _).
  exists xs, ys. repeat (split; [assumption|]). exact H9.
Qed.

Lemma pairs_current_list {A} {N : Num A} (c : calib A) at_ l :
  c_atlas c = Some at_ -> c_pairs c = PArr l ->
  l = list_prod (c_peaks c) (get_lines at_) -> pairs_current c.
Proof.
  intros Ha Hp El. exists at_. split; auto. rewrite Hp, El. intros a b H. apply in_prod_iff in H. exact H.
Qed.

(** The answer of the session's fit. *)
Lemma session_answer :
  exists c v, fit o_ex 60 c_session a_session = Some (c, Ok v) /\
    fv_mpeaks v = MList ex_peaks /\ fv_matlas v = MList ex_waves /\ fv_putil v = fz 1 /\
    r_sample (c_rp c) = Some 2%nat /\ r_matches (c_rp c) = Some (fz 1) /\ fv_rms v <' fz 2 = true.
Proof.
  eexists _, _. split; [vm_compute; reflexivity|]. split; [vm_compute; reflexivity|]. split; [vm_compute; reflexivity|].
  split; [vm_compute; reflexivity|]. split; [vm_compute; reflexivity|]. split; vm_compute; reflexivity.
Qed.

(** A session through the API, for C65, C68, C90, C91: five peaks, five lines. *)
Example fit_session_example_main :
  cal_ok env0 (match calib_init all_inside ex_peaks None with Ok c => c | Raise _ => calib_blank [] None end)
    (session 2 (fz 1) ex_waves) /\
  pairs_current c_session /\
  match c_atlas c_session with
  | Some at_ => get_lines at_ = ex_waves
  | None => False
  end /\
  r_linear (c_rp c_session) = Some true /\
  match fit o_ex 60 c_session a_session with
  | Some (c', Ok v) =>
      fv_mpeaks v = MList ex_peaks /\ fv_matlas v = MList ex_waves /\ fv_putil v = fz 1 /\
      r_sample (c_rp c') = Some 2%nat
  | _ => False
  end.
Proof.
  split; [vm_compute; repeat split|].
  split.
  { destruct (c_atlas c_session) as [at_|] eqn:Ea; [|vm_compute in Ea; discriminate].
    destruct (c_pairs c_session) as [| |l] eqn:Ep; [vm_compute in Ep; discriminate|vm_compute in Ep; discriminate|].
    eapply pairs_current_list; eauto.
    assert (H : match c_atlas c_session, c_pairs c_session with
                | Some at_, PArr l => l = list_prod (c_peaks c_session) (get_lines at_)
                | _, _ => True end) by (vm_compute; reflexivity).
    rewrite Ea, Ep in H. exact H. }
  split; [vm_compute; reflexivity|]. split; [vm_compute; reflexivity|].
  destruct session_answer as (c & v & E & H1 & H2 & H3 & H4 & _). rewrite E. auto.
Qed.

(** C65: the utilisations are the number of matches over the number of peaks and over
    the number of lines, and are fractions. *)
Lemma fit_utilisation_main :
  forall (o : oracle xr) fuel c a c' v at_,
    (forall l, is_argsort l (o_argsort o l)) -> pairs_current c -> c_atlas c = Some at_ ->
    no_nan (c_peaks c) -> no_nan (get_lines at_) ->
    fit o fuel c a = Some (c', Ok v) ->
    exists xs pu au,
      fv_mpeaks v = MList xs /\
      fv_putil v = Fin pu /\ fv_autil v = Fin au /\ c_putil c' = Some (Fin pu) /\ c_autil c' = Some (Fin au) /\
      (pu = INR (List.length xs) / INR (List.length (c_peaks c)))%R /\
      (au = INR (List.length xs) / INR (atlas_len at_))%R /\
      (0 < pu <= 1)%R /\ (0 < au <= 1)%R.
Proof.
  intros o fuel c a c' v at_ Harg Hc Ha Np Na H.
  destruct (fit_matched _ _ _ _ _ _ _ Harg Hc Ha Np Na H) as
    (xs & ys & H1 & H2 & H3 & H4 & H5 & H6 & H7 & H8 & Lp & La & _ & Up & Ua).
  destruct (fit_inv _ _ _ _ _ _ H) as (c2 & c3 & r & co & at' & size & m & F2 & Ha' & Hs & Hm & Hco & Hk & Hs2 & Hm2 &
    Hsol & Hp & Hpu & Hau & Ec' & _).
  assert (K : forall n k, (0 < n)%nat -> (n <= k)%nat -> forall w, utilisation n k = Ok w ->
     w = Fin (INR n / INR k) /\ (0 < INR n / INR k <= 1)%R).
  { intros n k Hn Hk' w Hu. unfold utilisation in Hu.
    replace (Nat.eqb n 0) with false in Hu by (symmetry; apply Nat.eqb_neq; lia). cbn [andb] in Hu.
    assert (Ew : w = nnat n /' nnat k) by congruence. rewrite Ew, (nnat_Fin n), (nnat_Fin k). clear Ew Hu.
    assert (0 < INR n)%R by (apply lt_0_INR; lia). assert (INR n <= INR k)%R by (apply le_INR; lia).
    split.
    - cbn. destruct (Reqb_spec (INR k) 0); [lra|]. reflexivity.
    - split; [apply Rdiv_lt_0_compat; lra|]. apply Rmult_le_reg_r with (INR k); [lra|].
      unfold Rdiv. rewrite Rmult_assoc, Rinv_l by lra. lra. }
  assert (Hpos : (0 < List.length xs)%nat) by lia.
  destruct (K _ _ Hpos Lp _ Up) as (E1 & B1). destruct (K _ _ Hpos La _ Ua) as (E2 & B2).
  exists xs, (INR (List.length xs) / INR (List.length (c_peaks c)))%R, (INR (List.length xs) / INR (atlas_len at_))%R.
  split; auto. split; auto. split; auto.
  split; [subst c'; cbn; congruence|]. split; [subst c'; cbn; congruence|]. auto.
Qed.

(** C65 needs pairs generated from the current atlas: after clear_atlas the old pairs
    are still used, the fit reports lines that are not in the atlas and the atlas
    utilisation is infinite. *)
Lemma fit_stale_pairs_refuted_main :
  let c := after ex_peaks (session 2 (fz 1) ex_waves ++ [OClear]) in
  match c_atlas c, fit o_ex 60 c a_session with
  | Some at_, Some (c', Ok v) =>
      get_lines at_ = [] /\ fv_matlas v = MList ex_waves /\ fz 1 <' fv_autil v = true
  | _, _ => False
  end.
Proof. vm_compute. repeat split. Qed.

(** C91: what fit returns is what it stores. *)
Lemma fit_returns_stored_main :
  forall (A : Type) (N : Num A) (O : NumOrder A) (o : oracle A) fuel c a c' v,
    fit o fuel c a = Some (c', Ok v) ->
    c_coeff c' = Some (fv_coeff v) /\ c_mpeaks c' = fv_mpeaks v /\ c_matlas c' = fv_matlas v /\
    c_rms c' = Some (fv_rms v) /\ c_resid c' = fv_resid v /\
    c_putil c' = Some (fv_putil v) /\ c_autil c' = Some (fv_autil v) /\ c_kind c' = fa_type a /\
    same_input c c'.
Proof.
  intros A N O o fuel c a c' v H.
  destruct (fit_inv _ _ _ _ _ _ H) as (c2 & c3 & r & co & at' & size & m & F2 & Ha' & Hs & Hm & Hco & Hk & Hs2 & Hm2 &
    Hsol & Hp & Hpu & Hau & Ec' & Ev & Emp & Ema & Erms & Eres).
  pose proof (solve_frame _ _ _ _ _ _ _ _ _ _ Hsol) as (S1 & _ & S3 & _).
  assert (G : same_input c c3) by (eapply same_input_trans; [apply F2|apply S1]).
  subst c'. cbn. repeat (split; [first [congruence|reflexivity]|]). exact G.
Qed.

(** C68, the part that holds: unless coefficients for a higher degree are supplied or
    the degree is at least the number of lines, a successful search (not brute force)
    ran with a sample larger than the degree and no larger than the numbers of peaks
    and of lines. *)
Lemma sample_size_usable_partial_main :
  forall (A : Type) (N : Num A) (O : NumOrder A) (o : oracle A) fuel c a c' v at_,
    (forall l, is_argsort l (o_argsort o l)) -> pairs_current c -> c_atlas c = Some at_ ->
    no_nan (c_peaks c) -> no_nan (get_lines at_) ->
    fit o fuel c a = Some (c', Ok v) -> fa_brute a = false ->
    (degree_used a <= fa_deg a < atlas_len at_)%nat ->
    exists n, r_sample (c_rp c') = Some n /\
      (degree_used a < n)%nat /\ (n <= List.length (c_peaks c))%nat /\ (n <= atlas_len at_)%nat.
Proof.
  intros A N O o fuel c a c' v at_ Harg Hc Ha Np Na H Hb Hd.
  destruct (fit_inv _ _ _ _ _ _ H) as (c2 & c3 & r & co & at' & size & m & F2 & Ha' & Hs & Hm & Hco & Hk & Hs2 & Hm2 &
    Hsol & Hp & Hpu & Hau & Ec' & _).
  assert (at' = at_) as -> by congruence. rewrite Hb in Hsol.
  pose proof (pairs_current_frame _ _ F2 Hc) as Hc2.
  assert (G2 : same_input c c2) by apply F2. destruct G2 as (E1 & E2 & E3 & E4 & E5 & E6 & E7 & E8 & E9).
  destruct (solve_ransac_inv o Harg _ _ _ _ _ _ _ _ _ Hsol) as [(K & _)|(x & y & size2 & f & samples & s0 & s & Hxy & Hrest)];
    [congruence|].
  assert (NN : no_nan x /\ no_nan y).
  { eapply xy_no_nan; eauto; [rewrite E3; eauto|rewrite E1; auto]. }
  destruct NN as (Nx & Ny).
  destruct (solve_sample _ _ _ _ _ _ _ _ _ _ _ _ _ Hsol Hp Hxy Hs2) as (Hux & Hn).
  assert (Hle : (List.length (np_unique x) <= List.length (c_peaks c))%nat).
  { apply pigeonhole; [apply unique_different; auto|].
    intros p Hin. assert (Hnp : nisnan p = false) by (apply Nx, np_unique_incl; auto).
    apply np_unique_incl in Hin. apply In_nth_error in Hin. destruct Hin as (k & Ek).
    pose proof (ransac_xy_length o Harg _ _ _ _ Hxy) as L.
    destruct (nth_error y k) as [w|] eqn:Ew; [|apply nth_error_None in Ew; assert (k < List.length x)%nat by (apply nth_error_Some; congruence); lia].
    assert (Hin : In (p, w) (combine x y)).
    { clear -Ek Ew. revert y k Ek Ew. induction x as [|u x IH]; intros [|z y] [|k] Ek Ew; cbn in *; try discriminate.
      - left; congruence. - right; eapply IH; eauto. }
    destruct (xy_current o Harg _ _ _ _ _ _ Hc2 Hxy Hin) as (at2 & _ & Q1 & _). rewrite E1 in Q1.
    exists p. split; auto. apply eqb_refl; auto. }
  assert (Hadj : (fa_deg a < adjusted_size a (atlas_len at_) size <= atlas_len at_)%nat).
  { unfold adjusted_size. destruct (Nat.ltb_spec (atlas_len at_) size);
      match goal with |- context [Nat.leb ?s ?t] => destruct (Nat.leb_spec s t) end; lia. }
  eexists. split; [subst c'; exact Hn|]. lia.
Qed.

(** C68 fails: (1) with three coefficients supplied and fit_deg=1, the degree used is 2
    but the sample has two peaks; (2) with two lines and fit_deg=2, three peaks are
    drawn although there are only two lines, so no sample can be matched. *)
Definition o_quad : oracle f64 :=
  mkO (o_argsort o_ex) (o_random o_ex)
    (fun _ xs ys d => Ok (lsq1 xs ys ++ repeat (fz 0) (d - 1))%list)
    (fun xs ys d _ => Ok (repeat (fz 0) (d - 1) ++ rev (lsq1 xs ys))%list)
    (o_sample o_ex) (o_pick o_ex) (o_spline o_ex) false.
Lemma sample_size_usable_refuted_main :
  (let a := mkFA 3 1 (Some [fz 3000; fz 9; fz 0]) (fz 5) (Some FitPoly) (fz 50) false in
   match fit o_quad 60 c_session a with
   | Some (c', Ok v) => degree_used a = 2%nat /\ r_sample (c_rp c') = Some 2%nat
   | _ => False
   end) /\
  (let c := after ex_peaks (session 2 (fz 1) [fz 4002; fz 6101]) in
   let a := mkFA 3 2 None (fz 5) (Some FitPoly) (fz 5000) false in
   match c_atlas c, fit o_quad 60 c a with
   | Some at_, Some (c', r) =>
       atlas_len at_ = 2%nat /\ r_sample (c_rp c') = Some 3%nat /\ (exists e, r = Raise e)
   | _, _ => False
   end).
Proof.
  split; vm_compute; repeat split. eexists; reflexivity.
Qed.

(** What any call of fit leaves alone, whatever its outcome. *)
Lemma fit_frame {A} {N : Num A} {O : NumOrder A} (o : oracle A) fuel c a c' r :
  fit o fuel c a = Some (c', r) ->
  same_input c c' /\ same_ransac c c' /\ (forall e, r = Raise e -> same_figures c c').
Proof.
  unfold fit. intros H.
  assert (G : (c' = c /\ exists e, r = Raise e) \/ match fit_begin c a with
        | (c1, Raise e) => Some (c1, Raise e)
        | (c1, Ok _) =>
            match fit_prepare o c1 a with
            | (c2, Raise e) => Some (c2, Raise e)
            | (c2, Ok _) =>
                match solve_ransac o fuel c2 (degree_used a) (fa_tries a) (c_coeff c2) (fa_ctol a) (fa_brute a) with
                | None => None
                | Some (c3, Raise e) => Some (c3, Raise e)
                | Some (c3, Ok r) => Some (fit_end c3 r)
                end
            end
        end = Some (c', r)).
  { destruct (fa_coeff a) as [[|]|]; [left; split; [congruence|exists IndexError; congruence]|right; exact H|right; exact H]. }
  clear H. destruct G as [(-> & e & ->)|H].
  { split; [apply same_input_refl|]. split; [repeat split|]. intros; repeat split. }
  pose proof (fit_begin_spec c a) as B. destruct (fit_begin c a) as [c1 [u|e]]; cbn [fst snd] in B; destruct B as (B1 & _).
  2: { assert (c' = c1) as -> by congruence. destruct B1 as (? & ? & ?); auto. }
  pose proof (fit_prepare_spec o c1 a) as P. cbv zeta in P.
  destruct (fit_prepare o c1 a) as [c2 [u2|e]]; cbn [fst snd] in P; destruct P as (P1 & _);
    pose proof (frame_trans _ _ _ B1 P1) as F2.
  2: { assert (c' = c2) as -> by congruence. destruct F2 as (? & ? & ?); auto. }
  destruct (solve_ransac o fuel c2 (degree_used a) (fa_tries a) (c_coeff c2) (fa_ctol a) (fa_brute a))
      as [[c3 [q|e]]|] eqn:Es; [| |discriminate]; pose proof (solve_frame _ _ _ _ _ _ _ _ _ _ Es) as (S1 & _);
      pose proof (frame_trans _ _ _ F2 S1) as F3.
  2: { assert (c' = c3) as -> by congruence. destruct F3 as (? & ? & ?); auto. }
  assert (He : fit_end c3 q = (c', r)) by congruence. unfold fit_end in He. destruct F3 as (I1 & I2 & I3).
  destruct (c_atlas c3) as [at_|].
  2: { assert (c' = c3) as -> by congruence. auto. }
  destruct (utilisation (rr_inl q) (List.length (c_peaks c3))).
  2: { assert (c' = c3) as -> by congruence. auto. }
  destruct (utilisation (rr_inl q) (atlas_len at_)).
  2: { assert (c' = c3) as -> by congruence. auto. }
  destruct (rr_p q).
  2: { assert (c' = c3) as -> by congruence. auto. }
  injection He as <- <-. split; [exact I1|]. split; [exact I3|]. discriminate.
Qed.

(** C86, the part that holds: of what the user supplied, fit changes only sample_size
    and minimum_matches. *)
Lemma fit_keeps_settings_partial_main :
  forall (A : Type) (N : Num A) (O : NumOrder A) (o : oracle A) fuel c a c' r,
    fit o fuel c a = Some (c', r) -> same_input c c' /\ same_ransac c c'.
Proof. intros A N O o fuel c a c' r H. destruct (fit_frame _ _ _ _ _ _ H) as (? & ? & _); auto. Qed.

(** C86 fails: a fit with a small atlas lowers sample_size from 9 to 5 and
    minimum_matches from 7 to 5 for good. *)
Lemma fit_keeps_settings_refuted_main :
  let c := after ex_peaks (session 9 (fz 7) ex_waves) in
  r_sample (c_rp c) = Some 9%nat /\ r_matches (c_rp c) = Some (fz 7) /\
  match fit o_ex 60 c a_session with
  | Some (c', _) => r_sample (c_rp c') = Some 5%nat /\ r_matches (c_rp c') = Some (fz 5)
  | None => False
  end.
Proof. vm_compute. repeat split. Qed.

(** C87, the part that holds: a fit that raises leaves the figures of the last fit (rms,
    residuals, utilisations) and everything the user supplied, but sample_size and
    minimum_matches, unchanged. *)
Lemma failed_fit_partial_main :
  forall (A : Type) (N : Num A) (O : NumOrder A) (o : oracle A) fuel c a c' e,
    fit o fuel c a = Some (c', Raise e) -> same_input c c' /\ same_ransac c c' /\ same_figures c c'.
Proof.
  intros A N O o fuel c a c' e H. destruct (fit_frame _ _ _ _ _ _ H) as (? & ? & K).
  split; auto. split; auto. apply (K e). reflexivity.
Qed.

(** C87 fails: after a successful fit, a second call with an unknown fit_type, or one
    that finds no solution, raises and the coefficients are gone. *)
Lemma failed_fit_refuted_main :
  match fit o_ex 60 c_session a_session with
  | Some (c', Ok v) =>
      c_coeff c' = Some (fv_coeff v) /\
      match fit o_ex 60 c' (mkFA 3 1 None (fz 5) None (fz 50) false) with
      | Some (c'', Raise ValueError) => c_coeff c'' = None
      | _ => False
      end /\
      match fit o_ex 60 c' (mkFA 3 1 None (fz 5) (Some FitPoly) (fz 0) false) with
      | Some (c'', Raise AssertionError) => c_coeff c'' = None
      | _ => False
      end
  | _ => False
  end.
Proof. vm_compute. repeat split. Qed.

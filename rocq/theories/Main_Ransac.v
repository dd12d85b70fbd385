(** * Main_Ransac: the properties of the RANSAC search with their proofs.  The
    statements are repeated, without proofs, in Props_Ransac.v. *)

From Coq Require Import ZArith Bool List String Lia Reals Lra Sorted Permutation.
From Verif Require Import Num F64 XReal Py Np NpFacts ArgsortFacts Util Models Atlas Hough SpecHough HoughFacts PolyEval Calib Cand SpecCand CandFacts Ransac SpecRansac RansacFacts SampleFacts.
Import ListNotations.
Local Open Scope num_scope.

(** A straight line fitted by least squares, lowest power first: the oracle for
    polyfit in the examples, and (highest power first) for the optimiser. *)
Definition lsq1 (xs ys : list f64) : list f64 :=
  let n := nnat (List.length xs) in
  let mx := np_sum xs /' n in
  let my := np_sum ys /' n in
  let sxy := np_sum (map (fun q => (fst q -' mx) *' (snd q -' my)) (combine xs ys)) in
  let sxx := np_sum (map (fun x => (x -' mx) *' (x -' mx)) xs) in
  let m := sxy /' sxx in [my -' m *' mx; m].
Definition o_ex : oracle f64 :=
  mkO argsort_stable (fun n => repeat (fd 5 (-1)) n)
    (fun _ xs ys _ => Ok (lsq1 xs ys)) (fun xs ys _ _ => Ok (rev (lsq1 xs ys)))
    (fun t l n _ => gather l (map (fun i => (i + t) mod (List.length l))%nat (seq 0 n)))
    (fun t l => nth (t mod List.length l)%nat l (fz 0))
    (fun _ _ _ => Ok (fun _ _ => fz 1)) false.

(** A calibrator with the given peaks, pairs and Hough lines, a tolerance of 5 and a
    sample size of 2. *)
Definition ransac_ex (peaks : list f64) (pairs lines : list (f64 * f64)) : calib f64 :=
  set_c_rp (mkR (Some 2%nat) (Some 5%nat) (Some true) (Some false) (Some (fz 5)) (Some true) (Some (fz 1))
              (Some (fz 0)) (Some (fz 0)) (Some (fd 1 (-4))))
  (set_c_hp (mkH (Some 2000%Z) (Some 10%nat) (Some 10%nat) (Some (fz 3000)) (Some (fz 9000)) (Some (fz 500)) (Some (fz 100))
              (Some (fz 2500)) (Some (fz 3500)) (Some (fz 0)) (Some (fz 100)))
  (set_c_gp (mkG None (Some [fz 0; fz 100; fz 200; fz 300; fz 400; fz 500; fz 600]) (Some "matplotlib"%string) true false)
  (set_c_kind (Some FitPoly) (set_c_lines (Some lines) (set_c_pairs (PArr pairs) (calib_blank peaks None)))))).
Definition ex_peaks : list f64 := [fz 100; fz 190; fz 310; fz 430; fz 500].
Definition ex_pairs : list (f64 * f64) :=
  list_prod ex_peaks [fz 4002; fz 4897; fz 6101; fz 7302; fz 7999].
Definition c_ex : calib f64 := ransac_ex ex_peaks ex_pairs [(fz 10, fz 3000)].

(** C59 *)
Lemma ransac_valid_matching_main :
  forall (A : Type) (N : Num A) (O : NumOrder A) (o : oracle A) fuel c deg max_tries coeff ctol brute c' r co x y,
    (forall l, is_argsort l (o_argsort o l)) ->
    ransac_xy o c ctol = Ok (x, y) -> no_nan x -> no_nan y ->
    solve_ransac o fuel c deg max_tries coeff ctol brute = Some (c', Ok r) -> rr_p r = Some co ->
    exists xs ys,
      c_mpeaks c' = MList xs /\ c_matlas c' = MList ys /\ matching x y xs ys /\
      List.length xs = rr_inl r /\ StronglySorted (fun a b => a <' b = true) ys.
Proof.
  intros A N O o fuel c deg max_tries coeff ctol brute c' r co x y Ha Exy Nx Ny H Hp.
  destruct (solve_ransac_inv o Ha _ _ _ _ _ _ _ _ _ H) as [(H1 & _)|H1]; [congruence|].
  destruct H1 as (x' & y' & size & f & samples & s0 & s & Exy' & Hs & L & Eset & Erun & Em & Ea & Hp' & He & Hres & Hi & Hv & Hinv).
  rewrite Exy in Exy'. injection Exy' as <- <-. destruct (Hinv Nx Ny) as [Hf Hr].
  pose proof (ransac_setup_Ok _ _ _ _ _ _ _ _ _ _ _ _ Eset) as
    (Hk & Fd & Fx & Fy & Fp & Fdi & Ft & Filo & Fihi & Fpix & Fhw & Fsp & Fme & Fmm & Fmu & Fn & Fkn & Fb & Fs & Fsm & Fpr & S0 & S0i & S0l & S0m & S0a & S0c).
  destruct Hr as [(E & _)|(co' & E & Hac)]; [congruence|].
  destruct (ac_ex _ _ _ _ Hac) as (tf & xh & yh & xs & ys & w & G1 & G2 & G3 & G4 & G5 & G6 & G7 & _).
  exists xs, ys. rewrite Em, Ea, Hi. rewrite Fx, Fy in G6. auto.
Qed.

Example ransac_valid_matching_example_main :
  exists c' r, solve_ransac o_ex 50 c_ex 1 3 None (fz 20) false = Some (c', Ok r) /\
    ransac_xy o_ex c_ex (fz 20) = Ok (ex_peaks, [fz 4002; fz 4897; fz 6101; fz 7302; fz 7999]) /\
    c_mpeaks c' = MList ex_peaks /\ c_matlas c' = MList [fz 4002; fz 4897; fz 6101; fz 7302; fz 7999] /\
    rr_inl r = 5%nat /\ rr_valid r = true /\ rr_p r <> None.
Proof.
  eexists _, _. split; [vm_compute; reflexivity|]. split; [vm_compute; reflexivity|].
  split; [vm_compute; reflexivity|]. split; [vm_compute; reflexivity|].
  split; [vm_compute; reflexivity|]. split; [vm_compute; reflexivity|]. vm_compute. discriminate.
Qed.

(** C60, the part that holds in every arithmetic: the limits on the number of matches
    and the least error, and what the reported residuals and rms are. *)
Lemma ransac_quality_partial_main :
  forall (A : Type) (N : Num A) (O : NumOrder A) (o : oracle A) fuel c deg max_tries coeff ctol brute c' r co x y,
    (forall l, is_argsort l (o_argsort o l)) ->
    ransac_xy o c ctol = Ok (x, y) -> no_nan x -> no_nan y ->
    solve_ransac o fuel c deg max_tries coeff ctol brute = Some (c', Ok r) -> rr_p r = Some co ->
    (deg < rr_inl r)%nat /\ rr_valid r = Nat.ltb (deg + 1) (rr_inl r) /\
    (exists m, r_matches (c_rp c) = Some m /\ nnat (rr_inl r) <' m = false) /\
    (exists u, r_util (c_rp c) = Some u /\ nnat (rr_inl r) <' u *' nnat (List.length (c_peaks c)) = false) /\
    (exists e, r_fit_error (c_rp c) = Some e /\ rr_err r <' e = false) /\
    exists k tol xs ys tf,
      c_kind c = Some k /\ r_tol (c_rp c) = Some tol /\ c_mpeaks c' = MList xs /\ c_matlas c' = MList ys /\
      (* every match is nearer than the tolerance to the trial fit *)
      inliers (fun p => eval_kind k p tf) tol x y xs ys /\
      (* the reported numbers describe the refitted polynomial *)
      rr_resid r = Some (map (fun q => let d := eval_kind k (fst q) co -' snd q in
                                       if tol <' nabs d then tol else d) (combine xs ys)) /\
      (forall res, rr_resid r = Some res -> rr_err r = nsqrt (np_mean (map (fun v => v *' v) res))).
Proof.
  intros A N O o fuel c deg max_tries coeff ctol brute c' r co x y Ha Exy Nx Ny H Hp.
  destruct (solve_ransac_inv o Ha _ _ _ _ _ _ _ _ _ H) as [(H1 & _)|H1]; [congruence|].
  destruct H1 as (x' & y' & size & f & samples & s0 & s & Exy' & Hs & L & Eset & Erun & Em & Ea & Hp' & He & Hres & Hi & Hv & Hinv).
  rewrite Exy in Exy'. injection Exy' as <- <-. destruct (Hinv Nx Ny) as [Hf Hr].
  pose proof (ransac_setup_Ok _ _ _ _ _ _ _ _ _ _ _ _ Eset) as
    (Hk & Fd & Fx & Fy & Fp & Fdi & Ft & Filo & Fihi & Fpix & Fhw & Fsp & Fme & Fmm & Fmu & Fn & Fkn & Fb & Fs & Fsm & Fpr & S0 & S0i & S0l & S0m & S0a & S0c).
  destruct Hr as [(E & _)|(co' & E & Hac)]; [congruence|].
  destruct (ac_ex _ _ _ _ Hac) as (tf & xh & yh & xs & ys & w & G1 & G2 & G3 & G4 & G5 & G6 & G7 & G8 & G9 & G10 & G11 & _).
  pose proof (ac_deg _ _ _ _ Hac) as A1. pose proof (ac_match _ _ _ _ Hac) as A2.
  pose proof (ac_util _ _ _ _ Hac) as A3. pose proof (ac_err _ _ _ _ Hac) as A4.
  rewrite Hi, He, Hv. split; [lia|]. split; [rewrite Nat.ltb_antisym; reflexivity|].
  split; [eauto|]. split; [exists (f_minutil f); rewrite Fn in A3; auto|]. split; [eauto|].
  exists (f_kind f), (f_tol f), xs, ys, tf. rewrite Em, Ea, Hres.
  split; auto. split; auto. split; auto. split; auto.
  split; [rewrite <- Fx, <- Fy; exact G8|].
  assert (Eco : co' = co) by congruence. subst co'.
  split; [rewrite G10; reflexivity|].
  intros res Eres. rewrite G10 in Eres. injection Eres as <-. exact G11.
Qed.

(** C60, in exact numbers: the reported residuals and the rms are within the
    tolerance. *)
Lemma ransac_residuals_partial_main :
  forall (o : oracle xr) fuel c deg max_tries coeff ctol brute c' r co x y tol res,
    (forall l, is_argsort l (o_argsort o l)) ->
    ransac_xy o c ctol = Ok (x, y) -> no_nan x -> no_nan y ->
    solve_ransac o fuel c deg max_tries coeff ctol brute = Some (c', Ok r) -> rr_p r = Some co ->
    r_tol (c_rp c) = Some (Fin tol) -> (0 <= tol)%R ->
    rr_resid r = Some res -> no_nan res ->
    exists vs rms, res = map Fin vs /\ rr_err r = Fin rms /\
      (forall v, In v vs -> (Rabs v <= tol)%R) /\ (0 <= rms <= tol)%R.
Proof.
  intros o fuel c deg max_tries coeff ctol brute c' r co x y tol res Ha Exy Nx Ny H Hp Ht Ht0 Hres Hn.
  destruct (ransac_quality_partial_main _ _ _ _ _ _ _ _ _ _ _ _ _ _ _ _ Ha Exy Nx Ny H Hp) as
    (Hd & _ & _ & _ & _ & (k & tol' & xs & ys & tf & Hk & Ht' & Hm & Hma & _ & Hr & He)).
  rewrite Ht in Ht'. injection Ht' as <-.
  assert (Lr : (0 < List.length res)%nat).
  { destruct (ransac_valid_matching_main _ _ _ _ _ _ _ _ _ _ _ _ _ _ _ _ Ha Exy Nx Ny H Hp)
      as (xs' & ys' & M1 & M2 & (M3 & _) & M4 & _).
    rewrite Hm in M1. rewrite Hma in M2. injection M1 as <-. injection M2 as <-.
    rewrite Hres in Hr. injection Hr as ->. rewrite map_length, combine_length. lia. }
  specialize (He res Hres). rewrite Hres in Hr.
  assert (Hr' : res = map (fun q : xr * xr => let d := eval_kind k (fst q) co -' snd q in
                  if Fin tol <' nabs d then Fin tol else d) (combine xs ys)) by congruence.
  assert (V : exists vs, res = map Fin vs /\ forall v, In v vs -> (Rabs v <= tol)%R).
  { clear He Hr Hres Lr. revert Hr'. revert res Hn. generalize (combine xs ys). intros l.
    induction l as [|q l IH]; intros res Hn ->.
    - exists []. split; auto. intros v [].
    - cbn [map] in *. destruct (IH _ (fun z Hz => Hn z (or_intror Hz)) eq_refl) as (vs & E & Hv).
      set (d := eval_kind k (fst q) co -' snd q) in *.
      assert (Nd : nisnan (if Fin tol <' nabs d then Fin tol else d) = false) by (apply Hn; left; auto).
      destruct d as [v|sgn|].
      + change (Fin tol <' nabs (Fin v)) with (Rltb tol (Rabs v)) in *.
        destruct (Rltb_spec tol (Rabs v)).
        * exists (tol :: vs). split; [cbn [map]; rewrite <- E; reflexivity|].
          intros u [<-|Hu]; auto. rewrite Rabs_pos_eq; lra.
        * exists (v :: vs). split; [cbn [map]; rewrite <- E; reflexivity|].
          intros u [<-|Hu]; auto. lra.
      + change (Fin tol <' nabs (Inf sgn)) with true in *. cbv iota in *.
        exists (tol :: vs). split; [cbn [map]; rewrite <- E; reflexivity|].
        intros u [<-|Hu]; auto. rewrite Rabs_pos_eq; lra.
      + discriminate Nd. }
  destruct V as (vs & Ev & Hv). clear Hr' Hr. rewrite Ev in He, Lr.
  assert (Hsq : map (fun v : xr => v *' v) (map Fin vs) = map Fin (map (fun v => v * v)%R vs)).
  { rewrite !map_map. apply map_ext. reflexivity. }
  rewrite Hsq in He. rewrite map_length in Lr.
  assert (Sum : forall l acc, fold_left nadd (map Fin l) (Fin acc) = Fin (acc + fold_right Rplus 0 l)%R).
  { induction l as [|z l IH]; intros acc; cbn [map fold_left fold_right]; [f_equal; lra|].
    change (Fin acc +' Fin z) with (Fin (acc + z)). rewrite IH. f_equal. lra. }
  unfold np_mean, np_sum in He. rewrite nZ_Fin, Sum, nnat_Fin, !map_length in He.
  set (S := fold_right Rplus 0%R (map (fun v : R => (v * v)%R) vs)) in *.
  assert (HS : (0 <= S <= INR (List.length vs) * (tol * tol))%R).
  { unfold S. clear - Hv Ht0. induction vs as [|v vs IH]; [cbn; lra|].
    cbn [map fold_right List.length]. rewrite S_INR.
    destruct IH as [I1 I2]; [intros u Hu; apply Hv; right; auto|].
    specialize (Hv v (or_introl eq_refl)).
    assert (v * v = Rabs v * Rabs v)%R by (rewrite <- Rabs_mult, Rabs_pos_eq; [auto|apply Rle_0_sqr]).
    pose proof (Rabs_pos v). nra. }
  assert (Ln : (0 < INR (List.length vs))%R) by (apply lt_0_INR; auto).
  assert (Em : (Fin (0 + S) /' Fin (INR (List.length vs)))%num = Fin (S / INR (List.length vs))).
  { rewrite Rplus_0_l. cbn. unfold Reqb. destruct (Req_EM_T (INR (List.length vs)) 0); [lra|]. reflexivity. }
  rewrite Em in He.
  set (q := (S / INR (List.length vs))%R) in *.
  assert (Hq : (0 <= q <= tol * tol)%R).
  { unfold q. split.
    - apply Rmult_le_pos; [lra|]. left. apply Rinv_0_lt_compat; auto.
    - apply Rmult_le_reg_r with (INR (List.length vs)); auto. unfold Rdiv.
      rewrite Rmult_assoc, Rinv_l by lra. lra. }
  exists vs, (sqrt q). split; auto. split.
  { rewrite He. change (nsqrt (Fin q)) with (if Rltb q 0 then NaN else Fin (sqrt q)). destruct (Rltb_spec q 0); [lra|reflexivity]. }
  split; auto. split; [apply sqrt_pos|].
  rewrite <- (sqrt_square tol) by auto. apply sqrt_le_1_alt. lra.
Qed.

(** C60: seven peaks whose lines lie up to 4.5 off the line through the first and the
    last one; the least squares refit leaves one of them 6.4 away. *)
Definition far_peaks : list f64 := [fz 100; fz 170; fz 230; fz 310; fz 390; fz 430; fz 500].
Definition far_waves : list f64 :=
  [fz 4000; fd 47045 (-1); fd 53045 (-1); fd 60955 (-1); fd 69045 (-1); fd 73045 (-1); fz 8000].
Definition o_far : oracle f64 :=
  mkO argsort_stable (fun n => repeat (fd 5 (-1)) n)
    (fun _ xs ys _ => Ok (lsq1 xs ys)) (fun xs ys _ _ => Ok (rev (lsq1 xs ys)))
    (fun t l n _ => [hd (fz 0) l; last l (fz 0)])
    (fun t l => nth (t mod List.length l)%nat l (fz 0))
    (fun _ _ _ => Ok (fun _ _ => fz 1)) false.
Definition c_far := ransac_ex far_peaks (list_prod far_peaks far_waves) [(fz 10, fz 3000)].

(** C60 fails for the residuals of the returned polynomial: they are replaced by the
    tolerance before they are reported. *)
Lemma ransac_residual_bound_refuted_main :
  exists c' r co p q,
    solve_ransac o_far 50 c_far 1 1 None (fz 20) false = Some (c', Ok r) /\
    rr_p r = Some co /\ rr_valid r = true /\ r_tol (c_rp c_far) = Some (fz 5) /\
    c_mpeaks c' = MList far_peaks /\ c_matlas c' = MList far_waves /\
    In (p, q) (combine far_peaks far_waves) /\
    fz 6 <' nabs (eval_kind FitPoly p co -' q) = true /\
    (exists res, rr_resid r = Some res /\ forallb (fun v => nabs v <=' fz 5) res = true).
Proof.
  eexists _, _, _, (fz 310), (fd 60955 (-1)).
  split; [vm_compute; reflexivity|]. split; [vm_compute; reflexivity|].
  split; [vm_compute; reflexivity|]. split; [vm_compute; reflexivity|].
  split; [vm_compute; reflexivity|]. split; [vm_compute; reflexivity|].
  split; [do 3 right; left; reflexivity|]. split; [vm_compute; reflexivity|].
  eexists. split; [vm_compute; reflexivity|]. vm_compute. reflexivity.
Qed.

(** C61 *)
Lemma more_tries_not_worse_main :
  forall (A : Type) (N : Num A) (O : NumOrder A) (o : oracle A) fuel c x y deg size n m coeff brute f l1 s0 s1,
    (n <= m)%nat ->
    ransac_setup o c x y deg size n coeff brute = Ok (f, l1, s0) -> nisnan (s_cost s0) = false ->
    run_samples o fuel f s0 l1 = Done s1 ->
    s_cost s1 <=' s_cost s0 = true /\
    exists l2,
      ransac_setup o c x y deg size m coeff brute = Ok (f, l1 ++ l2, s0)%list /\
      match run_samples o fuel f s0 (l1 ++ l2) with
      | Done s2 | Fail s2 _ | Out s2 => s_cost s2 <=' s_cost s1 = true
      end.
Proof.
  intros A N O o fuel c x y deg size n m coeff brute f l1 s0 s1 Hnm Hset Hn Hrun.
  pose proof (run_samples_cost o f fuel l1 s0 Hn) as C. rewrite Hrun in C. destruct C as [C _].
  split; auto.
  assert (Hset' : exists l2, ransac_setup o c x y deg size m coeff brute = Ok (f, l1 ++ l2, s0)%list).
  { exists (if brute || Nat.leb (List.length (np_unique x)) size then [] else map (fun i => [i]) (seq n (m - n))).
    unfold ransac_setup in *.
    repeat match type of Hset with
    | bind ?r _ = Ok _ => destruct r; [|discriminate]; cbn [bind] in *
    end.
    injection Hset as <- <- <-. do 3 f_equal.
    destruct (brute || Nat.leb (List.length (np_unique x)) size); [rewrite app_nil_r; auto|].
    rewrite <- map_app. f_equal. replace m with (n + (m - n))%nat at 1 by lia. rewrite seq_app. auto. }
  destruct Hset' as (l2 & E). exists l2. split; auto.
  rewrite run_samples_app, Hrun.
  assert (Hn1 : nisnan (s_cost s1) = false) by (apply leb_nan in C; tauto).
  pose proof (run_samples_cost o f fuel l2 s1 Hn1) as C2.
  destruct (run_samples o fuel f s1 l2); tauto.
Qed.

(** The costs of c_ex after one, two and three tries with growing random numbers. *)
Definition ex_cost (n : nat) : option f64 :=
  match ransac_xy o_ex c_ex (fz 20) with
  | Ok (x, y) => match ransac_setup o_ex c_ex x y 1 2 n None false with
                 | Ok (f, l, s0) => match run_samples o_ex 50 f s0 l with Done s => Some (s_cost s) | _ => None end
                 | Raise _ => None
                 end
  | Raise _ => None
  end.
Example more_tries_not_worse_example_main :
  match ex_cost 0, ex_cost 1, ex_cost 9 with
  | Some a, Some b, Some c => b <' a = true /\ c <' b = true
  | _, _, _ => False
  end.
Proof. vm_compute. auto. Qed.

(** C61: the solution kept has the least cost of all the acceptable ones tried. *)
Lemma ransac_keeps_best_main :
  forall (A : Type) (N : Num A) (O : NumOrder A) (o : oracle A) fuel c x y deg size n coeff brute f l s0 s,
    x <> [] -> no_nan x ->
    ransac_setup o c x y deg size n coeff brute = Ok (f, l, s0) ->
    run_samples o fuel f s0 l = Done s ->
    forall d cost, In d (s_log s) -> good_trial o f d cost -> cost <' s_cost s = false.
Proof.
  intros A N O o fuel c x y deg size n coeff brute f l s0 s Hx Hn Hset Hrun.
  pose proof (ransac_setup_Ok _ _ _ _ _ _ _ _ _ _ _ _ Hset) as
    (Hk & Fd & Fx & Fy & Fp & Fdi & Ft & Filo & Fihi & Fpix & Fhw & Fsp & Fme & Fmm & Fmu & Fnp & Fkn & Fb & Fs & Fsm & Fpr & S0 & S0i & S0l & S0m & S0a & S0c).
  assert (Hp : f_peaks f <> []).
  { rewrite Fp. destruct x as [|v x]; [congruence|].
    destruct (np_unique_repr _ v Hn (or_introl eq_refl)) as (z & Hz & _). intros E. rewrite E in Hz. destruct Hz. }
  assert (B0 : best_of_log o f s0).
  { intros d cost Hd. rewrite S0l in Hd. destruct Hd. }
  pose proof (run_samples_best o f fuel l Hp s0 B0) as B. rewrite Hrun in B. exact B.
Qed.

Example ransac_keeps_best_example_main :
  match ransac_setup o_ex c_ex ex_peaks [fz 4002; fz 4897; fz 6101; fz 7302; fz 7999] 1 2 9 None false with
  | Ok (f, l, s0) => match run_samples o_ex 50 f s0 l with
                     | Done s => Nat.leb 9 (List.length (s_log s)) = true
                     | _ => False
                     end
  | Raise _ => False
  end.
Proof. vm_compute. auto. Qed.

(** C62: two peaks with candidates of decreasing wavelength. *)
Definition c_dec : calib f64 :=
  ransac_ex [fz 100; fz 101] [(fz 100, fz 4012); (fz 101, fz 4008)] [(fz 10, fz 3000)].

(** Any random numbers: sampling all peaks gives them in some order, picking gives an
    entry. *)
Definition o_any (smp : nat -> list f64 -> nat -> list f64 -> list f64) (pick : nat -> list f64 -> f64) : oracle f64 :=
  mkO argsort_stable (fun n => repeat (fd 5 (-1)) n)
    (fun _ xs ys _ => Ok (lsq1 xs ys)) (fun xs ys _ _ => Ok (rev (lsq1 xs ys)))
    smp pick (fun _ _ _ => Ok (fun _ _ => fz 1)) false.

Lemma retry_forever {A} {N : Num A} (o : oracle A) f smp :
  (forall n t, match draw o n f t smp with
               | DOut => True
               | DOk _ xh yh => forall s, let d := add_known f xh yh in trial o f s (fst d) (snd d) = TContinue
               | _ => False
               end) ->
  forall fuel s, exists s', try_sample o fuel f s smp = Out s'.
Proof.
  intros Ht. induction fuel as [|n IH]; intros s; [exists s; auto|]. cbn [try_sample].
  specialize (Ht n (s_rng s)). destruct (draw o n f (s_rng s) smp) as [|t|e|t xh yh]; try contradiction; [eauto|].
  specialize (Ht (log_fit (add_known f xh yh) (set_rng t s))). cbn zeta in Ht.
  destruct (add_known f xh yh) as [a b]. cbn [fst snd] in Ht. rewrite Ht. apply IH.
Qed.

(** C62 fails: the search does not end, whatever max_tries is, whatever the random
    numbers are, with and without brute_force. *)
Lemma ransac_terminates_refuted_main :
  forall smp pick,
    (forall t l p, Permutation (smp t l (List.length l) p) l) -> (forall t l, l <> [] -> In (pick t l) l) ->
    forall fuel max_tries brute, solve_ransac (o_any smp pick) fuel c_dec 1 max_tries None (fz 20) brute = None.
Proof.
  intros smp pick Hs Hp fuel max_tries brute.
  assert (Hp1 : forall t y, pick t [y] = y).
  { intros t y. destruct (Hp t [y]) as [E|[]]; [discriminate|auto]. }
  assert (Hs2 : forall t a b p, smp t [a; b] 2%nat p = [a; b] \/ smp t [a; b] 2%nat p = [b; a]).
  { intros t a b p. pose proof (Hs t [a; b] p) as P. cbn [List.length] in P.
    apply Permutation_sym, Permutation_length_2_inv in P. tauto. }
  assert (G : forall b, exists f s0,
    ransac_setup (o_any smp pick) (set_c_deg (Some 1%nat) c_dec) [fz 100; fz 101] [fz 4012; fz 4008] 1 2 max_tries None b = Ok (f, [[0%nat; 1%nat]], s0) /\
    exists s, run_samples (o_any smp pick) fuel f s0 [[0%nat; 1%nat]] = Out s).
  { intros [|].
    - eexists _, _. split; [vm_compute; reflexivity|]. cbn [run_samples].
      edestruct (retry_forever (o_any smp pick)) as (s' & E); [|rewrite E; eauto].
      intros n t. vm_compute. reflexivity.
    - eexists _, _. split; [vm_compute; reflexivity|]. cbn [run_samples].
      edestruct (retry_forever (o_any smp pick)) as (s' & E); [|rewrite E; eauto].
      intros n t. unfold draw. cbn [f_brute f_prob f_size f_peaks].
      match goal with |- context[if ?b then DRaise ValueError else _] => replace b with false by (vm_compute; reflexivity) end.
      cbn [o_any o_sample].
      match goal with |- context[smp ?t ?l ?n ?p] =>
        assert (E : smp t l n p = [fz 100; fz 101] \/ smp t l n p = [fz 101; fz 100]) by exact (Hs2 t (fz 100) (fz 101) p);
        destruct E as [E|E]; rewrite E end.
      + destruct n as [|n]; [vm_compute; auto|]. cbn [draw_ys].
        match goal with |- context[dict_get ?f ?x] => let v := eval vm_compute in (dict_get f x) in replace (dict_get f x) with v by (vm_compute; reflexivity) end.
        cbn [forallb existsb andb pick_new o_any o_pick]. rewrite Hp1. cbn [existsb app draw_ys].
        match goal with |- context[dict_get ?f ?x] => let v := eval vm_compute in (dict_get f x) in replace (dict_get f x) with v by (vm_compute; reflexivity) end.
        cbn [pick_new o_any o_pick]. rewrite Hp1.
        intros; vm_compute; reflexivity.
      + destruct n as [|n]; [vm_compute; auto|]. cbn [draw_ys].
        match goal with |- context[dict_get ?f ?x] => let v := eval vm_compute in (dict_get f x) in replace (dict_get f x) with v by (vm_compute; reflexivity) end.
        cbn [forallb existsb andb pick_new o_any o_pick]. rewrite Hp1. cbn [existsb app draw_ys].
        match goal with |- context[dict_get ?f ?x] => let v := eval vm_compute in (dict_get f x) in replace (dict_get f x) with v by (vm_compute; reflexivity) end.
        cbn [pick_new o_any o_pick]. rewrite Hp1.
        intros; vm_compute; reflexivity. }
  destruct (G brute) as (f & s0 & E & s & Er).
  assert (X : ransac_xy (o_any smp pick) (set_c_deg (Some 1%nat) c_dec) (fz 20) = Ok ([fz 100; fz 101], [fz 4012; fz 4008])) by (vm_compute; reflexivity).
  unfold solve_ransac. 
  replace (ransac_candidates (o_any smp pick) c_dec (fz 20)) with (@Ok (list f64 * list f64) ([fz 100; fz 101], [fz 4012; fz 4008])) by (vm_compute; reflexivity).
  rewrite X. cbv zeta.
  replace (Nat.leb (List.length (np_unique [fz 100; fz 101])) 1) with false by (vm_compute; reflexivity).
  replace (r_sample (c_rp (set_c_deg (Some 1%nat) c_dec))) with (Some 2%nat) by reflexivity.
  rewrite E, Er. reflexivity.
Qed.

Example ransac_terminates_example_main :
  (forall t l p, Permutation ((fun (_ : nat) (l : list f64) (n : nat) (_ : list f64) => firstn n l) t l (List.length l) p) l) /\
  (forall t l, l <> [] -> In ((fun (_ : nat) (l : list f64) => hd (fz 0) l) t l) l).
Proof.
  split.
  - intros t l p. rewrite firstn_all. reflexivity.
  - intros t [|y l] H; [congruence|left; auto].
Qed.

Lemma try_sample_fits {A} {N : Num A} (o : oracle A) f :
  forall fuel s smp,
  match try_sample o fuel f s smp with
  | Done s' | Fail s' _ | Out s' =>
      exists rej ok, Permutation (s_log s') (rej ++ ok ++ s_log s) /\ (List.length ok <= 1)%nat /\
        forall d, In d rej -> exists s'', trial o f s'' (fst d) (snd d) = TContinue
  end.
Proof.
  induction fuel as [|n IH]; intros s smp; cbn [try_sample].
  { exists [], []. cbn. split; auto. split; [lia|]. intros ? []. }
  destruct (draw o n f (s_rng s) smp) as [|t|e|t xh0 yh0];
    try (exists [], []; cbn; split; [auto|split; [lia|intros ? []]]).
  destruct (add_known f xh0 yh0) as [xh yh]. set (s1 := log_fit (xh, yh) (set_rng t s)).
  pose proof (trial_cost_le o f s1 xh yh) as C.
  destruct (trial o f s1 xh yh) as [|s2|s2 e] eqn:Et.
  - specialize (IH s1 smp). destruct (try_sample o n f s1 smp) as [s3|s3 e|s3];
      (destruct IH as (rej & ok & P & L & H); exists ((xh, yh) :: rej), ok; split; [|split; auto];
       [rewrite P; cbn [s_log s1 log_fit set_rng app]; symmetry;
        rewrite !app_assoc; apply Permutation_middle
       |intros d [<-|Hd]; [exists s1; auto|auto]]).
  - destruct C as [_ ->]. exists [], [(xh, yh)]. cbn. split; auto. split; [lia|]. intros ? [].
  - destruct C as [_ ->]. exists [], [(xh, yh)]. cbn. split; auto. split; [lia|]. intros ? [].
Qed.

(** C62, the part that holds: at most one fit is made per sample, apart from those
    thrown back with [continue]; the samples number max_tries, or are all
    combinations. *)
Lemma ransac_work_partial_main :
  forall (A : Type) (N : Num A) (o : oracle A) fuel c x y deg size n coeff brute f l s0,
    ransac_setup o c x y deg size n coeff brute = Ok (f, l, s0) ->
    match run_samples o fuel f s0 l with
    | Done s | Fail s _ | Out s =>
        exists rej ok, Permutation (s_log s) (rej ++ ok) /\ (List.length ok <= List.length l)%nat /\
          forall d, In d rej -> exists s', trial o f s' (fst d) (snd d) = TContinue
    end /\
    (brute = false -> (size < List.length (np_unique x))%nat -> List.length l = n) /\
    (brute = true -> l = combinations (seq 0 (List.length x)) size).
Proof.
  intros A N o fuel c x y deg size n coeff brute f l s0 Hset.
  pose proof (ransac_setup_Ok _ _ _ _ _ _ _ _ _ _ _ _ Hset) as
    (Hk & Fd & Fx & Fy & Fp & Fdi & Ft & Filo & Fihi & Fpix & Fhw & Fsp & Fme & Fmm & Fmu & Fnp & Fkn & Fb & Fs & Fsm & Fpr & S0 & S0i & S0l & S0m & S0a & S0c).
  split.
  - assert (G : forall l s, match run_samples o fuel f s l with
                | Done s' | Fail s' _ | Out s' =>
                    exists rej ok, Permutation (s_log s') (rej ++ ok ++ s_log s) /\ (List.length ok <= List.length l)%nat /\
                      forall d, In d rej -> exists s', trial o f s' (fst d) (snd d) = TContinue end).
    { clear. induction l as [|smp r IH]; intros s; cbn [run_samples].
      { exists [], []. cbn. split; auto. split; [lia|]. intros ? []. }
      pose proof (try_sample_fits o f fuel s smp) as H.
      destruct (try_sample o fuel f s smp) as [s1|s1 e|s1];
        destruct H as (rej & ok & P & L & H); try (exists rej, ok; cbn; split; [auto|split; [lia|auto]]).
      specialize (IH s1). destruct (run_samples o fuel f s1 r) as [s2|s2 e|s2];
        (destruct IH as (rej' & ok' & P' & L' & H'); exists (rej' ++ rej)%list, (ok' ++ ok)%list; split; [|split];
         [rewrite P', P, <- !app_assoc; apply Permutation_app_head; rewrite !app_assoc; do 2 apply Permutation_app_tail;
          apply Permutation_app_comm
         |rewrite app_length; cbn; lia
         |intros d Hd; apply in_app_iff in Hd; destruct Hd; auto]). }
    specialize (G l s0). rewrite S0l in G.
    destruct (run_samples o fuel f s0 l); rewrite <- ?app_nil_r in G;
      (destruct G as (rej & ok & P & L & H); exists rej, ok; rewrite app_nil_r in P; auto).
  - split.
    + intros -> Hs. rewrite Fsm. cbn [orb]. destruct (Nat.leb_spec (List.length (np_unique x)) size); [lia|].
      rewrite map_length, seq_length. auto.
    + intros ->. rewrite Fsm. reflexivity.
Qed.

Example ransac_work_example_main :
  match ransac_setup o_ex c_ex ex_peaks [fz 4002; fz 4897; fz 6101; fz 7302; fz 7999] 1 2 9 None false with
  | Ok (f, l, s0) => List.length l = 9%nat /\ (exists s, run_samples o_ex 50 f s0 l = Done s)
  | Raise _ => False
  end.
Proof. vm_compute. split; [auto|eexists; reflexivity]. Qed.

Lemma NoDup_app_intro {T} (l k : list T) : NoDup l -> NoDup k -> (forall x, In x l -> ~ In x k) -> NoDup (l ++ k).
Proof.
  induction 1 as [|a l H1 H2 IH]; intros Hk Hd; cbn; auto. constructor.
  - rewrite in_app_iff. intros [H|H]; [auto|]. apply (Hd a); [left; auto|auto].
  - apply IH; auto. intros x Hx. apply Hd. right; auto.
Qed.

(** C89: brute force goes through every combination of the candidate pairs, each once. *)
Lemma brute_force_combinations_main :
  forall n k,
    NoDup (combinations (seq 0 n) k) /\
    forall smp, In smp (combinations (seq 0 n) k) <->
      (List.length smp = k /\ StronglySorted lt smp /\ forall i, In i smp -> (i < n)%nat).
Proof.
  intros n k.
  assert (G : forall m b k, NoDup (combinations (seq b m) k) /\
    forall smp, In smp (combinations (seq b m) k) <->
      (List.length smp = k /\ StronglySorted lt smp /\ forall i, In i smp -> (b <= i < b + m)%nat)).
  { clear. induction m as [|m IH]; intros b k.
    - destruct k as [|k]; cbn.
      + split; [repeat constructor; auto|]. intros smp. split.
        * intros [<-|[]]. split; auto. split; [constructor|]. intros i [].
        * intros (L & _). destruct smp; [auto|discriminate].
      + split; [constructor|]. intros smp. split; [intros []|]. intros (L & _ & H).
        destruct smp as [|i smp]; [discriminate|]. specialize (H i (or_introl eq_refl)). lia.
    - destruct k as [|k].
      + cbn. split; [repeat constructor; auto|]. intros smp. split.
        * intros [<-|[]]. split; auto. split; [constructor|]. intros i [].
        * intros (L & _). destruct smp; [auto|discriminate].
      + cbn [seq combinations]. destruct (IH (S b) k) as [N1 I1]. destruct (IH (S b) (S k)) as [N2 I2].
        split.
        * apply NoDup_app_intro; auto.
          -- apply FinFun.Injective_map_NoDup; auto. intros u v E. congruence.
          -- intros smp H1 H2. apply in_map_iff in H1. destruct H1 as (r & <- & _).
             apply I2 in H2. destruct H2 as (_ & _ & H2). specialize (H2 b (or_introl eq_refl)). lia.
        * intros smp. rewrite in_app_iff, in_map_iff. split.
          -- intros [(r & <- & H)|H].
             ++ apply I1 in H. destruct H as (L & S' & H). split; [cbn; lia|]. split.
                ** constructor; auto. rewrite Forall_forall. intros i Hi. specialize (H i Hi). lia.
                ** intros i [<-|Hi]; [lia|]. specialize (H i Hi). lia.
             ++ apply I2 in H. destruct H as (L & S' & H). split; auto. split; auto.
                intros i Hi. specialize (H i Hi). lia.
          -- intros (L & S' & H). destruct smp as [|i r]; [discriminate|]. cbn in L.
             inversion S' as [|? ? S1 F]; subst. rewrite Forall_forall in F.
             pose proof (H i (or_introl eq_refl)) as Hi.
             destruct (Nat.eq_dec i b) as [->|Hne].
             ++ left. exists r. split; auto. apply I1. split; [lia|]. split; auto.
                intros j Hj. specialize (F j Hj). specialize (H j (or_intror Hj)). lia.
             ++ right. apply I2. split; auto. split; auto. intros j [<-|Hj]; [lia|].
                specialize (F j Hj). specialize (H j (or_intror Hj)). lia. }
  destruct (G n 0%nat k) as [G1 G2]. split; auto. intros smp. rewrite G2. split.
  - intros (H1 & H2 & H3). split; auto. split; auto. intros i Hi. specialize (H3 i Hi). lia.
  - intros (H1 & H2 & H3). split; auto. split; auto. intros i Hi. specialize (H3 i Hi). lia.
Qed.

Example brute_force_combinations_example_main :
  combinations (seq 0 4) 2 = [[0; 1]; [0; 2]; [0; 3]; [1; 2]; [1; 3]; [2; 3]]%nat.
Proof. reflexivity. Qed.

(** C63, the part that holds: every trial fit is made to candidate pairs followed by
    all known pairs. *)
Lemma dict_get_key {A} {N : Num A} (g : A -> list A) ps p v :
  dict_get (map (fun q => (q, g q)) ps) p = Ok v -> exists q, In q ps /\ q ==' p = true /\ v = g q.
Proof.
  induction ps as [|q r IH]; cbn [map dict_get]; [discriminate|].
  destruct (q ==' p) eqn:E; intros H.
  - exists q. split; [left; auto|]. split; auto. congruence.
  - destruct (IH H) as (q' & H1 & H2). exists q'. split; [right; auto|auto].
Qed.

Lemma gather_pair_candidates {A} {N : Num A} {O : NumOrder A} (x y : list A) smp :
  List.length x = List.length y -> no_nan x -> no_nan y -> (forall i, In i smp -> (i < List.length x)%nat) ->
  Forall2 (candidate_pair x y) (gather x smp) (gather y smp).
Proof.
  intros L Nx Ny. induction smp as [|i smp IH]; intros H; [constructor|].
  unfold gather in *. cbn [flat_map].
  assert (Hi : (i < List.length x)%nat) by (apply H; left; auto).
  destruct (nth_error x i) as [a|] eqn:Ea; [|apply nth_error_None in Ea; lia].
  destruct (nth_error y i) as [b|] eqn:Eb; [|apply nth_error_None in Eb; lia].
  cbn [app]. constructor; [|apply IH; intros; apply H; right; auto].
  exists a, b. split.
  - apply (nth_error_In _ i). clear - Ea Eb. revert y i Ea Eb.
    induction x as [|u x IH]; intros [|v y] [|i]; cbn; try discriminate; [congruence|apply IH].
  - split; apply eqb_refl; [apply Nx|apply Ny]; eapply nth_error_In; eauto.
Qed.

Lemma ransac_known_pairs_partial_main :
  forall (A : Type) (N : Num A) (O : NumOrder A) (o : oracle A) fuel c x y deg size n coeff brute f l s0,
    (forall t l, l <> [] -> In (o_pick o t l) l) ->
    List.length x = List.length y -> no_nan x -> no_nan y ->
    ransac_setup o c x y deg size n coeff brute = Ok (f, l, s0) ->
    match run_samples o fuel f s0 l with
    | Done s | Fail s _ | Out s =>
        forall d, In d (s_log s) -> exists xs ys,
          d = match c_known c with Some (kx, ky) => (xs ++ kx, ys ++ ky)%list | None => (xs, ys) end /\
          Forall2 (candidate_pair x y) xs ys
    end.
Proof.
  intros A N O o fuel c x y deg size n coeff brute f l s0 Hpick L Nx Ny Hset.
  pose proof (ransac_setup_Ok _ _ _ _ _ _ _ _ _ _ _ _ Hset) as
    (Hk & Fd & Fx & Fy & Fp & Fdi & Ft & Filo & Fihi & Fpix & Fhw & Fsp & Fme & Fmm & Fmu & Fnp & Fkn & Fb & Fs & Fsm & Fpr & S0 & S0i & S0l & S0m & S0a & S0c).
  assert (H0 : Forall (fit_data o f l) (s_log s0)) by (rewrite S0l; constructor).
  pose proof (run_samples_log o f fuel l Hpick l s0 (fun z H => H) H0) as H.
  assert (G : forall d, fit_data o f l d -> exists xs ys,
          d = match c_known c with Some (kx, ky) => (xs ++ kx, ys ++ ky)%list | None => (xs, ys) end /\
          Forall2 (candidate_pair x y) xs ys).
  { intros d (xs & ys & E & H1). exists xs, ys. rewrite Fkn in E. split; auto.
    rewrite Fb in H1. destruct brute.
    - destruct H1 as (smp & Hs & -> & ->). rewrite Fx, Fy. apply gather_pair_candidates; auto.
      intros i Hi. rewrite Fsm in Hs. cbn [orb] in Hs. apply brute_force_combinations_main in Hs.
      destruct Hs as (_ & _ & Hs). auto.
    - destruct H1 as (_ & H1 & _). rewrite Fdi in H1. clear E. induction H1 as [|a b xs ys H1 _ IH]; constructor; auto.
      destruct H1 as (v & Hg & Hb). apply dict_get_key in Hg. destruct Hg as (q & Hq & Ea & ->).
      apply masked_pair in Hb; auto. destruct Hb as (a' & Hc & Ea'). exists a', b. split; auto.
      split; [eapply eqb_trans; eauto|]. apply eqb_refl. apply Ny.
      apply in_combine_r in Hc. auto. }
  destruct (run_samples o fuel f s0 l); rewrite Forall_forall in H; auto.
Qed.

(** c_ex with the known pair (600, 9004). *)
Definition c_known_ex : calib f64 := set_c_known (Some ([fz 600], [fz 9004])) c_ex.
Definition ex_waves : list f64 := [fz 4002; fz 4897; fz 6101; fz 7302; fz 7999].
Example ransac_known_pairs_example_main :
  match ransac_setup o_ex c_known_ex ex_peaks ex_waves 1 2 3 None false with
  | Ok (f, l, s0) => match run_samples o_ex 50 f s0 l with
                     | Done s => hd_error (s_log s) = Some ([fz 190; fz 310; fz 600], [fz 4897; fz 6101; fz 9004])
                     | _ => False
                     end
  | Raise _ => False
  end.
Proof. vm_compute. reflexivity. Qed.

(** C63 fails for the final refit, which is made without the known pairs. *)
Lemma ransac_refit_known_refuted_main :
  exists c' r co,
    solve_ransac o_ex 50 c_known_ex 1 3 None (fz 20) false = Some (c', Ok r) /\ rr_p r = Some co /\
    c_mpeaks c' = MList ex_peaks /\ c_matlas c' = MList ex_waves /\
    robust_polyfit (o_ls o_ex) ex_peaks ex_waves 1 None = Ok co /\
    robust_polyfit (o_ls o_ex) (ex_peaks ++ [fz 600]) (ex_waves ++ [fz 9004]) 1 None <> Ok co.
Proof.
  eexists _, _, _. split; [vm_compute; reflexivity|]. split; [vm_compute; reflexivity|].
  split; [vm_compute; reflexivity|]. split; [vm_compute; reflexivity|]. split; [vm_compute; reflexivity|].
  vm_compute. discriminate.
Qed.

Lemma consider_stores {A} {N : Num A} (o : oracle A) f s cost err mx my :
  match consider o f s cost err mx my with TNext s' => s_p s' <> None | _ => True end.
Proof.
  unfold consider. repeat match goal with
  | |- context[if ?b then _ else _] => destruct b
  | |- match match ?r with _ => _ end with _ => _ end => destruct r as [?|[]]
  end; cbn; auto; discriminate.
Qed.

Lemma trial_stores {A} {N : Num A} (o : oracle A) f s xh yh :
  match trial o f s xh yh with TNext s' => s' = s \/ s_p s' <> None | _ => True end.
Proof.
  unfold trial.
  destruct (o_polyfit o (f_kind f) xh yh (f_deg f)) as [[|c0 tf]|e]; auto.
  destruct (f_peaks f) as [|p0 pr]; auto.
  match goal with |- context[if ?b then TContinue else _] => destruct b end; auto.
  match goal with |- context[match np_ptp ?v with _ => _ end] => destruct (np_ptp v) end; auto.
  match goal with |- context[match nceil ?v with _ => _ end] => destruct (nceil v) end; auto.
  match goal with |- context[if ?b then TContinue else _] => destruct b end; auto.
  match goal with |- context[match match_bijective ?a ?b ?c with _ => _ end] =>
    destruct (match_bijective a b c) as [[[err mx] my]|] end; auto.
  match goal with |- context[if ?b then TContinue else _] => destruct b end; auto.
  destruct (hough_bonus f (c0 :: tf)) as [w|]; auto.
  match goal with |- context[if ?b then consider _ _ _ ?c _ _ _ else _] => destruct b eqn:E; [|auto];
     pose proof (consider_stores o f s c (clip_err (f_tol f) err) mx my) as H end.
  destruct (consider _ _ _ _ _ _ _); auto.
Qed.

(** C64, the part that holds: whatever is stored costs no more than the sum of the
    errors of the coefficients supplied. *)
Lemma initial_solution_partial_main :
  forall (A : Type) (N : Num A) (O : NumOrder A) (o : oracle A) fuel c x y deg size n co0 k err mx my brute f l s0 s,
    c_kind c = Some k ->
    match_bijective (fun p => eval_kind k p co0) (build_dict x y) (np_unique x) = Ok (err, mx, my) ->
    nisnan (np_sum err) = false ->
    ransac_setup o c x y deg size n (Some co0) brute = Ok (f, l, s0) ->
    run_samples o fuel f s0 l = Done s ->
    s_cost s <=' np_sum err = true /\ (s_p s = None -> s_err s = rms_of err).
Proof.
  intros A N O o fuel c x y deg size n co0 k err mx my brute f l s0 s Hk0 Hm Hn Hset Hrun.
  assert (E0 : s_cost s0 = np_sum err /\ s_err s0 = rms_of err /\ s_p s0 = None).
  { unfold ransac_setup in Hset. apply bind_Ok in Hset. destruct Hset as (sp & _ & Hset).
    apply bind_Ok in Hset. destruct Hset as (k' & Hk' & Hset). apply need_Ok in Hk'.
    rewrite Hk0 in Hk'. injection Hk' as <-. rewrite Hm in Hset. cbn [bind fst snd] in Hset.
    repeat (apply bind_Ok in Hset; destruct Hset as (? & _ & Hset)).
    assert (E : s0 = mkRS None (np_sum err) (rms_of err) None 0 (c_mpeaks c) (c_matlas c) 0 []) by congruence.
    rewrite E. auto. }
  destruct E0 as (E1 & E2 & E3).
  pose proof (run_samples_cost o f fuel l s0) as C. rewrite E1 in C. specialize (C Hn). rewrite Hrun in C.
  split; [tauto|].
  assert (G : forall l s s', run_samples o fuel f s l = Done s' -> s_p s' = None -> s_err s' = s_err s).
  { clear. assert (T : forall fu s smp s', try_sample o fu f s smp = Done s' -> s_p s' = None -> s_err s' = s_err s /\ s_p s = None).
    { induction fu as [|m IH]; intros s smp s'; cbn [try_sample]; [intros X; discriminate X|].
      destruct (draw o m f (s_rng s) smp) as [|t|e|t xh0 yh0]; try (intros X; discriminate X).
      - intros H1 H2. assert (s' = set_rng t s) by congruence. subst s'. auto.
      - destruct (add_known f xh0 yh0) as [xh yh]. set (s1 := log_fit (xh, yh) (set_rng t s)).
        assert (K : forall s2, trial o f s1 xh yh = TNext s2 -> s2 = s1 \/ s_p s2 <> None).
        { intros s2 E. pose proof (trial_stores o f s1 xh yh) as K. rewrite E in K. exact K. }
        destruct (trial o f s1 xh yh) as [|s2|s2 e]; try (intros X; discriminate X).
        + intros H1 H2. destruct (IH _ _ _ H1 H2) as [I1 I2]. auto.
        + intros H1 H2. assert (s2 = s') by congruence. subst s2. destruct (K s' eq_refl) as [->|]; [auto|congruence]. }
    induction l as [|smp r IH]; intros s s'; cbn [run_samples]; [congruence|].
    destruct (try_sample o fuel f s smp) as [s1|s1 e|s1] eqn:Et; try (intros X; discriminate X). intros H1 H2.
    pose proof (IH _ _ H1 H2) as E. rewrite E.
    assert (Hp : s_p s1 = None).
    { clear IH E Et. revert s1 s' H1 H2. induction r as [|smp' r IH]; intros s1 s'; cbn [run_samples]; [congruence|].
      destruct (try_sample o fuel f s1 smp') as [s2|s2 e|s2] eqn:Et; try (intros X; discriminate X). intros H1 H2.
      destruct (T _ _ _ _ Et) as [_ ?]; eauto. }
    destruct (T _ _ _ _ Et Hp) as [-> _]. auto. }
  intros Hp. rewrite (G _ _ _ Hrun Hp). auto.
Qed.

(** Four of the five lines lie exactly on 3000 + 10 p. *)
Definition on_waves : list f64 := [fz 4000; fz 4897; fz 6100; fz 7300; fz 8000].
Definition c_on : calib f64 := ransac_ex ex_peaks (list_prod ex_peaks on_waves) [(fz 10, fz 3000)].
(** C64 fails: given the line itself, the search ends without any solution. *)
Lemma initial_solution_refuted_main :
  exists c' r err mx my,
    solve_ransac o_ex 50 c_on 1 1 (Some [fz 3000; fz 10]) (fz 20) false = Some (c', Ok r) /\
    rr_p r = None /\ rr_inl r = 0%nat /\
    match_bijective (fun p => eval_kind FitPoly p [fz 3000; fz 10]) (build_dict ex_peaks on_waves) ex_peaks = Ok (err, mx, my) /\
    err = [fz 0; fz 3; fz 0; fz 0; fz 0].
Proof.
  eexists _, _, _, _, _. split; [vm_compute; reflexivity|]. split; [vm_compute; reflexivity|].
  split; [vm_compute; reflexivity|]. split; [vm_compute; reflexivity|]. vm_compute. reflexivity.
Qed.

(** C66, over exact numbers: positive probabilities of sum one exactly when every peak on
    an inner edge of the ten bins of the histogram has another peak in the bin below it;
    otherwise there is a NaN among them. *)
Lemma sampling_prob_partial_main :
  forall ps lo hi, ps <> [] -> data_range ps lo hi ->
    let clear := forall p i, In p ps -> (1 <= i <= 9)%nat -> p = edge lo hi 10 i ->
                   exists q, In q ps /\ (edge lo hi 10 (i - 1) <= q < edge lo hi 10 i)%R in
    (clear -> exists qs, sampling_prob (map Fin ps) = Ok (map Fin qs) /\ List.length qs = List.length ps /\
       (forall q, In q qs -> (0 < q)%R) /\ fold_right Rplus 0%R qs = 1%R) /\
    (~ clear -> exists l, sampling_prob (map Fin ps) = Ok l /\ In NaN l).
Proof. exact sampling_prob_cases. Qed.

(** Peaks that meet the condition (one of them on an edge), and peaks that do not. *)
Example sampling_prob_example_main :
  let clear ps lo hi := forall p i, In p ps -> (1 <= i <= 9)%nat -> p = edge lo hi 10 i ->
                   exists q, In q ps /\ (edge lo hi 10 (i - 1) <= q < edge lo hi 10 i)%R in
  data_range [0; 1 / 2; 1; 10]%R 0 10 /\ clear [0; 1 / 2; 1; 10]%R 0%R 10%R /\
  data_range [0; 5; 10]%R 0 10 /\ ~ clear [0; 5; 10]%R 0%R 10%R.
Proof.
  assert (Ee : forall i, edge 0 10 10 i = INR i).
  { intros i. unfold edge. replace (INR 10) with 10%R by (cbn; lra). lra. }
  split; [|split; [|split]].
  - right. exists 0%R, 10%R. split; [left; auto|]. split; [do 3 right; left; auto|]. split.
    + intros x [<-|[<-|[<-|[<-|[]]]]]; lra.
    + left. split; [lra|auto].
  - intros p i Hp Hi. rewrite !Ee. intros Ep.
    assert (H1 : (1 <= INR i)%R) by (change 1%R with (INR 1); apply le_INR; lia).
    assert (H9 : (INR i <= 9)%R) by (replace 9%R with (INR 9) by (cbn; lra); apply le_INR; lia).
    destruct Hp as [<-|[<-|[<-|[<-|[]]]]]; try lra.
    assert (i = 1)%nat as -> by (apply INR_eq; cbn; lra). exists (1 / 2)%R. split; [right; left; auto|cbn; lra].
  - right. exists 0%R, 10%R. split; [left; auto|]. split; [do 2 right; left; auto|]. split.
    + intros x [<-|[<-|[<-|[]]]]; lra.
    + left. split; [lra|auto].
  - intros C. destruct (C 5%R 5%nat) as (q & Hq & Hr); [right; left; auto|lia|rewrite Ee; cbn; lra|].
    rewrite !Ee in Hr. cbn in Hr. destruct Hq as [<-|[<-|[<-|[]]]]; lra.
Qed.

(** C66 fails: with the peaks 0, 5 and 10 the middle one divides by zero, every
    probability becomes 0 or NaN and fit stops with ValueError. *)
Definition edge_peaks : list f64 := [fz 0; fz 5; fz 10].
Lemma sampling_prob_refuted_main :
  (exists qs, sampling_prob edge_peaks = Ok qs /\ existsb nisnan qs = true) /\
  exists c', solve_ransac o_ex 50 (ransac_ex edge_peaks (list_prod edge_peaks [fz 3001; fz 3052; fz 3098]) [(fz 10, fz 3000)])
               1 100 None (fz 20) false = Some (c', Raise ValueError).
Proof.
  split; [eexists; split; [vm_compute; reflexivity|vm_compute; reflexivity]|].
  eexists. vm_compute. reflexivity.
Qed.

(** C67: what the bonus is. *)
Lemma hough_bonus_partial_main :
  forall (A : Type) (N : Num A) (f : cfg A) sp w c0 c1 co,
    f_spline f = Sp sp -> f_hw f = Some w ->
    hough_bonus f (c0 :: c1 :: co) =
      Ok (w *' np_sum (map (fun p => let gradient := eval_kind (f_kind f) p (derivative (c0 :: c1 :: co)) in
                                     let intercept := eval_kind (f_kind f) p (c0 :: c1 :: co) -' gradient *' p in
                                     sp intercept gradient) (f_pixels f))).
Proof.
  intros A N f sp w c0 c1 co Hs Hw. unfold hough_bonus.
  destruct (derivative (c0 :: c1 :: co)) as [|d ds] eqn:E; [discriminate|].
  rewrite Hs, Hw. do 2 f_equal. rewrite map_map. reflexivity.
Qed.

(** C67 fails: the spline is made from the histogram with gradients along the first
    axis and looked up with the intercept as first argument.  For the density "slope"
    and the trial fit 3000 + 10 p the bonus is the intercept. *)
Lemma hough_bonus_refuted_main :
  exists o c f l s0,
    ransac_setup o c ex_peaks ex_waves 1 2 3 None false = Ok (f, l, s0) /\
    ho_xedges (c_ht c) = Some [fz 5; fz 10; fz 15] /\ ho_yedges (c_ht c) = Some [fz 2000; fz 3000; fz 4000] /\
    (* the density at (slope, intercept) is the slope *)
    f_spline f = Sp (fun slope intercept => slope) /\ f_hw f = Some (fz 1) /\ f_pixels f = [fz 0] /\
    hough_bonus f [fz 3000; fz 10] = Ok (fz 3000).
Proof.
  exists (mkO argsort_stable (fun n => repeat (fd 5 (-1)) n)
    (fun _ xs ys _ => Ok (lsq1 xs ys)) (fun xs ys _ _ => Ok (rev (lsq1 xs ys)))
    (fun t l n _ => firstn n l) (fun t l => hd (fz 0) l) (fun _ _ _ => Ok (fun slope intercept => slope)) false).
  exists (set_c_ht (mkHough None (Some []) (Some [[1; 0]; [0; 1]]%nat) (Some [fz 5; fz 10; fz 15]) (Some [fz 2000; fz 3000; fz 4000])
    (Some (fz 5)) (Some (fz 15)) (Some (fz 2000)) (Some (fz 4000))) (set_c_gp (mkG None (Some [fz 0]) (Some "matplotlib"%string) true false) c_ex)).
  eexists _, _, _. split; [vm_compute; reflexivity|]. repeat (split; [vm_compute; reflexivity|]). vm_compute. reflexivity.
Qed.

(** C88 *)
Lemma filter_close_separates_main :
  forall t x y, List.length x = List.length y ->
    let kept := filter (fun q => isolated t y (snd q)) (combine x y) in
    filter_close (Fin t) (map Fin x) (map Fin y) = (map Fin (map fst kept), map Fin (map snd kept)) /\
    (forall v v', In v (map snd kept) -> In v' (map snd kept) -> (v < v')%R -> (3 * t <= v' - v)%R) /\
    (forall a b, In (a, b) kept <->
       In (a, b) (combine x y) /\ forall z, In z y -> (b < z)%R -> (3 * t <= z - b)%R).
Proof.
  intros t x y L kept. split; [apply filter_close_Fin; auto|].
  assert (Hi : forall v, isolated t y v = true <-> forall z, In z y -> (v < z)%R -> (3 * t <= z - v)%R).
  { intros v. unfold isolated. rewrite forallb_forall. split; intros H z Hz.
    - intros Hv. specialize (H z Hz). destruct (Rltb_spec v z); [|lra].
      destruct (Rleb_spec (3 * t) (z - v)); [auto|discriminate].
    - specialize (H z Hz). destruct (Rltb_spec v z); auto. cbn [negb orb].
      destruct (Rleb_spec (3 * t) (z - v)); auto. }
  split.
  - intros v v' Hv Hv' Hlt. apply in_map_iff in Hv. destruct Hv as ((a & b) & <- & Hv).
    apply in_map_iff in Hv'. destruct Hv' as ((a' & b') & <- & Hv'). cbn [snd] in *.
    unfold kept in *. apply filter_In in Hv. apply filter_In in Hv'. cbn [snd] in *.
    destruct Hv as [_ Hv]. destruct Hv' as [Hv' _]. apply (proj1 (Hi b) Hv); auto. apply in_combine_r in Hv'. auto.
  - intros a b. unfold kept. rewrite filter_In. cbn [snd]. rewrite Hi. tauto.
Qed.

Example filter_close_example_main :
  filter_close (fz 5) [fz 1; fz 2; fz 3; fz 4] [fz 100; fz 110; fz 200; fz 110] =
  ([fz 2; fz 3; fz 4], [fz 110; fz 200; fz 110]).
Proof. vm_compute. reflexivity. Qed.

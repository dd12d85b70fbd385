(** * Main_MatchOrder: match_peaks and the order of the peaks and of the lines. *)

From Coq Require Import ZArith Bool List String Lia Reals Lra Permutation FunctionalExtensionality.
From Verif Require Import Num F64 XReal Py Np NpFacts ArgsortFacts Util Models Atlas Hough PolyEval Calib SpecCalib Cand SpecCand CandFacts Ransac RansacFacts SampleFacts Main_Ransac Fit Main_Fit MatchPeaks SpecMatch MatchFacts Main_Match SpecMatchOrder.
Import ListNotations.
Local Open Scope num_scope.

Lemma xadd_comm x y : xadd x y = xadd y x.
Proof. destruct x as [a|s|], y as [b|t|]; cbn; auto; [f_equal; ring|]. destruct s, t; reflexivity. Qed.

Lemma xadd_assoc x y z : xadd (xadd x y) z = xadd x (xadd y z).
Proof.
  destruct x as [a|s|], y as [b|t|], z as [c|u|]; cbn; auto; try (f_equal; ring);
    repeat match goal with b : bool |- _ => destruct b end; reflexivity.
Qed.

Lemma np_sum_shuffle (l k : list xr) : Permutation l k -> np_sum l = np_sum k.
Proof.
  unfold np_sum. intros P. generalize (nZ 0 : xr). revert l k P.
  induction 1; intros z; cbn [fold_left]; auto.
  - f_equal. change (xadd (xadd z y) x = xadd (xadd z x) y). rewrite !xadd_assoc, (xadd_comm y x). reflexivity.
  - rewrite IHP1. auto.
Qed.

Lemma np_mean_shuffle (l k : list xr) : Permutation l k -> np_mean l = np_mean k.
Proof. intros P. unfold np_mean. rewrite (np_sum_shuffle l k P), (Permutation_length P). reflexivity. Qed.

Lemma np_std_shuffle (l k : list xr) : Permutation l k -> np_std l = np_std k.
Proof.
  intros P. unfold np_std. cbv zeta. rewrite (np_mean_shuffle l k P). f_equal. apply np_mean_shuffle.
  apply Permutation_map. auto.
Qed.

Lemma nan_rms_shuffle (l k : list xr) : Permutation l k -> nan_rms l = nan_rms k.
Proof.
  intros P. unfold nan_rms, np_nansum. rewrite (Permutation_length P). do 2 f_equal.
  apply np_sum_shuffle. do 2 apply Permutation_map. auto.
Qed.

(* ------------------------------------------------------------------ *)
(** ** The cost of the refinement *)

Definition near1 (k : fit_kind) (lines co : list xr) (tol p : xr) : list (xr * xr) :=
  let x := eval_kind k p co in
  match np_argmin (map (fun l => nabs (l -' x)) lines) with
  | None => []
  | Some i => match nth_error lines i with
              | None => []
              | Some l => if nabs (l -' x) <' tol then [(p, l)] else []
              end
  end.

Lemma nearest_flat k (lines co : list xr) tol : lines <> [] -> co <> [] -> forall peaks,
  nearest_lines (Some k) lines co tol peaks = Ok (flat_map (near1 k lines co tol) peaks).
Proof.
  intros Hl Hc. induction peaks as [|p r IH]; auto.
  cbn [nearest_lines flat_map]. rewrite IH. unfold polyval_of. destruct co as [|c0 co']; [contradiction|].
  cbn [bind]. set (rest := flat_map _ r). unfold near1. cbv zeta.
  destruct (np_argmin_spec (map (fun l => nabs (l -' eval_kind k p (c0 :: co'))) lines)) as (i & d & Ei & Ed & _).
  { destruct lines; [contradiction|discriminate]. }
  rewrite Ei. rewrite nth_error_map in Ed. destruct (nth_error lines i) as [l|]; [|discriminate].
  destruct (_ <' _); reflexivity.
Qed.

Definition sq (k : fit_kind) (co : list xr) (q : xr * xr) : xr :=
  (snd q -' eval_kind k (fst q) co) *' (snd q -' eval_kind k (fst q) co).

Lemma near1_shuffle k (l l' : list R) (co : list xr) tol p : l <> [] -> Permutation l l' ->
  map (sq k co) (near1 k (map Fin l) co tol p) = map (sq k co) (near1 k (map Fin l') co tol p).
Proof.
  intros Hl P. unfold near1. cbv zeta. set (x := eval_kind k p co).
  assert (Hl' : l' <> []) by (intros ->; apply Permutation_sym, Permutation_nil in P; contradiction).
  destruct (np_argmin_spec (map (fun v => nabs (v -' x)) (map Fin l))) as (i & d & Ei & Ed & Hd).
  { destruct l; [contradiction|discriminate]. }
  destruct (np_argmin_spec (map (fun v => nabs (v -' x)) (map Fin l'))) as (j & d' & Ej & Ed' & Hd').
  { destruct l'; [contradiction|discriminate]. }
  rewrite Ei, Ej. rewrite !nth_error_map in Ed, Ed'. rewrite !nth_error_map.
  destruct (nth_error l i) as [a|] eqn:Ea; [|discriminate]. destruct (nth_error l' j) as [b|] eqn:Eb; [|discriminate].
  cbn [option_map] in *. injection Ed as <-. injection Ed' as <-.
  apply nth_error_In in Ea, Eb.
  assert (Ha : In a l') by (apply (Permutation_in a P); auto).
  assert (Hb : In b l) by (apply (Permutation_in b (Permutation_sym P)); auto).
  specialize (Hd (nabs (Fin b -' x))). rewrite map_map in Hd. specialize (Hd (in_map _ _ _ Hb)).
  specialize (Hd' (nabs (Fin a -' x))). rewrite map_map in Hd'. specialize (Hd' (in_map _ _ _ Ha)).
  destruct x as [r|s|] eqn:Ex.
  - change (nabs (Fin b -' Fin r)) with (Fin (Rabs (b + - r))) in *.
    change (nabs (Fin a -' Fin r)) with (Fin (Rabs (a + - r))) in *.
    change (Rltb (Rabs (b + - r)) (Rabs (a + - r)) = false) in Hd.
    change (Rltb (Rabs (a + - r)) (Rabs (b + - r)) = false) in Hd'.
    destruct (Rltb_spec (Rabs (b + - r)) (Rabs (a + - r))); [discriminate|].
    destruct (Rltb_spec (Rabs (a + - r)) (Rabs (b + - r))); [discriminate|].
    assert (E : Rabs (a + - r) = Rabs (b + - r)) by lra. rewrite E.
    destruct (Fin (Rabs (b + - r)) <' tol); [|reflexivity]. cbn [map]. f_equal. unfold sq. cbn [fst snd].
    subst x. rewrite Ex. change (Fin ((a + - r) * (a + - r)) = Fin ((b + - r) * (b + - r))). f_equal.
    assert (G : forall v : R, (v * v = Rabs v * Rabs v)%R) by (intros v; rewrite <- Rabs_mult; symmetry; apply Rabs_right; apply Rle_ge, Rle_0_sqr).
    rewrite (G (a + - r)%R), (G (b + - r)%R), E. reflexivity.
  - assert (F : forall v, (nabs (Fin v -' Inf s) <' tol) = false).
    { intros v. destruct tol as [t|[|]|], s; reflexivity. }
    rewrite !F. reflexivity.
  - reflexivity.
Qed.

Lemma flat_map_map {S T U} (f : T -> U) (g : S -> list T) l : map f (flat_map g l) = flat_map (fun x => map f (g x)) l.
Proof. induction l as [|x r IH]; cbn; auto. rewrite map_app, IH. reflexivity. Qed.

Lemma near_peaks k lines co tol peaks q : In q (flat_map (near1 k lines co tol) peaks) -> In (fst q) peaks.
Proof.
  intros H. apply in_flat_map in H. destruct H as (p & Hp & H). unfold near1 in H. cbv zeta in H.
  destruct (np_argmin _) as [i|]; [|destruct H]. destruct (nth_error lines i) as [l|]; [|destruct H].
  destruct (_ <' _); [|destruct H]. destruct H as [<-|[]]. auto.
Qed.

Lemma adjust_shuffle (c d : calib xr) delta l tol frac : shuffled c d ->
  snd (adjust_polyfit c delta l tol frac) = snd (adjust_polyfit d delta l tol frac).
Proof.
  intros (Pp & Ha & Hk & _ & Hg). unfold adjust_polyfit. cbn [snd].
  destruct (c_atlas c) as [a|], (c_atlas d) as [b|]; try contradiction; auto.
  destruct Ha as (u & v & Ea & Eb & Pl). rewrite Ea, Eb, <- Hk, <- Hg.
  destruct (add_delta l delta) as [co|e]; auto. cbn [bind].
  destruct (c_peaks c) as [|p0 ps] eqn:Ep.
  { apply Permutation_nil in Pp. rewrite Pp. reflexivity. }
  destruct (c_peaks d) as [|q0 qs] eqn:Eq.
  { apply Permutation_sym, Permutation_nil in Pp. discriminate. }
  destruct (c_kind c) as [k|]; [|reflexivity].
  destruct co as [|c0 co']; [reflexivity|]. set (co := c0 :: co') in *.
  destruct u as [|u0 us] eqn:Eu.
  { apply Permutation_nil in Pl. subst v. reflexivity. }
  assert (Hv : v <> []) by (intros ->; apply Permutation_sym, Permutation_nil in Pl; discriminate).
  rewrite <- Eu in *. assert (Hu : u <> []) by (rewrite Eu; discriminate).
  rewrite <- Ep, <- Eq in *. clear Eu u0 us Ep p0 ps Eq q0 qs.
  rewrite (nearest_flat k (map Fin u) co tol), (nearest_flat k (map Fin v) co tol);
    try discriminate; try (destruct u; [contradiction|discriminate]); try (destruct v; [contradiction|discriminate]).
  cbn [bind]. set (m := flat_map (near1 k (map Fin u) co tol) (c_peaks c)).
  set (m' := flat_map (near1 k (map Fin v) co tol) (c_peaks d)).
  assert (P : Permutation (map (sq k co) m) (map (sq k co) m')).
  { unfold m, m'. rewrite !flat_map_map.
    rewrite (flat_map_ext (fun x => map (sq k co) (near1 k (map Fin u) co tol x))
               (fun x => map (sq k co) (near1 k (map Fin v) co tol x)))
      by (intros x; apply near1_shuffle; auto).
    apply Permutation_flat_map. auto. }
  assert (L : List.length m = List.length m').
  { rewrite <- (map_length (sq k co) m), <- (map_length (sq k co) m'). apply Permutation_length. auto. }
  rewrite <- L, <- (Permutation_length Pp). destruct (_ <? 1)%Z; auto. destruct (_ <' _); auto.
  destruct (g_pixels (c_gp c)) as [px|]; auto. destruct (polyvals_of (Some k) (np_sort px) co) as [vs|e]; auto.
  cbn [bind]. destruct (negb _); auto.
  rewrite !polyvals_map by discriminate. cbn [bind]. do 2 f_equal.
  assert (S1 : forall n : list (xr * xr), map (fun q => (fst q -' snd q) *' (fst q -' snd q))
             (combine (map snd n) (map (fun p => eval_kind k p co) (map fst n))) = map (sq k co) n).
  { induction n as [|q n IH]; cbn [map combine]; auto. rewrite IH. reflexivity. }
  rewrite !S1. apply np_sum_shuffle. auto.
Qed.

(* ------------------------------------------------------------------ *)
(** ** The lines within tolerance *)

Definition with1 (k : fit_kind) (lines co : list xr) (tol p : xr) : list (xr * list xr) :=
  match filter (fun l => nabs (l -' eval_kind k p co) <' tol) lines with
  | [] => []
  | ls => [(p, ls)]
  end.

Lemma within_flat k (lines co : list xr) tol : co <> [] -> forall peaks,
  lines_within (Some k) lines co tol peaks = Ok (flat_map (with1 k lines co tol) peaks).
Proof.
  intros Hc. induction peaks as [|p r IH]; auto.
  cbn [lines_within flat_map]. rewrite IH. unfold polyval_of. destruct co as [|c0 co']; [contradiction|].
  cbn [bind]. set (rest := flat_map _ r). unfold with1. destruct (filter _ lines); reflexivity.
Qed.

(** The only line of each peak. *)
Definition single (m : list (xr * list xr)) : Prop := Forall (fun q => List.length (snd q) = 1%nat) m.
Definition pair_of (q : xr * list xr) : xr * xr := (fst q, hd (nZ 0) (snd q)).

Lemma filter_shuffle {T} (f : T -> bool) l k : Permutation l k -> Permutation (filter f l) (filter f k).
Proof.
  induction 1; cbn; auto.
  - destruct (f x); auto.
  - destruct (f x), (f y); auto using perm_swap.
  - eapply perm_trans; eauto.
Qed.

Lemma with1_shuffle k (l l' co : list xr) tol p : Permutation l l' ->
  (single (with1 k l co tol p) -> with1 k l' co tol p = with1 k l co tol p).
Proof.
  intros P. unfold with1. assert (Q := filter_shuffle (fun v => nabs (v -' eval_kind k p co) <' tol) l l' P).
  destruct (filter _ l) as [|a r].
  - apply Permutation_nil in Q. rewrite Q. auto.
  - intros H. apply Forall_inv in H. cbn [snd] in H. destruct r; [|discriminate].
    apply Permutation_length_1_inv in Q. rewrite Q. reflexivity.
Qed.

Lemma with_shuffle k (l l' co : list xr) tol ps qs : Permutation l l' -> Permutation ps qs ->
  single (flat_map (with1 k l co tol) ps) ->
  Permutation (flat_map (with1 k l co tol) ps) (flat_map (with1 k l' co tol) qs).
Proof.
  intros Pl Pp H. rewrite (Permutation_flat_map (with1 k l' co tol) (Permutation_sym Pp)).
  apply Permutation_refl'. clear Pp. induction ps as [|p r IH]; auto. cbn [flat_map] in *.
  apply Forall_app in H. destruct H as [H1 H2]. rewrite (with1_shuffle k l l' co tol p Pl H1), (IH H2). reflexivity.
Qed.

Lemma single_shuffle m m' : Permutation m m' -> single m -> single m'.
Proof. intros P H. apply Forall_forall. intros q Hq. apply (Permutation_in q (Permutation_sym P)) in Hq. revert q Hq. apply Forall_forall, H. Qed.

Lemma candidate_single : forall (m : list (xr * list xr)) cand, single m ->
  candidate_of (map snd m) cand = Ok (cand ++ map snd (map pair_of m))%list.
Proof.
  induction m as [|[p ls] r IH]; intros cand H; cbn [map candidate_of snd].
  - rewrite app_nil_r. reflexivity.
  - inversion H as [|? ? H1 H2]; subst. cbn [snd] in H1. destruct ls as [|l [|]]; try discriminate.
    rewrite IH by auto. rewrite <- app_assoc. reflexivity.
Qed.

Lemma candidate_other : forall (m : list (xr * list xr)) cand, Forall (fun q => snd q <> []) m ->
  match candidate_of (map snd m) cand with
  | Ok r => (List.length r <= List.length cand + List.length m)%nat /\
            (List.length r = List.length cand + List.length m -> single m)%nat
  | Raise e => e = TypeError /\ ~ single m
  end.
Proof.
  induction m as [|[p ls] r IH]; intros cand H; cbn [map candidate_of snd List.length].
  - split; [lia|]. intros _. constructor.
  - inversion H as [|? ? H1 H2]; subst. cbn [snd] in H1. destruct ls as [|l [|l2 ls]]; [contradiction| |].
    + specialize (IH (cand ++ [l])%list H2). destruct (candidate_of (map snd r) (cand ++ [l])) as [x|e].
      * rewrite app_length in IH. cbn [List.length] in IH. split; [lia|]. intros E. constructor; auto. apply IH. lia.
      * split; [apply IH|]. intros F. apply IH. inversion F; auto.
    + destruct (forallb _ _).
      * specialize (IH cand H2). destruct (candidate_of (map snd r) cand) as [x|e].
        -- split; [lia|]. intros E. lia.
        -- split; [apply IH|]. intros F. inversion F; subst. discriminate.
      * split; auto. intros F. inversion F; subst. discriminate.
Qed.

(* ------------------------------------------------------------------ *)
(** ** What is stored *)

Lemma combine_pairs {S T} (z : list (S * T)) : combine (map fst z) (map snd z) = z.
Proof. induction z as [|[x y] r IH]; cbn; auto. rewrite IH. reflexivity. Qed.

Lemma combine_fun {S T} (g : S -> T) (z : list S) : combine z (map g z) = map (fun q => (q, g q)) z.
Proof. induction z as [|x r IH]; cbn; auto. rewrite IH. reflexivity. Qed.

Lemma combine_scaled (f g : xr -> xr) (z : list (xr * xr)) :
  combine (map f (map fst z)) (map g (map snd z)) = map (fun q => (f (fst q), g (snd q))) z.
Proof. induction z as [|x r IH]; cbn; auto. rewrite IH. reflexivity. Qed.

Lemma robust_shuffle (o : oracle xr) (z z' : list (xr * xr)) deg : order_blind o -> Permutation z z' ->
  robust_polyfit (o_ls o) (map fst z) (map snd z) deg None = robust_polyfit (o_ls o) (map fst z') (map snd z') deg None.
Proof.
  intros B P. unfold robust_polyfit, normalise_input.
  rewrite (np_std_shuffle (map fst z) (map fst z')) by (apply Permutation_map; auto).
  rewrite (np_std_shuffle (map snd z) (map snd z')) by (apply Permutation_map; auto).
  unfold robust_init. cbn [bind]. destruct (negb _); auto.
  destruct (B (map (fun v => v /' np_std (map fst z')) (map fst z)) (map (fun v => v /' np_std (map snd z')) (map snd z))
              (map (fun v => v /' np_std (map fst z')) (map fst z')) (map (fun v => v /' np_std (map snd z')) (map snd z')))
    as [_ E].
  - rewrite !map_length. reflexivity.
  - rewrite !map_length. reflexivity.
  - rewrite !combine_scaled. apply Permutation_map. auto.
  - rewrite E. reflexivity.
Qed.

Definition left_over (k : fit_kind) (co : list xr) (q : xr * xr) : xr := snd q -' eval_kind k (fst q) co.

Lemma minus_left k co (z : list (xr * xr)) :
  minus (map snd z) (map (fun p => eval_kind k p co) (map fst z)) = map (left_over k co) z.
Proof. unfold minus. induction z as [|q r IH]; cbn [map combine]; auto. rewrite IH. reflexivity. Qed.

Lemma store_shuffle (o : oracle xr) (c d : calib xr) deg robust refined (z z' : list (xr * xr)) n :
  order_blind o -> shuffled c d -> Permutation z z' ->
  let r := match_store o c deg robust refined (map fst z) (map snd z) n in
  let s := match_store o d deg robust refined (map fst z') (map snd z') n in
  shuffled (fst r) (fst s) /\
  match snd r, snd s with
  | Ok v, Ok w => same_match v w
  | Raise e, Raise f => e = f
  | _, _ => False
  end.
Proof.
  intros B H P. cbv zeta. assert (H0 := H). destruct H as (Pp & Ha & Hk & Hc & Hg).
  assert (Sh : forall c' d', c_peaks c' = c_peaks c -> c_atlas c' = c_atlas c -> c_kind c' = c_kind c -> c_gp c' = c_gp c ->
    c_peaks d' = c_peaks d -> c_atlas d' = c_atlas d -> c_kind d' = c_kind d -> c_gp d' = c_gp d ->
    c_coeff c' = c_coeff d' -> shuffled c' d').
  { intros c' d' E1 E2 E3 E4 F1 F2 F3 F4 E5. unfold shuffled. rewrite E1, E2, E3, E4, F1, F2, F3, F4. repeat split; auto. }
  unfold match_store. rewrite <- Hk.
  assert (E : polyfit_of o (c_kind c) (map fst z) (map snd z) deg = polyfit_of o (c_kind c) (map fst z') (map snd z') deg).
  { unfold polyfit_of. destruct (c_kind c) as [k|]; auto. rewrite !map_length, !Nat.eqb_refl.
    destruct (B (map fst z) (map snd z) (map fst z') (map snd z')) as [E _];
      try (rewrite !map_length; reflexivity); [rewrite !combine_pairs; auto|]. rewrite E.
    destruct z as [|q z].
    - apply Permutation_nil in P. subst z'. reflexivity.
    - destruct z' as [|q' z']; [apply Permutation_sym, Permutation_nil in P; discriminate|]. reflexivity. }
  rewrite <- E. clear E.
  destruct (polyfit_of o (c_kind c) (map fst z) (map snd z) deg) as [co|e] eqn:Ec; cbn [bind];
    [|cbn [fst snd]; split; [apply Sh; first [reflexivity|exact Hc|exact Ek]|reflexivity]].
  destruct (c_kind c) as [k|] eqn:Ek; [|discriminate].
  assert (Hz : z <> []) by (intros ->; discriminate).
  assert (Hz' : z' <> []) by (intros ->; apply Permutation_sym, Permutation_nil in P; contradiction).
  assert (V : forall co (w : list (xr * xr)), w <> [] ->
    polyvals_of (Some k) (map fst w) co = match co with [] => Raise IndexError | _ => Ok (map (fun p => eval_kind k p co) (map fst w)) end).
  { intros co0 w Hw. destruct co0; [|apply polyvals_map; discriminate]. destruct w; [contradiction|]. reflexivity. }
  rewrite !V by auto. destruct co as [|a0 co0]; [cbn [fst snd]; split; [apply Sh; first [reflexivity|exact Hc|exact Ek]|reflexivity]|].
  cbn [bind]. set (co := a0 :: co0). rewrite !minus_left.
  assert (Pr : Permutation (map nabs (map (left_over k co) z)) (map nabs (map (left_over k co) z')))
    by (do 2 apply Permutation_map; auto).
  rewrite <- (np_sum_shuffle _ _ Pr), <- (nan_rms_shuffle _ _ Pr).
  destruct (negb _); [cbn [fst snd]; split; [apply Sh; first [reflexivity|exact Hc|exact Ek]|reflexivity]|].
  rewrite <- (Permutation_length Pp). destruct (Nat.eqb _ 0); [cbn [fst snd]; split; [apply Sh; first [reflexivity|exact Hc|exact Ek]|reflexivity]|].
  destruct (Nat.eqb n 0); [cbn [fst snd]; split; [apply Sh; first [reflexivity|exact Hc|exact Ek]|reflexivity]|].
  rewrite !map_length, <- (Permutation_length P).
  assert (R3 : forall f : xr * xr -> xr,
    Permutation (combine (combine (map fst z) (map snd z)) (map f z)) (combine (combine (map fst z') (map snd z')) (map f z'))).
  { intros f. rewrite !combine_pairs, !combine_fun. apply Permutation_map. auto. }
  assert (R3' := R3 (fun q => nabs (left_over k co q))). rewrite <- !map_map with (f := left_over k co) (g := nabs) in R3'.
  destruct robust.
  - rewrite <- (robust_shuffle o z z' deg B P).
    destruct (robust_polyfit (o_ls o) (map fst z) (map snd z) deg None) as [cr|e];
      [|cbn [fst snd]; split; [apply Sh; first [reflexivity|exact Hc|exact Ek]|reflexivity]].
    destruct (existsb nisnan cr).
    + cbn [fst snd]. split; [apply Sh; first [reflexivity|exact Ek]|]. unfold same_match. cbn [mv_coeff mv_rms mv_putil mv_autil mv_peaks mv_atlas mv_resid].
      rewrite !map_length. do 4 (split; [reflexivity|]). repeat split; auto.
    + rewrite !V by auto. destruct cr as [|b0 cr0]; [cbn [fst snd]; split; [apply Sh; first [reflexivity|exact Hc|exact Ek]|reflexivity]|].
      rewrite !minus_left. cbn [fst snd].
      rewrite <- (nan_rms_shuffle (map (left_over k (b0 :: cr0)) z) (map (left_over k (b0 :: cr0)) z')) by (apply Permutation_map; auto).
      split; [apply Sh; first [reflexivity|exact Ek]|]. unfold same_match. cbn [mv_coeff mv_rms mv_putil mv_autil mv_peaks mv_atlas mv_resid].
      rewrite !map_length. do 4 (split; [reflexivity|]). repeat split; auto.
  - destruct refined as [cr|]; [|cbn [fst snd]; split; [apply Sh; first [reflexivity|exact Hc|exact Ek]|reflexivity]].
    cbn [fst snd]. split; [apply Sh; first [reflexivity|exact Ek]|]. unfold same_match. cbn [mv_coeff mv_rms mv_putil mv_autil mv_peaks mv_atlas mv_resid].
    rewrite !map_length. do 4 (split; [reflexivity|]). repeat split; auto.
Qed.

Lemma refine_shuffle mini (c d : calib xr) co nd tol frac : shuffled c d ->
  refine_coeff mini c co nd tol frac = refine_coeff mini d co nd tol frac.
Proof.
  intros H. unfold refine_coeff. destruct co as [l|l|]; auto. cbv zeta.
  replace (fun x => snd (adjust_polyfit c x l tol frac)) with (fun x => snd (adjust_polyfit d x l tol frac)); auto.
  apply functional_extensionality. intros x. symmetry. apply adjust_shuffle. auto.
Qed.

(** match_peaks gives the same answer, or the same exception, for the same peaks and lines
    in another order: the same solution, rms and utilisations, and the same pairs with the
    same residuals, and after the call the two calibrators again differ in the order only. *)
Lemma match_order_main :
  forall (o : oracle xr) (mini : minimiser xr) (c d : calib xr) (a : match_args xr),
    order_blind o -> shuffled c d ->
    let r := match_peaks o mini c a in
    let s := match_peaks o mini d a in
    shuffled (fst r) (fst s) /\
    match snd r, snd s with
    | Ok v, Ok w => same_match v w
    | Raise e, Raise f => e = f
    | _, _ => False
    end.
Proof.
  intros o mini c d a B H. cbv zeta. unfold match_peaks.
  assert (H0 := H). destruct H0 as (Pp & Ha & Hk & Hc & Hg). rewrite <- Hc.
  destruct (match ma_coeff a with MNone => _ | _ => _ end) as [co|e]; [|split; [exact H|reflexivity]].
  destruct (mseq_vals co) as [|l0 ls] eqn:El; [split; [exact H|reflexivity]|]. rewrite <- El.
  rewrite <- (refine_shuffle mini c d co (ma_ndelta a) (ma_tol a) (ma_frac a) H).
  destruct (if ma_refine a then _ else _) as [q|e]; [|split; [exact H|reflexivity]].
  assert (G : forall q', 
    let r := match c_atlas c with
             | None => (c, Raise AttributeError)
             | Some at_ =>
                 match bind (lines_within (c_kind c) (get_lines at_) (mseq_vals co) (ma_tol a) (c_peaks c)) (fun m =>
                       bind (candidate_of (map snd m) []) (fun cand => Ok (map fst m, cand))) with
                 | Raise e => (c, Raise e)
                 | Ok (xs, cand) => match_store o c (oget (List.length (mseq_vals co) - 1)%nat (ma_deg a)) (ma_robust a) q' xs cand (atlas_len at_)
                 end
             end in
    let s := match c_atlas d with
             | None => (d, Raise AttributeError)
             | Some at_ =>
                 match bind (lines_within (c_kind d) (get_lines at_) (mseq_vals co) (ma_tol a) (c_peaks d)) (fun m =>
                       bind (candidate_of (map snd m) []) (fun cand => Ok (map fst m, cand))) with
                 | Raise e => (d, Raise e)
                 | Ok (xs, cand) => match_store o d (oget (List.length (mseq_vals co) - 1)%nat (ma_deg a)) (ma_robust a) q' xs cand (atlas_len at_)
                 end
             end in
    shuffled (fst r) (fst s) /\
    match snd r, snd s with
    | Ok v, Ok w => same_match v w
    | Raise e, Raise f => e = f
    | _, _ => False
    end).
  2:{ destruct q as [[new|]|]; [apply (G (Some new))| |apply (G None)].
      cbn [fst snd]. split; [exact H|]. repeat split; auto. }
  intros q'. cbv zeta. set (deg := oget _ (ma_deg a)).
  destruct (c_atlas c) as [at_|] eqn:Ea, (c_atlas d) as [bt|] eqn:Eb; try contradiction; [|split; [exact H|reflexivity]].
  destruct Ha as (u & v & Eu & Ev & Pl).
  assert (Hn : atlas_len bt = atlas_len at_).
  { unfold atlas_len. rewrite <- (map_length al_wl (at_lines bt)), <- (map_length al_wl (at_lines at_)).
    fold (get_lines bt) (get_lines at_). rewrite Eu, Ev, !map_length. symmetry. apply Permutation_length. auto. }
  rewrite Hn, <- Hk, Eu, Ev. clear Hn.
  assert (Pl' : Permutation (map Fin u) (map Fin v)) by (apply Permutation_map; auto).
  destruct (c_kind c) as [k|] eqn:Ek.
  2:{ destruct (c_peaks c) as [|p0 ps] eqn:Ep.
      - apply Permutation_nil in Pp. rewrite Pp. cbn [lines_within bind map candidate_of].
        apply (store_shuffle o c d deg (ma_robust a) q' [] [] (atlas_len at_) B H (perm_nil _)).
      - destruct (c_peaks d) as [|q0 qs]; [apply Permutation_sym, Permutation_nil in Pp; discriminate|].
        split; [exact H|reflexivity]. }
  rewrite !within_flat by (rewrite El; discriminate). cbn [bind].
  set (m := flat_map (with1 k (map Fin u) (mseq_vals co) (ma_tol a)) (c_peaks c)).
  set (m' := flat_map (with1 k (map Fin v) (mseq_vals co) (ma_tol a)) (c_peaks d)).
  assert (N1 : forall l w, Forall (fun q : xr * list xr => snd q <> []) (flat_map (with1 k l (mseq_vals co) (ma_tol a)) w)).
  { intros l w. apply Forall_flat_map, Forall_forall. intros p _. unfold with1. destruct (filter _ l); constructor; [discriminate|constructor]. }
  assert (Fst : forall n : list (xr * list xr), map fst n = map fst (map pair_of n)) by (intros n; rewrite map_map; reflexivity).
  assert (D : single m \/ ~ single m).
  { clear. induction m as [|q r IH]; [left; constructor|]. destruct (Nat.eq_dec (List.length (snd q)) 1).
    - destruct IH; [left; constructor; auto|right; intros F; inversion F; auto].
    - right. intros F. inversion F. auto. }
  destruct D as [D|D].
  - assert (P : Permutation m m') by (apply with_shuffle; auto).
    assert (D' := single_shuffle _ _ P D).
    rewrite !candidate_single by auto. cbn [bind app]. rewrite !Fst.
    apply store_shuffle; auto. apply Permutation_map. auto.
  - assert (D' : ~ single m').
    { intros D'. apply D. apply (single_shuffle m'); auto. apply with_shuffle; auto using Permutation_sym. }
    assert (T : forall (x : calib xr) n y, c_kind x = Some k -> ~ single n -> Forall (fun q : xr * list xr => snd q <> []) n ->
      let r := match bind (candidate_of (map snd n) []) (fun cand => Ok (map fst n, cand)) with
               | Raise e => (x, Raise e)
               | Ok (xs, cand) => match_store o x deg (ma_robust a) q' xs cand y
               end in
      snd r = Raise TypeError /\ c_peaks (fst r) = c_peaks x /\ c_atlas (fst r) = c_atlas x /\ c_kind (fst r) = c_kind x /\
      c_coeff (fst r) = c_coeff x /\ c_gp (fst r) = c_gp x).
    { intros x n y Ex Hs Hne. cbv zeta. assert (C := candidate_other n [] Hne).
      destruct (candidate_of (map snd n) []) as [cand|e]; cbn [bind].
      - destruct C as [C1 C2]. cbn [List.length Nat.add] in *.
        unfold match_store, polyfit_of. rewrite Ex.
        destruct (map fst n) as [|x0 xs] eqn:En.
        + destruct n; [|discriminate]. exfalso. apply Hs. constructor.
        + rewrite <- En, map_length. destruct (Nat.eqb_spec (List.length n) (List.length cand)) as [E|E].
          * exfalso. apply Hs, C2. auto.
          * cbn. repeat split; auto.
      - destruct C as [-> _]. cbn. repeat split; auto. }
    destruct (T c m (atlas_len at_) Ek D (N1 _ _)) as (T1 & T2 & T3 & T4 & T5 & T6).
    destruct (T d m' (atlas_len at_) (eq_sym Hk) D' (N1 _ _)) as (S1 & S2 & S3 & S4 & S5 & S6).
    rewrite T1, S1. split; [|reflexivity].
    unfold shuffled. rewrite T2, T3, T4, T5, T6, S2, S3, S4, S5, S6, Ea, Eb. repeat split; auto; try congruence.
    exists u, v. auto.
Qed.

(** The calibrator with peaks and lines reversed. *)
Definition turned {A} (c : calib A) : calib A :=
  set_c_peaks (rev (c_peaks c))
    (set_c_atlas (option_map (fun a => mkAtlas (rev (at_lines a)) (at_min a) (at_max a) (at_range_tol a)) (c_atlas c)) c).

(** The straight line of least squares, over the reals. *)
Definition line_xr (xs ys : list xr) : list xr :=
  let n := nnat (List.length xs) in
  let mx := np_sum xs /' n in
  let my := np_sum ys /' n in
  let sxy := np_sum (map (fun q => (fst q -' mx) *' (snd q -' my)) (combine xs ys)) in
  let sxx := np_sum (map (fun x => (x -' mx) *' (x -' mx)) xs) in
  let m := sxy /' sxx in [my -' m *' mx; m].
Definition o_line : oracle xr :=
  mkO (fun l => seq 0 (List.length l)) (fun _ => []) (fun _ xs ys _ => Ok (line_xr xs ys)) (fun xs ys _ _ => Ok (rev (line_xr xs ys)))
    (fun _ _ _ _ => []) (fun _ _ => nZ 0) (fun _ _ _ => Raise ValueError) false.

(** The hypotheses are met: fitting straight lines does not look at the order, and a
    calibrator with three lines and three peaks and the same with both reversed differ in
    the order only. *)
Example match_order_example_main :
  let line w := mkAL (Fin w) "Xe"%string (nZ 1) None in
  let at_ := mkAtlas [line 4000%R; line 5000%R; line 7000%R] (nZ 0) (nZ 9000) (nZ 500) in
  let c := set_c_coeff (Some [nZ 3000; nZ 10]) (set_c_kind (Some FitPoly)
             (set_c_atlas (Some at_) (calib_blank [nZ 100; nZ 200; nZ 400] None))) in
  order_blind o_line /\ shuffled c (turned c) /\ c_peaks (turned c) = [nZ 400; nZ 200; nZ 100].
Proof.
  cbv zeta. split; [|split; [|reflexivity]].
  - intros xs ys xs' ys' L L' P.
    assert (E : line_xr xs ys = line_xr xs' ys').
    { assert (Px : Permutation xs xs').
      { apply (Permutation_map fst) in P. revert P. clear -L L'.
        assert (G : forall (u v : list xr), List.length u = List.length v -> map fst (combine u v) = u).
        { induction u as [|x u IH]; intros [|y v]; cbn; intros E; try discriminate; auto. f_equal. auto. }
        rewrite !G by auto. auto. }
      assert (Py : Permutation ys ys').
      { apply (Permutation_map snd) in P. revert P. clear -L L'.
        assert (G : forall (u v : list xr), List.length u = List.length v -> map snd (combine u v) = v).
        { induction u as [|x u IH]; intros [|y v]; cbn; intros E; try discriminate; auto. f_equal. auto. }
        rewrite !G by auto. auto. }
      unfold line_xr. cbv zeta. rewrite (Permutation_length Px), (np_sum_shuffle _ _ Px), (np_sum_shuffle _ _ Py).
      rewrite (np_sum_shuffle _ _ (Permutation_map _ P)), (np_sum_shuffle _ _ (Permutation_map _ Px)). reflexivity. }
    split; intros; cbn [o_line o_polyfit o_ls]; rewrite E; reflexivity.
  - split; [apply Permutation_rev|]. split; [|repeat split].
    exists [4000; 5000; 7000]%R, [7000; 5000; 4000]%R. split; [reflexivity|]. split; [reflexivity|].
    apply (Permutation_rev [4000; 5000; 7000]%R).
Qed.

(** The same in binary64, for a fitted calibrator: the five pairs, reversed. *)
Example match_order_run_example_main :
  match snd (match_peaks o_ex no_mini c_fitted (ma_plain (fz 20) false true)),
        snd (match_peaks o_ex no_mini (turned c_fitted) (ma_plain (fz 20) false true)) return Prop with
  | Ok v, Ok w =>
      mv_peaks v = MArr ex_peaks /\ mv_peaks w = MArr (rev ex_peaks) /\
      mv_atlas w = MArr (rev (mseq_vals (mv_atlas v))) /\ mv_putil v = mv_putil w /\ mv_autil v = mv_autil w
  | _, _ => False
  end.
Proof. vm_compute. repeat split; reflexivity. Qed.

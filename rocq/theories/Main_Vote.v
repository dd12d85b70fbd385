(** * Main_Vote: what the Hough transform of a calibrator finds, with proofs.  The
    statements are repeated, without proofs, in Props_Vote.v. *)

From Coq Require Import ZArith Bool List Lia Reals Lra Permutation Sorted String.
From Verif Require Import Num F64 XReal Py Np NpFacts ArgsortFacts Hough SpecHough HoughFacts Main_Hough Calib Cand SpecVote Main_Cand.
Import ListNotations.
Local Open Scope num_scope.

Lemma filter_flat_map_le {T U} (f : U -> bool) (g : T -> list U) l k :
  In k l -> (List.length (filter f (g k)) <= List.length (filter f (flat_map g l)))%nat.
Proof.
  induction l as [|a l IH]; [contradiction|]. cbn [flat_map]. rewrite filter_app, app_length.
  intros [->|H]; [lia|]. apply IH in H. lia.
Qed.

Lemma filter_map_le {T U} (f : U -> bool) (h : T -> U) (g : T -> bool) l :
  (forall x, g x = true -> f (h x) = true) ->
  (List.length (filter g l) <= List.length (filter f (map h l)))%nat.
Proof.
  intros H. induction l as [|a l IH]; cbn; auto. destruct (g a) eqn:E.
  - rewrite (H _ E). cbn. lia.
  - destruct (f (h a)); cbn; lia.
Qed.

Lemma filter_filter {T} (f g : T -> bool) l : filter f (filter g l) = filter (fun x => g x && f x) l.
Proof. induction l as [|a l IH]; cbn; auto. destruct (g a); cbn; [destruct (f a)|]; rewrite IH; auto. Qed.

Lemma nth_edges lo hi n k : (k <= n)%nat -> nth k (map (edge lo hi n) (seq 0 (S n))) 0%R = edge lo hi n k.
Proof.
  intros Hk. rewrite (nth_indep _ 0%R (edge lo hi n 0)) by (rewrite map_length, seq_length; lia).
  rewrite (map_nth (edge lo hi n)). rewrite seq_nth by lia. reflexivity.
Qed.

Lemma data_range_width v lo hi a b :
  data_range v lo hi -> (forall x, In x v -> (a <= x <= b)%R) -> (0 < hi - lo <= Rmax (b - a) 1)%R.
Proof.
  intros [(-> & -> & ->)|(u & w & Hu & Hw & _ & [(L & -> & ->)|(E & -> & ->)])] H.
  - split; [lra|]. ring_simplify (1 - 0)%R. apply Rmax_r.
  - apply H in Hu, Hw. split; [lra|]. apply Rle_trans with (b - a)%R; [lra|apply Rmax_l].
  - split; [lra|]. replace (u + 1 / 2 - (u - 1 / 2))%R with 1%R by lra. apply Rmax_r.
Qed.

Lemma in_bin_between lo hi n i v :
  (n >= 1)%nat -> in_bin lo hi n i v = true -> (edge lo hi n i <= v <= edge lo hi n (S i))%R.
Proof.
  intros Hn H. unfold in_bin in H. apply andb_prop in H. destruct H as [H1 H2].
  assert (Pn : (0 < INR n)%R) by (apply lt_0_INR; lia).
  destruct (Rleb_spec (edge lo hi n i) v) as [E1|]; [|discriminate]. split; auto.
  apply orb_prop in H2. destruct H2 as [H2|H2].
  - destruct (Rltb_spec v (edge lo hi n (S i))); [lra|discriminate].
  - apply andb_prop in H2. destruct H2 as [H2 H3]. apply Nat.eqb_eq in H2.
    destruct (Reqb_spec v hi) as [->|]; [|discriminate]. rewrite H2. unfold edge.
    apply Req_le. field. lra.
Qed.

Lemma in_bin_centre lo hi n i v W :
  (n >= 1)%nat -> (lo < hi)%R -> (hi - lo <= W)%R -> in_bin lo hi n i v = true ->
  (Rabs (centre lo hi n i - v) <= W / INR n / 2)%R.
Proof.
  intros Hn L HW H. apply in_bin_between in H; auto.
  assert (Pn : (0 < INR n)%R) by (apply lt_0_INR; lia).
  assert (Ew : (edge lo hi n (S i) = edge lo hi n i + (hi - lo) / INR n)%R).
  { unfold edge. rewrite S_INR. ring. }
  assert (D : ((hi - lo) / INR n <= W / INR n)%R).
  { unfold Rdiv. apply Rmult_le_compat_r; [left; apply Rinv_0_lt_compat; lra|lra]. }
  unfold centre. apply Rabs_le. lra.
Qed.

(** The transform of a ready calibrator, with the histogram it stores. *)
Lemma do_hough_ready argsort (c c' : calib xr) pairs n xb yb lo_s hi_s lo_i hi_i r :
  (forall l, is_argsort l (argsort l)) -> hough_ready c pairs n xb yb lo_s hi_s lo_i hi_i ->
  do_hough_transform argsort c false = (c', r) ->
  r = Ok tt /\ c_pairs c' = c_pairs c /\ c_hp c' = c_hp c /\
  let pts := filter (fun q => Rleb lo_i (snd q) && Rleb (snd q) hi_i) (all_lines lo_s hi_s n pairs) in
  c_points c' = Some (HArr (map FinP pts)) /\
  exists a b d e hist bins,
    data_range (map fst pts) a b /\ data_range (map snd pts) d e /\
    (forall p, In p pts ->
       (exists! i, (i < xb)%nat /\ in_bin a b xb i (fst p) = true) /\
       (exists! j, (j < yb)%nat /\ in_bin d e yb j (snd p) = true)) /\
    stored (c_ht c') hist (map (edge a b xb) (seq 0 (S xb))) (map (edge d e yb) (seq 0 (S yb))) /\
    List.length hist = xb /\ (forall row, In row hist -> List.length row = yb) /\
    (forall i j, (i < xb)%nat -> (j < yb)%nat ->
       count_at hist (i, j) =
       List.length (filter (fun p => in_bin a b xb i (fst p) && in_bin d e yb j (snd p)) pts)) /\
    c_lines c' = Some (map (fun q => (Fin (centre a b xb (fst q)), Fin (centre d e yb (snd q)))) bins) /\
    Permutation bins (list_prod (seq 0 xb) (seq 0 yb)) /\
    StronglySorted (fun b c => (count_at hist c <= count_at hist b)%nat) bins.
Proof.
  intros Ha (Hp & Hne & Hn & Hn1 & Hx & Hx1 & Hy & Hy1 & H1 & H2 & H3 & H4 & Hs & Hi).
  unfold do_hough_transform. rewrite Hp, H1, H2, H3, H4, Hn, Hx, Hy.
  destruct (set_constraints (c_ht c) (Some (Fin lo_s)) (Some (Fin hi_s)) (Some (Fin lo_i)) (Some (Fin hi_i))) as [t1 r1] eqn:E1.
  pose proof (set_constraints_accepts_main _ _ (c_ht c) (Fin lo_s) (Fin hi_s) (Fin lo_i) (Fin hi_i) eq_refl eq_refl eq_refl eq_refl) as Q1.
  rewrite E1 in Q1. cbn [snd] in Q1. subst r1.
  apply set_constraints_atomic_main in E1.
  destruct E1 as [(_ & _ & L1 & L2 & L3 & L4 & _)|(_ & [X|X] & _)]; try discriminate.
  rewrite !map_map.
  assert (EZ : match Z.of_nat n with Zneg _ => (t1, Raise ValueError)
     | _ => generate_hough_points t1 (map (fun x => fst (FinP x)) pairs) (map (fun x => snd (FinP x)) pairs) (Z.to_nat (Z.of_nat n)) end
     = generate_hough_points t1 (map (fun x => fst (FinP x)) pairs) (map (fun x => snd (FinP x)) pairs) n).
  { rewrite Nat2Z.id. destruct n; reflexivity. }
  rewrite EZ.
  destruct (generate_hough_points t1 _ _ n) as [t2 r2] eqn:E2.
  destruct (hough_points_exact_main t1 t2 pairs n lo_s hi_s lo_i hi_i r2 L1 L2 L3 L4 Hne Hn1 E2) as (-> & P2 & _).
  destruct (bin_hough_points argsort t2 xb yb) as [t3 r3] eqn:E3.
  destruct (bin_hough_points_exact_main argsort t2 t3 _ xb yb r3 Ha P2 Hx1 Hy1 E3)
    as (-> & P3 & _ & a & b & d & e & hist & bins & D1 & D2 & U & X1 & X2 & Hh & HL & HR & HC & _ & HB & HP & HS).
  intros H. assert (c' = set_c_lines (ho_lines t3) (set_c_points (ho_points t3) (set_c_ht t3 c))) by congruence.
  assert (r = Ok tt) by congruence. subst c' r. clear H.
  split; auto. split; [symmetry; exact (eq_sym Hp)|]. split; [reflexivity|].
  cbv zeta. split; [exact (eq_trans P3 P2)|]. exists a, b, d, e, hist, bins.
  assert (stored t3 hist (map (edge a b xb) (seq 0 (S xb))) (map (edge d e yb) (seq 0 (S yb)))).
  { unfold stored. rewrite X1, X2, !map_map. auto. }
  auto 12.
Qed.

Lemma slope_at_bounds lo hi n k : (lo <= hi)%R -> (k < n)%nat -> (lo <= slope_at lo hi n k <= hi)%R.
Proof.
  intros Hs Hk. unfold slope_at. destruct (Nat.eqb_spec n 1); [lra|].
  assert (0 <= INR k)%R by apply pos_INR.
  assert (INR k <= INR (n - 1))%R by (apply le_INR; lia).
  assert (0 < INR (n - 1))%R by (apply lt_0_INR; lia).
  assert (0 <= INR k * (hi - lo) / INR (n - 1) <= hi - lo)%R; [|lra].
  unfold Rdiv. split.
  - apply Rmult_le_pos; [nra|]. left. apply Rinv_0_lt_compat. lra.
  - apply (Rmult_le_reg_r (INR (n - 1))); [lra|]. rewrite Rmult_assoc, Rinv_l by lra. nra.
Qed.

(** C105: a line of a tried slope with an admissible intercept gets at least as many
    votes, in one bin, as pairs lie on it; the first Hough line has at least as many;
    if no other bin has as many as that bin, the first Hough line is the line, up to
    half a bin. *)
Lemma hough_votes_main :
  forall argsort (c c' : calib xr) pairs n xb yb lo_s hi_s lo_i hi_i r,
    (forall l, is_argsort l (argsort l)) -> hough_ready c pairs n xb yb lo_s hi_s lo_i hi_i ->
    do_hough_transform argsort c false = (c', r) ->
    r = Ok tt /\
    forall k i, (k < n)%nat -> (lo_i <= i <= hi_i)%R ->
      let s := slope_at lo_s hi_s n k in
      support s i pairs <> [] ->
      exists hist xe ye bin first m0 i0 rest,
        stored (c_ht c') hist xe ye /\
        (fst bin < xb)%nat /\ (snd bin < yb)%nat /\ bin_holds xe ye bin s i /\
        (List.length (support s i pairs) <= count_at hist bin)%nat /\
        c_lines c' = Some ((Fin m0, Fin i0) :: rest) /\ (m0, i0) = bin_centre xe ye first /\
        (count_at hist bin <= count_at hist first)%nat /\
        (strictly_most hist bin ->
         (Rabs (m0 - s) <= half_bin lo_s hi_s xb)%R /\ (Rabs (i0 - i) <= half_bin lo_i hi_i yb)%R).
Proof.
  intros argsort c c' pairs n xb yb lo_s hi_s lo_i hi_i r Ha Hr H.
  destruct (do_hough_ready _ _ _ _ _ _ _ _ _ _ _ _ Ha Hr H)
    as (Er & _ & _ & _ & a & b & d & e & hist & bins & D1 & D2 & U & Hh & HL & HR & HC & HB & HP & HS).
  destruct Hr as (Hp & Hne & Hn & Hn1 & Hx & Hx1 & Hy & Hy1 & H1 & H2 & H3 & H4 & Hs & Hi).
  split; auto. intros k i Hk Hki s Hsup.
  set (pts := filter _ _) in *.
  assert (Bnd : forall p, In p pts -> (lo_s <= fst p <= hi_s)%R /\ (lo_i <= snd p <= hi_i)%R).
  { intros p Hin. apply (hough_points_sound_main pairs n lo_s hi_s lo_i hi_i p Hs Hn1) in Hin. tauto. }
  assert (W1 := data_range_width _ _ _ lo_s hi_s D1).
  assert (W2 := data_range_width _ _ _ lo_i hi_i D2).
  specialize (W1 ltac:(intros x Hin; apply in_map_iff in Hin; destruct Hin as (p & <- & Hin); apply Bnd; auto)).
  specialize (W2 ltac:(intros x Hin; apply in_map_iff in Hin; destruct Hin as (p & <- & Hin); apply Bnd; auto)).
  assert (Hlim : Rleb lo_i i && Rleb i hi_i = true).
  { destruct (Rleb_spec lo_i i); [|lra]. destruct (Rleb_spec i hi_i); [reflexivity|lra]. }
  assert (On : forall p, Reqb (snd p) (s * fst p + i) = true -> line_with s p = (s, i)).
  { intros p E. destruct (Reqb_spec (snd p) (s * fst p + i)) as [E'|]; [|discriminate].
    unfold line_with. rewrite E'. f_equal. ring. }
  assert (Hpt : In (s, i) pts).
  { destruct (support s i pairs) as [|p rest] eqn:Es; [contradiction|].
    assert (Hin : In p (support s i pairs)) by (rewrite Es; left; auto).
    apply filter_In in Hin. destruct Hin as [Hin E]. apply filter_In. split; [|exact Hlim].
    apply in_flat_map. exists k. split; [apply in_seq; lia|]. rewrite <- (On p E).
    apply in_map with (f := line_with s). exact Hin. }
  destruct (U _ Hpt) as [(i1 & [Hi1 B1] & _) (j1 & [Hj1 B2] & _)]. cbn [fst snd] in B1, B2.
  assert (Hcnt : (List.length (support s i pairs) <= count_at hist (i1, j1))%nat).
  { rewrite HC by auto. unfold pts. rewrite filter_filter.
    unfold all_lines. eapply Nat.le_trans; [|apply (filter_flat_map_le _ _ _ k); apply in_seq; lia].
    apply filter_map_le. intros p E. fold s. rewrite (On p E). cbn [fst snd].
    rewrite Hlim, B1, B2. reflexivity. }
  destruct bins as [|b0 bins].
  { exfalso. apply Permutation_nil in HP. apply (f_equal (@List.length _)) in HP.
    rewrite prod_length, !seq_length in HP. cbn in HP. nia. }
  assert (Hin : In (i1, j1) (b0 :: bins)).
  { apply (Permutation_in _ (Permutation_sym HP)). apply in_prod; apply in_seq; lia. }
  assert (Hmax : (count_at hist (i1, j1) <= count_at hist b0)%nat).
  { inversion HS as [|x l HS' HF]; subst. destruct Hin as [->|Hin]; [lia|].
    rewrite Forall_forall in HF. auto. }
  cbn [map] in HB.
  assert (Hb0 : (fst b0 < xb)%nat /\ (snd b0 < yb)%nat).
  { assert (Q : In b0 (list_prod (seq 0 xb) (seq 0 yb))) by (apply (Permutation_in _ HP); left; auto).
    destruct b0 as [p q]. apply in_prod_iff in Q. rewrite !in_seq in Q. cbn. lia. }
  exists hist, (map (edge a b xb) (seq 0 (S xb))), (map (edge d e yb) (seq 0 (S yb))), (i1, j1), b0,
    (centre a b xb (fst b0)), (centre d e yb (snd b0)).
  eexists.
  split; [exact Hh|]. split; [exact Hi1|]. split; [exact Hj1|].
  split. { unfold bin_holds. cbn [fst snd]. rewrite !nth_edges by lia.
    split; apply in_bin_between; auto. }
  split; [exact Hcnt|].
  split; [exact HB|]. split. { unfold bin_centre. rewrite !nth_edges by lia. reflexivity. }
  split; [exact Hmax|].
  intros Hst. assert (b0 = (i1, j1)).
  { destruct (Nat.eq_dec (fst b0) i1) as [E1|E1]; [destruct (Nat.eq_dec (snd b0) j1) as [E2|E2]|].
    - destruct b0; cbn in *; congruence.
    - assert (X := Hst b0 ltac:(intros ->; auto)). lia.
    - assert (X := Hst b0 ltac:(intros ->; auto)). lia. }
  subst b0. cbn [fst snd]. unfold half_bin.
  split; apply in_bin_centre; auto; lra.
Qed.

(** C106: in that case, if the tolerance covers half a bin, all pairs on the line are
    candidates of the first Hough line. *)
Lemma hough_line_candidates_main :
  forall argsort (c c' : calib xr) pairs n xb yb lo_s hi_s lo_i hi_i r rt lt,
    (forall l, is_argsort l (argsort l)) -> hough_ready c pairs n xb yb lo_s hi_s lo_i hi_i ->
    h_rt (c_hp c) = Some rt -> h_lt (c_hp c) = Some lt ->
    do_hough_transform argsort c false = (c', r) ->
    forall k i tol, (k < n)%nat -> (lo_i <= i <= hi_i)%R ->
      let s := slope_at lo_s hi_s n k in
      support s i pairs <> [] ->
      (forall p, In p (support s i pairs) ->
         (half_bin lo_s hi_s xb * Rabs (fst p) + half_bin lo_i hi_i yb <= tol)%R) ->
      exists hist xe ye bin first others,
        stored (c_ht c') hist xe ye /\ bin_holds xe ye bin s i /\
        candidates_linear c' (Fin tol) = Ok (first :: others) /\
        (strictly_most hist bin ->
         forall p, In p (support s i pairs) -> In (FinP p) (map fst first)).
Proof.
  intros argsort c c' pairs n xb yb lo_s hi_s lo_i hi_i r rt lt Ha Hr Hrt Hlt H k i tol Hk Hki s Hsup Htol.
  destruct (do_hough_ready _ _ _ _ _ _ _ _ _ _ _ _ Ha Hr H) as (_ & Ep & Eh & _).
  destruct (hough_votes_main _ _ _ _ _ _ _ _ _ _ _ _ Ha Hr H) as (_ & V).
  destruct (V k i Hk Hki Hsup) as (hist & xe & ye & bin & b0 & m0 & i0 & rest & Hh & _ & _ & Hc & _ & Hl & _ & _ & Hclose).
  destruct Hr as (Hp & _).
  destruct (linear_candidates_exact_main _ _ c' _ (map FinP pairs) rt lt (Fin tol) Hl) as (cs & Hcs & Len & Hsel).
  - congruence.
  - congruence.
  - congruence.
  - destruct cs as [|first others]; [discriminate|].
    exists hist, xe, ye, bin, first, others. split; [exact Hh|]. split; [exact Hc|]. split; [exact Hcs|].
    intros Hst p Hin. destruct (Hclose Hst) as [C1 C2].
    rewrite (Hsel 0%nat (Fin m0) (Fin i0) first eq_refl eq_refl).
    apply filter_In. specialize (Htol p Hin). apply filter_In in Hin. destruct Hin as [Hin E].
    split; [apply in_map; exact Hin|].
    destruct (Reqb_spec (snd p) (s * fst p + i)) as [E'|]; [|discriminate].
    change (Rleb (Rabs (m0 * fst p + i0 - snd p)) tol = true).
    destruct (Rleb_spec (Rabs (m0 * fst p + i0 - snd p)) tol) as [|G]; auto. exfalso.
    fold s in C1. rewrite E' in G.
    replace (m0 * fst p + i0 - (s * fst p + i))%R with ((m0 - s) * fst p + (i0 - i))%R in G by ring.
    pose proof (Rabs_triang ((m0 - s) * fst p) (i0 - i)) as T. rewrite Rabs_mult in T.
    pose proof (Rabs_pos (fst p)). assert (Rabs (m0 - s) * Rabs (fst p) <= half_bin lo_s hi_s xb * Rabs (fst p))%R.
    { apply Rmult_le_compat_r; auto. }
    lra.
Qed.

Lemma nearest_nat n t : (0 <= t <= INR n)%R -> exists k, (k <= n)%nat /\ (Rabs (t - INR k) <= 1 / 2)%R.
Proof.
  induction n as [|n IH].
  - cbn. intros H. exists 0%nat. split; auto. cbn. apply Rabs_le. lra.
  - rewrite S_INR. intros H. destruct (Rle_lt_dec t (INR n)) as [L|L].
    + destruct (IH ltac:(lra)) as (k & Hk & E). exists k. split; [lia|auto].
    + destruct (Rle_lt_dec t (INR n + 1 / 2)) as [L'|L'].
      * exists n. split; [lia|]. apply Rabs_le. lra.
      * exists (S n). split; [lia|]. rewrite S_INR. apply Rabs_le. lra.
Qed.

(** C107: for any line whose slope is between the limits there is a tried slope
    within half a step of it, and every pair on the line votes for a line of that
    slope whose intercept is off by at most half a step times its pixel. *)
Lemma hough_near_line_main :
  forall argsort (c c' : calib xr) pairs n xb yb lo_s hi_s lo_i hi_i r s i,
    (forall l, is_argsort l (argsort l)) -> hough_ready c pairs n xb yb lo_s hi_s lo_i hi_i ->
    do_hough_transform argsort c false = (c', r) ->
    (n >= 2)%nat -> (lo_s <= s <= hi_s)%R ->
    let half_step := ((hi_s - lo_s) / INR (n - 1) / 2)%R in
    exists s' points,
      (Rabs (s' - s) <= half_step)%R /\ c_points c' = Some (HArr points) /\
      forall p, In p (support s i pairs) ->
        (lo_i + half_step * Rabs (fst p) <= i <= hi_i - half_step * Rabs (fst p))%R ->
        exists i', In (Fin s', Fin i') points /\ (Rabs (i' - i) <= half_step * Rabs (fst p))%R.
Proof.
  intros argsort c c' pairs n xb yb lo_s hi_s lo_i hi_i r s i Ha Hr H Hn2 Hs half_step.
  destruct (do_hough_ready _ _ _ _ _ _ _ _ _ _ _ _ Ha Hr H) as (_ & _ & _ & Hpts & _).
  assert (Pn : (0 < INR (n - 1))%R) by (apply lt_0_INR; lia).
  assert (K : exists k, (k < n)%nat /\ (Rabs (slope_at lo_s hi_s n k - s) <= half_step)%R).
  { destruct (Rle_lt_dec hi_s lo_s) as [E|L].
    - exists 0%nat. split; [lia|]. unfold slope_at, half_step. destruct (Nat.eqb_spec n 1); [lia|].
      assert (hi_s = lo_s) by lra. subst hi_s. assert (s = lo_s) by lra. subst s.
      replace (lo_s + INR 0 * (lo_s - lo_s) / INR (n - 1) - lo_s)%R with 0%R by (field; lra).
      rewrite Rabs_R0. apply Req_le. field. lra.
    - destruct (nearest_nat (n - 1) ((s - lo_s) / (hi_s - lo_s) * INR (n - 1))) as (k & Hk & E).
      { assert (0 <= (s - lo_s) / (hi_s - lo_s) <= 1)%R; [|nra].
        unfold Rdiv. assert (0 < / (hi_s - lo_s))%R by (apply Rinv_0_lt_compat; lra). split; [nra|].
        apply (Rmult_le_reg_r (hi_s - lo_s)); [lra|]. rewrite Rmult_assoc, Rinv_l by lra. lra. }
      exists k. split; [lia|]. unfold slope_at, half_step. destruct (Nat.eqb_spec n 1); [lia|].
      set (t := ((s - lo_s) / (hi_s - lo_s) * INR (n - 1))%R) in *.
      replace (lo_s + INR k * (hi_s - lo_s) / INR (n - 1) - s)%R with (- ((t - INR k) * ((hi_s - lo_s) / INR (n - 1))))%R.
      2:{ unfold t. field. lra. }
      rewrite Rabs_Ropp, Rabs_mult.
      assert (0 <= (hi_s - lo_s) / INR (n - 1))%R.
      { unfold Rdiv. apply Rmult_le_pos; [lra|]. left. apply Rinv_0_lt_compat. lra. }
      rewrite (Rabs_pos_eq ((hi_s - lo_s) / INR (n - 1))) by auto. nra. }
  destruct K as (k & Hk & Hks). exists (slope_at lo_s hi_s n k). eexists.
  split; [exact Hks|]. split; [exact Hpts|]. intros p Hp Hlim.
  apply filter_In in Hp. destruct Hp as [Hp E].
  destruct (Reqb_spec (snd p) (s * fst p + i)) as [E'|]; [|discriminate].
  set (s' := slope_at lo_s hi_s n k) in *.
  exists (snd p - s' * fst p)%R.
  assert (D : (Rabs (snd p - s' * fst p - i) <= half_step * Rabs (fst p))%R).
  { rewrite E'. replace (s * fst p + i - s' * fst p - i)%R with (- ((s' - s) * fst p))%R by ring.
    rewrite Rabs_Ropp, Rabs_mult. apply Rmult_le_compat_r; [apply Rabs_pos|exact Hks]. }
  split; [|exact D].
  change (Fin s', Fin (snd p - s' * fst p)) with (FinP (line_with s' p)). apply in_map.
  apply filter_In. split.
  - apply in_flat_map. exists k. split; [apply in_seq; lia|]. apply in_map. exact Hp.
  - cbn [line_with snd fst]. pose proof (Rle_abs (snd p - s' * fst p - i)). pose proof (Rle_abs (- (snd p - s' * fst p - i))) as D'. rewrite Rabs_Ropp in D'.
    destruct (Rleb_spec lo_i (snd p - s' * fst p)); [|lra].
    destruct (Rleb_spec (snd p - s' * fst p) hi_i); [reflexivity|lra].
Qed.

(** Non-vacuity: a calibrator that is ready, with three of four pairs on the line of
    slope 2 and intercept 100. *)
Definition vote_state {A} {N : Num A} (lit : Z -> A) : calib A :=
  set_c_hp (mkH (Some 3%Z) (Some 3%nat) (Some 12%nat) None None (Some (lit 5%Z)) (Some (lit 5%Z))
              (Some (lit 50%Z)) (Some (lit 150%Z)) (Some (lit 1%Z)) (Some (lit 3%Z)))
  (set_c_pairs (PArr [(lit 10, lit 120); (lit 20, lit 140); (lit 20, lit 150); (lit 30, lit 160)]%Z)
     (calib_blank [lit 10; lit 20; lit 30]%Z None)).

Example hough_ready_example_main :
  let pairs := [(10, 120); (20, 140); (20, 150); (30, 160)]%R in
  hough_ready (vote_state (fun z => Fin (IZR z))) pairs 3 3 12 1 3 50 150 /\
  slope_at 1 3 3 1 = 2%R /\ support 2 100 pairs = [(10, 120); (20, 140); (30, 160)]%R.
Proof.
  cbv zeta. split; [|split].
  - unfold hough_ready. cbn. repeat split; try (lia || lra); discriminate.
  - unfold slope_at. cbn. lra.
  - unfold support. cbn [filter fst snd].
    repeat match goal with |- context [Reqb ?a ?b] => destruct (Reqb_spec a b); try (exfalso; lra) end. reflexivity.
Qed.

(** The same state in double precision: the bin of that line has strictly most votes,
    the first line is (2, 102.5), and its candidates are the three pairs. *)
Example hough_votes_example_main :
  let c' := fst (do_hough_transform argsort_stable (vote_state fz) false) in
  option_map (fun h => (count_at h (1, 6), list_max (List.concat h), List.length (filter (Nat.eqb 3) (List.concat h))))%nat
    (ho_hist (c_ht c')) = Some (3, 3, 1)%nat /\
  option_map (fun l => match l with (m, i) :: _ => nabs (m -' fz 2) <=' fd 1 (-9) && (i ==' fd 1025 (-1)) | _ => false end)
    (c_lines c') = Some true /\
  match candidates_linear c' (fz 5) return Prop with
  | Ok (first :: _) => map fst first = [(fz 10, fz 120); (fz 20, fz 140); (fz 30, fz 160)]
  | _ => False
  end.
Proof. vm_compute. auto. Qed.

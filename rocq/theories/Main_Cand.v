(** * Main_Cand: the properties of the candidate selection with their proofs.  The
    statements are repeated, without proofs, in Props_Cand.v. *)

From Coq Require Import ZArith Bool List String Lia Reals Lra Sorted Permutation.
From Verif Require Import Num F64 XReal Py Np NpFacts ArgsortFacts EdlenFacts Util Atlas Hough PolyEval Calib Cand SpecCand CandFacts.
Import ListNotations.
Local Open Scope num_scope.

(** C55: the selected pairs. *)
Lemma linear_candidates_exact_main :
  forall (A : Type) (N : Num A) (c : calib A) lines pairs rt lt tol,
    c_lines c = Some lines -> c_pairs c = PArr pairs ->
    h_rt (c_hp c) = Some rt -> h_lt (c_hp c) = Some lt ->
    exists cs, candidates_linear c tol = Ok cs /\ List.length cs = List.length lines /\
      forall k m i cand, nth_error lines k = Some (m, i) -> nth_error cs k = Some cand ->
        map fst cand = filter (fun q => nabs (m *' fst q +' i -' snd q) <=' tol) pairs.
Proof.
  intros A N c lines pairs rt lt tol Hl Hp Hr Ht. unfold candidates_linear. rewrite Hl, Hp, Hr, Ht.
  exists (map (line_candidates rt lt tol pairs) lines). split; [destruct lines; reflexivity|].
  split; [apply map_length|]. intros k m i cand Hk Hc.
  rewrite nth_error_map, Hk in Hc. cbn in Hc. injection Hc as <-.
  unfold line_candidates. rewrite map_map. cbn [fst snd].
  rewrite <- (map_id (filter _ pairs)) at 2. apply map_ext. intros [a b]; reflexivity.
Qed.

(** C55: the weights; finite pairs, lines and tolerances, exact reals. *)
Lemma linear_candidates_weight_main :
  forall (c : calib xr) lines pairs rt lt tol,
    c_lines c = Some (map (fun q => (Fin (fst q), Fin (snd q))) lines) ->
    c_pairs c = PArr (map (fun q => (Fin (fst q), Fin (snd q))) pairs) ->
    h_rt (c_hp c) = Some (Fin rt) -> h_lt (c_hp c) = Some (Fin lt) ->
    exists cs, candidates_linear c tol = Ok cs /\
      forall cand x y w, In cand cs -> In (x, y, w) cand ->
        exists r, w = Fin r /\ (0 < r <= 1)%R.
Proof.
  intros c lines pairs rt lt tol Hl Hp Hr Ht. unfold candidates_linear. rewrite Hl, Hp, Hr, Ht.
  exists (map (line_candidates (Fin rt) (Fin lt) tol
             (map (fun q : R * R => (Fin (fst q), Fin (snd q))) pairs))
             (map (fun q : R * R => (Fin (fst q), Fin (snd q))) lines)).
  split; [destruct lines; reflexivity|].
  intros cand x y w Hc' Hw.
  rewrite map_map in Hc'. apply in_map_iff in Hc'. destruct Hc' as ([m i] & <- & _).
  unfold line_candidates in Hw. apply in_map_iff in Hw. destruct Hw as (q & E & Hq).
  apply filter_In in Hq. destruct Hq as [Hq _]. apply in_map_iff in Hq. destruct Hq as ([a b] & <- & _).
  cbn [fst snd] in E. pose proof (f_equal snd E) as Ew. cbn [snd] in Ew. rewrite <- Ew.
  rewrite nZ_Fin. change (nlit 11775 (-4)) with (Fin (Rlit 11775 (-4))).
  change (Fin m *' Fin a +' Fin i) with (Fin (m * a + i)).
  change ((Fin rt +' Fin lt) *' Fin (Rlit 11775 (-4))) with (Fin ((rt + lt) * Rlit 11775 (-4))).
  rewrite gauss_real. eexists. split; [reflexivity|]. rewrite Rmult_1_l.
  split; [apply exp_pos|]. rewrite <- exp_0. apply exp_le_mono, gauss_exponent_le.
Qed.

Definition cand_state : calib f64 :=
  let h := c_hp (calib_blank [] None) in
  set_c_hp (mkH (h_num_slopes h) (h_xbins h) (h_ybins h) (h_minw h) (h_maxw h) (Some (fz 500)) (Some (fz 100))
              (h_min_intercept h) (h_max_intercept h) (h_min_slope h) (h_max_slope h))
  (set_c_lines (Some [(fz 2, fz 100); (fz 1, fz 120)])
  (set_c_pairs (PArr [(fz 10, fz 125); (fz 10, fz 135); (fz 20, fz 145)]) (calib_blank [fz 10; fz 20] None))).

Example linear_candidates_exact_example_main :
  exists cs, candidates_linear cand_state (fz 5) = Ok cs /\
    map (map fst) cs = [[(fz 10, fz 125); (fz 20, fz 145)]; [(fz 10, fz 125); (fz 10, fz 135); (fz 20, fz 145)]].
Proof. eexists. split; [vm_compute; reflexivity|vm_compute; reflexivity]. Qed.

(** C56: np.argsort is any function that meets its contract. *)
Lemma common_candidates_main :
  forall (A : Type) (N : Num A) (O : NumOrder A) argsort cs top weighted,
    (forall l, is_argsort l (argsort l)) ->
    let rows := List.concat cs in
    (forall x y w, In (x, y, w) rows -> nisnan x = false /\ nisnan y = false) ->
    exists ps blocks,
      distinct_values (map row_x rows) ps /\
      Forall2 (fun p block =>
        exists us, distinct_values (map row_y (rows_of rows p)) us /\
          List.length block = Nat.min top (List.length us) /\
          forall y, In y block -> exists x w, In (x, y, w) rows /\ x ==' p = true) ps blocks /\
      fst (most_common_candidates argsort cs top weighted) =
        List.concat (map (fun q => repeat (fst q) (List.length (snd q))) (combine ps blocks)) /\
      snd (most_common_candidates argsort cs top weighted) = List.concat blocks.
Proof.
  intros A N O argsort cs top weighted Ha rows Hn.
  assert (Nx : no_nan (map row_x rows)).
  { intros x Hx. apply in_map_iff in Hx. destruct Hx as ([[a b] w] & <- & Hr). apply (Hn a b w Hr). }
  assert (Ny : forall p, no_nan (map row_y (rows_of rows p))).
  { intros p y Hy. apply in_map_iff in Hy. destruct Hy as ([[a b] w] & <- & Hr).
    apply filter_In in Hr. apply (Hn a b w (proj1 Hr)). }
  set (ps := np_unique (map row_x rows)).
  set (block := fun p => common_for argsort rows top weighted p).
  exists ps, (map block ps). split; [apply np_unique_distinct; auto|]. split.
  - clearbody ps. induction ps as [|p r IH]; cbn; constructor; auto.
    exists (np_unique (map row_y (rows_of rows p))). split; [apply np_unique_distinct; auto|].
    split; [apply common_for_length; auto|].
    intros y Hy. apply common_for_incl in Hy. apply in_map_iff in Hy.
    destruct Hy as ([[a b] w] & <- & Hr). apply filter_In in Hr. destruct Hr as [Hr E]. eauto.
  - rewrite most_common_blocks by auto. cbn [fst snd]. fold rows ps block.
    split; [|rewrite <- flat_map_concat_map; reflexivity].
    rewrite flat_map_concat_map. f_equal. clearbody ps. induction ps as [|p r IH]; auto.
    cbn [map combine fst snd]. rewrite IH. reflexivity.
Qed.

(** Three candidates of peak 10 (4000 twice, 5000 once), two of peak 20. *)
Definition ex_cands : list (cand f64) :=
  [[(fz 10, fz 5000, fz 1); (fz 10, fz 4000, fz 1)]; [(fz 10, fz 4000, fz 1); (fz 20, fz 6000, fz 1)]; [(fz 20, fz 6000, fz 1)]].
Example common_candidates_example_main :
  most_common_candidates argsort_stable ex_cands 2 true = ([fz 10; fz 10; fz 20], [fz 5000; fz 4000; fz 6000]).
Proof. vm_compute; reflexivity. Qed.

(** C57 fails: the ranks of the distinct wavelengths index the list that still has
    the repeats.  (a) peak 10 has the wavelengths 5, 5, 7 and two are wanted: 5 is
    returned twice.  (b) 7 once and 5 twice, one wanted: 7 is returned. *)
Lemma most_common_kept_refuted_main :
  (let cs := [[(fz 10, fz 5, fz 1)]; [(fz 10, fz 5, fz 1)]; [(fz 10, fz 7, fz 1)]] in
   most_common_candidates argsort_stable cs 2 false = ([fz 10; fz 10], [fz 5; fz 5]) /\
   most_common_candidates argsort_stable cs 2 true = ([fz 10; fz 10], [fz 5; fz 5])) /\
  (let cs := [[(fz 10, fz 7, fz 1)]; [(fz 10, fz 5, fz 1)]; [(fz 10, fz 5, fz 1)]] in
   most_common_candidates argsort_stable cs 1 false = ([fz 10], [fz 7]) /\
   most_common_candidates argsort_stable cs 1 true = ([fz 10], [fz 7])).
Proof. vm_compute. auto. Qed.

(** Real-valued candidate rows. *)
Definition lift_row (r : R * R * R) : xr * xr * xr := (Fin (fst (fst r)), Fin (snd (fst r)), Fin (snd r)).
(** Total weight (or number) of the rows of peak p with wavelength y. *)
Fixpoint total (weighted : bool) (rs : list (R * R * R)) (p y : R) : R :=
  match rs with
  | [] => 0%R
  | (a, b, w) :: r =>
      ((if Req_EM_T a p then if Req_EM_T b y then if weighted then w else 1 else 0 else 0)
       + total weighted r p y)%R
  end.

Lemma NoDup_firstn' {T} k (l : list T) : NoDup l -> NoDup (firstn k l).
Proof.
  intros H. revert k. induction H as [|x l Hx H IH]; intros [|k]; cbn; constructor; auto.
  intros Hi. apply Hx. rewrite <- (firstn_skipn k l). apply in_app_iff. auto.
Qed.

Lemma np_sum_acc (l : list R) acc :
  fold_left nadd (map Fin l) (Fin acc) = Fin (acc + fold_right Rplus 0 l)%R.
Proof.
  revert acc. induction l as [|x r IH]; intros acc; cbn [map fold_left fold_right].
  - f_equal. lra.
  - change (Fin acc +' Fin x) with (Fin (acc + x)). rewrite IH. f_equal. lra.
Qed.
Lemma np_sum_Fin (l : list R) : np_sum (map Fin l) = Fin (fold_right Rplus 0 l)%R.
Proof. unfold np_sum. rewrite nZ_Fin, np_sum_acc. f_equal. lra. Qed.

Lemma agg_total (weighted : bool) (rs : list (R * R * R)) p y :
  let sel := filter (fun r : xr * xr * xr => row_x r ==' Fin p) (map lift_row rs) in
  np_sum (mask_select (map (fun v : xr => v ==' Fin y) (map row_y sel))
            (if weighted then map row_w sel else map (fun _ : xr * xr * xr => nZ 1 : xr) sel)) = Fin (total weighted rs p y).
Proof.
  cbv zeta.
  set (val := fun r : R * R * R => if weighted then snd r else 1%R).
  assert (E : forall acc, fold_left nadd
     (mask_select (map (fun v : xr => v ==' Fin y) (map row_y (filter (fun r : xr * xr * xr => row_x r ==' Fin p) (map lift_row rs))))
            (if weighted then map row_w (filter (fun r : xr * xr * xr => row_x r ==' Fin p) (map lift_row rs))
             else map (fun _ : xr * xr * xr => nZ 1 : xr) (filter (fun r : xr * xr * xr => row_x r ==' Fin p) (map lift_row rs)))) (Fin acc)
     = Fin (acc + total weighted rs p y)%R).
  { induction rs as [|[[a b] w] r IH]; intros acc; cbn [map filter total].
    - rewrite mask_select_nil_l. cbn [fold_left]. f_equal. lra.
    - change (row_x (lift_row (a, b, w)) ==' Fin p) with (Reqb a p). unfold Reqb.
      destruct (Req_EM_T a p) as [Ea|Ea].
      2:{ rewrite IH. f_equal. lra. }
      destruct weighted; cbn [map]; rewrite mask_select_cons;
        change (row_y (lift_row (a, b, w)) ==' Fin y) with (Reqb b y);
        unfold Reqb; destruct (Req_EM_T b y) as [Eb|Eb].
      + cbn [fold_left]. change (Fin acc +' row_w (lift_row (a, b, w))) with (Fin (acc + w)). rewrite IH. f_equal. lra.
      + rewrite IH. f_equal. lra.
      + cbn [fold_left]. rewrite nZ_Fin. change (Fin acc +' Fin 1) with (Fin (acc + 1)). rewrite <- nZ_Fin. rewrite IH. f_equal. lra.
      + rewrite IH. f_equal. lra. }
  unfold np_sum. rewrite (nZ_Fin 0). rewrite E. f_equal. lra.
Qed.

(** C57, the part that holds: when the candidates of a peak have pairwise different
    wavelengths in increasing order (for instance when there is one Hough line and
    the atlas is sorted), no kept wavelength is repeated and no discarded wavelength
    has a larger weight (count) than a kept one.  Exact reals. *)
Lemma most_common_kept_partial_main :
  forall argsort (cs : list (cand xr)) rs top weighted p,
    (forall l, is_argsort l (argsort l)) ->
    List.concat cs = map lift_row rs ->
    StronglySorted Rlt (map (fun r => snd (fst r)) (filter (fun r => Reqb (fst (fst r)) p) rs)) ->
    let out := most_common_candidates argsort cs top weighted in
    let kept := map snd (filter (fun q => fst q ==' Fin p) (combine (fst out) (snd out))) in
    NoDup kept /\
    forall y y' a w, In (Fin y) kept -> In (p, y', w) rs -> a = Fin y' -> ~ In a kept ->
      (total weighted rs p y' <= total weighted rs p y)%R.
Proof.
  intros argsort cs rs top weighted p Ha Hc S out kept.
  set (sel := filter (fun r : xr * xr * xr => row_x r ==' Fin p) (map lift_row rs)).
  set (ys := map (fun r : R * R * R => snd (fst r)) (filter (fun r => Reqb (fst (fst r)) p) rs)) in S.
  assert (Ey : map row_y sel = map Fin ys).
  { unfold sel, ys. clear. induction rs as [|[[a b] w] r IH]; auto.
    cbn [map filter fst snd]. change (row_x (lift_row (a, b, w)) ==' Fin p) with (Reqb a p).
    destruct (Reqb a p); cbn [map]; rewrite IH; reflexivity. }
  assert (Sy : StronglySorted (fun x y : xr => x <' y = true) (map Fin ys)).
  { apply SS_map. eapply SS_impl; [|exact S]. intros x y _ _ L. change (Rltb x y = true).
    destruct (Rltb_spec x y); auto. }
  assert (Ek : kept = if existsb (fun x => x ==' Fin p) (np_unique (map row_x (List.concat cs)))
                      then common_for argsort (List.concat cs) top weighted (Fin p) else []).
  { unfold kept, out. rewrite most_common_blocks by auto. cbn [fst snd].
    rewrite combine_flat by (intros; apply repeat_length).
    assert (Nx : no_nan (map row_x (List.concat cs))).
    { rewrite Hc. intros x Hx. rewrite map_map in Hx. apply in_map_iff in Hx.
      destruct Hx as ([[a b] w] & <- & _). reflexivity. }
    pose proof (np_unique_sorted _ Nx) as SU.
    assert (FU : forall x, In x (np_unique (map row_x (List.concat cs))) -> exists r, x = Fin r).
    { intros x Hx. apply np_unique_incl in Hx. rewrite Hc, map_map in Hx. apply in_map_iff in Hx.
      destruct Hx as ([[a b] w] & <- & _). exists a. reflexivity. }
    revert SU FU. generalize (np_unique (map row_x (List.concat cs))). intros l SU FU.
    assert (K : forall q, filter (fun q : xr * xr => fst q ==' Fin p)
        (combine (repeat q (List.length (common_for argsort (List.concat cs) top weighted q)))
                 (common_for argsort (List.concat cs) top weighted q)) =
        if q ==' Fin p then map (pair q) (common_for argsort (List.concat cs) top weighted q) else []).
    { intros q. rewrite combine_repeat. induction (common_for argsort (List.concat cs) top weighted q) as [|z r IH].
      - destruct (q ==' Fin p); auto.
      - cbn [map filter fst]. rewrite IH. destruct (q ==' Fin p); auto. }
    induction l as [|x r IH]; auto. inversion SU as [|? ? S1 F]; subst.
    cbn [flat_map]. rewrite filter_app, map_app, K. rewrite IH; auto.
    2:{ intros z Hz. apply FU. right; auto. }
    cbn [existsb]. destruct (FU x (or_introl eq_refl)) as [v ->].
    change (Fin v ==' Fin p) with (Reqb v p). destruct (Reqb_spec v p) as [->|Hne]; auto.
    assert (E : existsb (fun x : xr => x ==' Fin p) r = false).
    { destruct (existsb _ r) eqn:E; auto. apply existsb_exists in E. destruct E as (z & Hz & Ez).
      rewrite Forall_forall in F. specialize (F z Hz). apply ltb_neqb in F. rewrite eqb_sym in F. congruence. }
    rewrite E, app_nil_r, map_map. cbn [orb snd]. apply map_id. }
  assert (Ec : common_for argsort (List.concat cs) top weighted (Fin p) =
     gather (map Fin ys) (firstn (Nat.min top (List.length ys))
        (argsort (map nopp (map (fun y => Fin (total weighted rs p y)) ys))))).
  { unfold common_for. rewrite Hc. fold sel. rewrite Ey, np_unique_strict by auto. rewrite !map_length.
    do 4 f_equal. rewrite map_map. apply map_ext. intros y.
    pose proof (agg_total weighted rs p y) as E. cbv zeta in E. fold sel in E. rewrite Ey in E. exact E. }
  assert (Nk : NoDup (common_for argsort (List.concat cs) top weighted (Fin p))).
  { rewrite Ec. apply gather_NoDup.
    - apply (SS_NoDup (fun x y : xr => x <' y = true)); auto. intros x. rewrite ltb_irrefl. discriminate.
    - set (l := map nopp _). destruct (Ha l) as [P _].
      assert (ND : NoDup (argsort l)) by (apply (Permutation_NoDup (Permutation_sym P)), seq_NoDup).
      apply NoDup_firstn'; exact ND. }
  split.
  { rewrite Ek. destruct (existsb _ _); [exact Nk|constructor]. }
  intros y y' a w Hy Hr -> Hn.
  rewrite Ek in Hy, Hn. destruct (existsb _ _); [|destruct Hy].
  rewrite Ec in Hy, Hn. set (l := map nopp _) in *. set (n := Nat.min top (List.length ys)) in *.
  apply gather_In in Hy. destruct Hy as (i & Hi & Ei).
  assert (In y' ys) as Hy'.
  { unfold ys. apply in_map_iff. exists (p, y', w). split; auto. apply filter_In. split; auto.
    cbn. destruct (Reqb_spec p p); auto. }
  apply In_nth_error in Hy'. destruct Hy' as [j Ej].
  assert (Hj : In j (skipn n (argsort l))).
  { destruct (Ha l) as [P _].
    assert (In j (argsort l)) as H.
    { apply (Permutation_in _ (Permutation_sym P)). apply in_seq. unfold l. rewrite !map_length.
      assert (j < List.length ys)%nat by (apply nth_error_Some; congruence). lia. }
    rewrite <- (firstn_skipn n) in H. apply in_app_iff in H. destruct H as [H|H]; auto.
    exfalso. apply Hn. apply gather_In. exists j. split; auto. rewrite nth_error_map, Ej. reflexivity. }
  destruct (Ha l) as [_ SA]. destruct (SS_firstn _ n _ SA) as [_ X].
  specialize (X i j Hi Hj). rewrite nth_error_map in Ei.
  destruct (nth_error ys i) as [yi|] eqn:Eyi; [|discriminate]. cbn in Ei. injection Ei as ->.
  specialize (X (Fin (- total weighted rs p y)) (Fin (- total weighted rs p y'))).
  unfold l in X. rewrite !nth_error_map, Eyi, Ej in X. specialize (X eq_refl eq_refl).
  unfold np_lt in X. apply orb_false_iff in X. destruct X as [X _].
  change (Rltb (- total weighted rs p y') (- total weighted rs p y) = false) in X.
  destruct (Rltb_spec (- total weighted rs p y') (- total weighted rs p y)); [discriminate|]. lra.
Qed.

Example most_common_kept_example_main :
  most_common_candidates argsort_stable [[(fz 10, fz 5, fd 2 (-1)); (fz 10, fz 6, fd 9 (-1)); (fz 10, fz 7, fd 5 (-1))]] 2 true
  = ([fz 10; fz 10], [fz 6; fz 7]).
Proof. vm_compute. reflexivity. Qed.

Lemma dict_get_entry {A} {N : Num A} (d : list (A * list A)) p ys : dict_get d p = Ok ys <-> entry_of d p ys.
Proof.
  split.
  - induction d as [|[k v] r IH]; cbn; [discriminate|]. destruct (k ==' p) eqn:E.
    + intros H. injection H as <-. exists [], r, k. repeat split; auto. intros q [].
    + intros H. destruct (IH H) as (b & a & k' & -> & Ek & Hb). exists ((k, v) :: b), a, k'.
      split; [reflexivity|]. split; auto. intros q [<-|Hq]; auto.
  - intros (b & a & k & -> & Ek & Hb). induction b as [|[k' v] b IH]; cbn; [rewrite Ek; reflexivity|].
    pose proof (Hb (k', v) (or_introl eq_refl)) as E. cbn in E. rewrite E. apply IH. intros q Hq. apply Hb. right; auto.
Qed.

(** C58.  d is the dictionary of candidates per peak, ev the polynomial. *)
Lemma bijective_matching_main :
  forall (A : Type) (N : Num A) (O : NumOrder A) (ev : A -> A) d peaks,
    pairwise_different peaks ->
    (forall p, In p peaks -> exists ys, entry_of d p ys /\ ys <> [] /\ no_nan ys) ->
    exists claims err mx my,
      (* every peak claims one of its candidates, none of them is nearer *)
      map (fun q => snd (fst q)) claims = peaks /\
      (forall e p y, In (e, p, y) claims ->
         exists ys, entry_of d p ys /\ nearest (ev p) ys e y) /\
      match_bijective ev d peaks = Ok (err, mx, my) /\
      List.length err = List.length my /\ List.length mx = List.length my /\
      (* no wavelength and no peak is used twice *)
      StronglySorted (fun a b => a <' b = true) my /\ pairwise_different mx /\ incl mx peaks /\
      (* each result is a claim, and no other claim on that wavelength is nearer *)
      (forall k e x w, nth_error err k = Some e -> nth_error mx k = Some x -> nth_error my k = Some w ->
         exists y, In (e, x, y) claims /\ y ==' w = true /\
           forall e' x' y', In (e', x', y') claims -> y' ==' w = true -> e' <' e = false) /\
      (* every claimed wavelength is assigned *)
      (forall e p y, In (e, p, y) claims -> exists w, In w my /\ w ==' y = true).
Proof.
  intros A N O ev d peaks Sp Hd0.
  assert (Hd : forall p, In p peaks -> exists ys, dict_get d p = Ok ys /\ ys <> [] /\ no_nan ys).
  { intros p Hp. destruct (Hd0 p Hp) as (ys & E & K). exists ys. split; auto. apply dict_get_entry; auto. }
  destruct (match_bijective_ok ev d peaks Sp Hd) as (rows & qs & _ & Em & Hr & Er & S1 & S2 & Hq & Hc & _).
  exists rows, (map q_err qs), (map q_x qs), (map snd qs).
  split; [exact Em|]. split.
  { intros e p y Hi. destruct (Hr e p y Hi) as (ys & E & K). exists ys. split; auto. apply dict_get_entry; auto. }
  split; [exact Er|].
  split; [rewrite !map_length; auto|]. split; [rewrite !map_length; auto|].
  split; auto. split; auto. split.
  { intros x Hx. apply in_map_iff in Hx. destruct Hx as ([[e x'] w] & <- & Hi).
    destruct (Hq e x' w Hi) as (y & Hy & _). rewrite <- Em. cbn.
    change x' with (q_x (e, x', y)). apply in_map; auto. }
  split.
  - intros k e x w He Hx Hw. rewrite nth_error_map in He, Hx, Hw.
    destruct (nth_error qs k) as [[[e0 x0] w0]|] eqn:E; [|discriminate].
    cbn in He, Hx, Hw. injection He as <-. injection Hx as <-. injection Hw as <-.
    destruct (Hq e0 x0 w0 (nth_error_In _ _ E)) as (y & H1 & H2 & H3).
    exists y. split; auto. split; auto. intros e' x' y' Hi Ey. apply (H3 (e', x', y')); auto.
  - intros e p y Hi. destruct (Hc _ Hi) as (q & Hqi & Eq). exists (snd q). split; auto.
    apply in_map; auto.
Qed.

(** Peaks 1, 2, 3 with predictions 10, 20, 30: peaks 1 and 2 both claim 16. *)
Example bijective_matching_example_main :
  let ev := fun x : f64 => x *' fz 10 in
  let d := [(fz 1, [fz 2; fz 16]); (fz 2, [fz 16; fz 27]); (fz 3, [fz 31])] in
  pairwise_different [fz 1; fz 2; fz 3] /\
  entry_of d (fz 2) [fz 16; fz 27] /\
  match_bijective ev d [fz 1; fz 2; fz 3] = Ok ([fz 4; fz 1], [fz 2; fz 3], [fz 16; fz 31]).
Proof.
  cbv zeta. split; [|split; [|vm_compute; reflexivity]].
  - unfold pairwise_different. repeat constructor.
  - exists [(fz 1, [fz 2; fz 16])], [(fz 3, [fz 31])], (fz 2). repeat split. intros q [<-|[]]. reflexivity.
Qed.

(** C80 fails: every row is sorted by itself, so that weight, peak and wavelength
    change places. *)
Lemma merge_keeps_pairs_refuted_main :
  merge_candidates [[(fz 10, fz 4000, fd 5 (-1))]] = [[fd 5 (-1); fz 10; fz 4000]] /\
  merge_candidates [[(fz 20, fz 4000, fz 1)]; [(fz 10, fz 3000, fz 1)]] =
    [[fz 1; fz 20; fz 4000]; [fz 1; fz 10; fz 3000]].
Proof. vm_compute. auto. Qed.

(** C80, the part that holds: one row per candidate, in the given order, with the
    same three numbers in increasing order. *)
Lemma merge_rows_partial_main :
  forall (A : Type) (N : Num A) (O : NumOrder A) (cs : list (cand A)),
    Forall2 (fun r m => Permutation m [fst (fst r); snd (fst r); snd r] /\
                        (nisnan (fst (fst r)) = false -> nisnan (snd (fst r)) = false -> nisnan (snd r) = false ->
                         StronglySorted (fun a b => a <=' b = true) m))
            (List.concat cs) (merge_candidates cs).
Proof.
  intros A N O cs. unfold merge_candidates. induction (List.concat cs) as [|r l IH]; cbn [map]; constructor; auto.
  split; [apply sort_by_perm|]. intros H1 H2 H3. 
  assert (NN : no_nan [row_x r; row_y r; row_w r]).
  { intros x [<-|[<-|[<-|[]]]]; auto. }
  pose proof (sort_by_np (fun x : A => x) [row_x r; row_y r; row_w r]) as S.
  change (sort_by (fun x : A => x) [row_x r; row_y r; row_w r]) with (np_sort [row_x r; row_y r; row_w r]) in S.
  eapply SS_impl; [|exact S]. cbn beta. intros x y Hx Hy L.
  apply (Permutation_in _ (sort_by_perm _ _)) in Hx. apply (Permutation_in _ (sort_by_perm _ _)) in Hy.
  unfold np_lt in L. apply orb_false_iff in L. destruct L as [L _].
  apply ltb_false_leb; auto.
Qed.

(** C85 fails: numpy cannot subtract arrays of different lengths.  For every
    polynomial, every tolerance and all random offsets. *)
Lemma poly_candidates_sizes_refuted_main :
  forall (A : Type) (N : Num A) rnd (c : calib A) tol co at_ l0 lines rt k,
    (forall n, List.length (rnd n) = n) ->
    c_coeff c = Some co -> c_atlas c = Some at_ -> c_lines c = Some (l0 :: lines) ->
    h_rt (c_hp c) = Some rt -> c_kind c = Some k ->
    List.length (c_peaks c) <> List.length (get_lines at_) ->
    (2 <= List.length (c_peaks c))%nat -> (2 <= List.length (get_lines at_))%nat ->
    candidates_poly rnd c tol = Raise ValueError.
Proof.
  intros A N rnd c tol co at_ l0 lines rt k Hr Hc Ha Hl Ht Hk Hne H1 H2.
  unfold candidates_poly. rewrite Hc, Ha, Hl, Ht, Hk.
  specialize (Hr (List.length (l0 :: lines))). destruct (rnd (List.length (l0 :: lines))) as [|u us]; [discriminate|].
  cbn [map]. unfold offset_candidates at 1. unfold broadcast. rewrite map_length.
  assert (E : Nat.eqb (List.length (get_lines at_)) (List.length (c_peaks c)) = false)
    by (apply Nat.eqb_neq; lia).
  rewrite E. cbn [bind].
  destruct (get_lines at_) as [|x [|x' xr]]; cbn in H2; try lia.
  destruct (c_peaks c) as [|y [|y' yr]]; cbn in H1; try lia. reflexivity.
Qed.

(** C85: with exactly one peak, or exactly one line, and several of the other, numpy
    stretches the single one; the exception is then another one, or nothing is found. *)
Lemma poly_candidates_single_refuted_main :
  forall (A : Type) (N : Num A) rnd (c : calib A) tol co at_ lines rt k,
    (forall n, List.length (rnd n) = n) ->
    c_coeff c = Some co -> c_atlas c = Some at_ -> c_lines c = Some lines ->
    h_rt (c_hp c) = Some rt -> c_kind c = Some k ->
    List.length (c_peaks c) <> List.length (get_lines at_) ->
    List.length (c_peaks c) = 1%nat \/ List.length (get_lines at_) = 1%nat ->
    let near d p w := nabs (w -' (eval_kind k p co +' d)) <' tol in
    let offsets := map (fun u => u *' rt *' nZ 2 -' rt) (rnd (List.length lines)) in
    candidates_poly rnd c tol =
      if existsb (fun d => existsb (fun p => existsb (near d p) (get_lines at_)) (c_peaks c)) offsets
      then Raise IndexError else Ok [].
Proof.
  intros A N rnd c tol co at_ lines rt k Hr Hc Ha Hl Ht Hk Hne H1 near offsets.
  unfold candidates_poly. rewrite Hc, Ha, Hl, Ht, Hk. fold offsets.
  assert (G : forall d, offset_candidates rt tol (fun p => eval_kind k p co) (c_peaks c) (get_lines at_) d =
                if existsb (fun p => existsb (near d p) (get_lines at_)) (c_peaks c) then Raise IndexError else Ok None).
  { intros d. unfold offset_candidates, broadcast. rewrite map_length.
    replace (Nat.eqb (List.length (get_lines at_)) (List.length (c_peaks c))) with false
      by (symmetry; apply Nat.eqb_neq; lia).
    destruct H1 as [H1|H1].
    - destruct (c_peaks c) as [|p [|p' ps]]; try discriminate. cbn [map existsb]. rewrite orb_false_r.
      destruct (get_lines at_) as [|w [|w' ws]] eqn:Eg; [reflexivity|exfalso; apply Hne; reflexivity|].
      cbn [bind]. rewrite map_map.
      assert (E : existsb (fun b => b) (map (fun x => nabs (x -' (eval_kind k p co +' d)) <' tol) (w :: w' :: ws)) =
                  existsb (near d p) (w :: w' :: ws)).
      { generalize (w :: w' :: ws). intros l. induction l as [|z l IH]; [reflexivity|]. cbn [map existsb]. rewrite IH. reflexivity. }
      rewrite E. destruct (existsb (near d p) (w :: w' :: ws)); [|reflexivity].
      unfold mask_index at 1. rewrite map_length, Nat.eqb_refl. cbn [bind]. reflexivity.
    - destruct (get_lines at_) as [|w [|w' ws]] eqn:Eg; try discriminate.
      destruct (c_peaks c) as [|p [|p' ps]] eqn:Ep; [reflexivity|exfalso; apply Hne; reflexivity|].
      remember (map (fun q => eval_kind k q co +' d) (p :: p' :: ps)) as pr eqn:Epr.
      match goal with |- context[bind ?r _] => replace r with (@Ok (list A) (map (nsub w) pr)) by (destruct pr as [|? [|]]; reflexivity) end.
      cbn [bind]. rewrite map_map.
      assert (E : existsb (fun b => b) (map (fun x => nabs (w -' x) <' tol) pr) =
                  existsb (fun q => existsb (near d q) [w]) (p :: p' :: ps)).
      { rewrite Epr. generalize (p :: p' :: ps). intros l. induction l as [|z l IH]; [reflexivity|].
        cbn [map existsb] in *. rewrite IH, orb_false_r. reflexivity. }
      rewrite E. destruct (existsb (fun q => existsb (near d q) [w]) (p :: p' :: ps)); [|reflexivity].
      unfold mask_index at 1. rewrite map_length, Epr, map_length. reflexivity. }
  induction offsets as [|d ds IH]; [reflexivity|]. cbn [existsb]. rewrite G.
  destruct (existsb (fun p => existsb (near d p) (get_lines at_)) (c_peaks c)); [reflexivity|]. cbn [bind orb]. rewrite IH.
  match goal with |- context[existsb ?f ds] => destruct (existsb f ds) end; reflexivity.
Qed.

(** C85, the part that holds: with as many peaks as lines the search succeeds and
    compares, for every random number u and the offset (2u - 1) range_tolerance, the i-th
    peak with the i-th line only; the weight of a pair falls with its distance from the
    shifted polynomial. *)
Lemma poly_candidates_partial_main :
  forall (A : Type) (N : Num A) rnd (c : calib A) tol co at_ lines rt k,
    (forall n, List.length (rnd n) = n) ->
    c_coeff c = Some co -> c_atlas c = Some at_ -> c_lines c = Some lines ->
    h_rt (c_hp c) = Some rt -> c_kind c = Some k ->
    List.length (c_peaks c) = List.length (get_lines at_) ->
    let offsets := map (fun u => u *' rt *' nZ 2 -' rt) (rnd (List.length lines)) in
    let shifted d p := eval_kind k p co +' d in
    candidates_poly rnd c tol =
      Ok (filter (fun l => negb (Nat.eqb (List.length l) 0))
            (map (fun d =>
                    map (fun q => (q, nZ 1 *' nexp (nopp ((snd q -' shifted d (fst q)) *' (snd q -' shifted d (fst q)))
                                                    /' (nZ 2 *' (rt *' rt) +' nlit 1 (-9)))))
                      (filter (fun q => nabs (snd q -' shifted d (fst q)) <' tol)
                         (combine (c_peaks c) (get_lines at_)))) offsets)).
Proof.
  intros A N rnd c tol co at_ lines rt k Hr Hc Ha Hl Ht Hk He offsets shifted.
  unfold candidates_poly. rewrite Hc, Ha, Hl, Ht, Hk. fold offsets. clearbody offsets.
  set (loop := fix loop ds := match ds with [] => _ | _ :: _ => _ end).
  set (found := fun d => map (fun q => (q, _)) _).
  assert (K : forall d, exists o, offset_candidates rt tol (fun p => eval_kind k p co) (c_peaks c) (get_lines at_) d = Ok o /\
     match o with
     | Some cand => cand = found d /\ List.length cand <> 0%nat
     | None => found d = []
     end).
  { intros d. unfold offset_candidates, broadcast. rewrite map_length, He, Nat.eqb_refl. cbn [bind].
    set (ev := fun p => eval_kind k p co). change (eval_kind k) with (fun p q => eval_kind k p q).
    set (mask := map _ (map _ _)).
    set (close := fun q : A * A => nabs (snd q -' (eval_kind k (fst q) co +' d)) <' tol).
    assert (Em : mask = map close (combine (c_peaks c) (get_lines at_))).
    { unfold mask. revert He. generalize (c_peaks c) (get_lines at_). clear.
      induction l as [|x l IH]; intros [|y m] He; cbn in *; try discriminate; auto. f_equal. apply IH. lia. }
    assert (Lm : List.length mask = List.length (get_lines at_)).
    { rewrite Em, map_length, combine_length. lia. }
    unfold mask_index. rewrite Lm, map_length, He, Nat.eqb_refl. cbn [bind].
    assert (Ef : filter close (combine (c_peaks c) (get_lines at_)) =
                 combine (mask_select mask (c_peaks c)) (mask_select mask (get_lines at_))).
    { rewrite <- mask_select_map, <- Em.
      apply mask_select_combine; auto. }
    assert (Lx : List.length (mask_select mask (c_peaks c)) = List.length (mask_select mask (get_lines at_))).
    { rewrite !mask_select_length by lia. reflexivity. }
    assert (Ep : mask_select mask (map (fun p : A => ev p +' d) (c_peaks c)) = map (fun p => ev p +' d) (mask_select mask (c_peaks c))).
    { clear. generalize (c_peaks c) mask. induction l as [|x l IH]; intros [|b m]; cbn; auto.
      rewrite !mask_select_cons. destruct b; cbn; rewrite ?IH; auto. }
    assert (Fd : found d = map (fun q => (q, gauss (snd q) (nZ 1) (ev (fst q) +' d) rt)) (filter close (combine (c_peaks c) (get_lines at_))))
      by reflexivity.
    destruct (existsb (fun b => b) mask) eqn:Ex.
    - eexists. split; [reflexivity|]. cbn beta iota. rewrite Fd.
      match goal with |- ?a = ?b /\ _ => assert (Eq : a = b) end.
      { change (fun p : A => eval_kind k p co +' d) with (fun p : A => ev p +' d). rewrite Ef, Ep. revert Lx. generalize (mask_select mask (c_peaks c)) (mask_select mask (get_lines at_)). clear.
        induction l as [|x l IH]; intros [|y m] H1; cbn in *; try discriminate; auto.
        f_equal. apply IH; lia. }
      split; [exact Eq|]. rewrite Eq, map_length. intros X.
      apply existsb_exists in Ex. destruct Ex as (b & Hb & ->). rewrite Em in Hb. apply in_map_iff in Hb.
      destruct Hb as (q & E1 & E2). apply length_zero_iff_nil in X.
      assert (In q []) by (rewrite <- X; apply filter_In; auto). auto.
    - eexists. split; [reflexivity|]. cbn beta iota. rewrite Fd.
      destruct (filter close _) as [|q r] eqn:Eq; auto. exfalso.
      assert (Hq : In q (q :: r)) by (left; auto). rewrite <- Eq in Hq. apply filter_In in Hq.
      assert (existsb (fun b => b) mask = true); [|congruence].
      apply existsb_exists. exists true. split; auto. rewrite Em. apply in_map_iff. exists q. tauto. }
  clearbody found.
  induction offsets as [|d r IH]; [reflexivity|].
  destruct (K d) as (o & K1 & K2).
  cbn [loop]. rewrite K1. cbn [bind]. fold loop. rewrite IH. cbn [bind map filter].
  destruct o as [cand|].
  - destruct K2 as [<- K3]. destruct (Nat.eqb_spec (List.length cand) 0); [congruence|]. reflexivity.
  - rewrite K2. reflexivity.
Qed.

(** C85: a random number in [0, 1) gives an offset of at most the range tolerance, and
    every such offset can occur. *)
Lemma poly_offsets_main :
  forall rt d : R, (0 < rt)%R ->
    ((-rt <= d < rt)%R <-> exists u, (0 <= u < 1)%R /\ Fin d = Fin u *' Fin rt *' nZ 2 -' Fin rt).
Proof.
  intros rt d Hrt. rewrite nZ_Fin. split.
  - intros Hd. exists ((d + rt) / (2 * rt))%R. split.
    + split; [apply Rle_mult_inv_pos; lra|]. apply (Rmult_lt_reg_r (2 * rt)); [lra|].
      unfold Rdiv. rewrite Rmult_assoc, Rinv_l by lra. lra.
    + cbn. f_equal. field. lra.
  - intros (u & Hu & E). cbn in E. injection E as ->. nra.
Qed.

(** Two peaks and two lines; the polynomial maps 10 to 5000 and 20 to 4000 (a
    descending fit): no pair is found although both differ by nothing. *)
Definition poly_state : calib f64 :=
  let h := c_hp (calib_blank [] None) in
  set_c_hp (mkH (h_num_slopes h) (h_xbins h) (h_ybins h) (h_minw h) (h_maxw h) (Some (fz 5)) (Some (fz 100))
              (h_min_intercept h) (h_max_intercept h) (h_min_slope h) (h_max_slope h))
  (set_c_lines (Some [(fz 2, fz 100)]) (set_c_kind (Some FitPoly) (set_c_coeff (Some [fz 6000; fz (-100)])
  (set_c_atlas (Some (mkAtlas [mkAL (fz 4000) "Xe" (fz 1) None; mkAL (fz 5000) "Xe" (fz 1) None] (fz 0) (fz 9000) (fz 0)))
  (calib_blank [fz 10; fz 20] None))))).

Lemma poly_candidates_all_pairs_refuted_main :
  let p := fun x => eval_kind FitPoly x [fz 6000; fz (-100)] in
  p (fz 10) = fz 5000 /\ p (fz 20) = fz 4000 /\
  candidates_poly (fun n => repeat (fd 5 (-1)) n) poly_state (fz 10) = Ok [] /\
  candidates_poly (fun n => repeat (fd 5 (-1)) n) (set_c_peaks [fz 20; fz 10] poly_state) (fz 10) =
    Ok [[(fz 20, fz 4000, fz 1); (fz 10, fz 5000, fz 1)]].
Proof. vm_compute. auto. Qed.

Example poly_candidates_sizes_example_main :
  candidates_poly (fun n => repeat (fd 5 (-1)) n) (set_c_peaks [fz 20; fz 10; fz 15] poly_state) (fz 10) =
    Raise ValueError.
Proof. vm_compute. reflexivity. Qed.

(** One peak, two lines, one of them where the coefficients put the peak. *)
Example poly_candidates_single_example_main :
  candidates_poly (fun n => repeat (fd 5 (-1)) n) (set_c_peaks [fz 10] poly_state) (fz 10) = Raise IndexError /\
  candidates_poly (fun n => repeat (fd 5 (-1)) n) (set_c_peaks [fz 50] poly_state) (fz 10) = Ok [].
Proof. split; vm_compute; reflexivity. Qed.

(** * Main_Tolerance: larger tolerances never lose anything, with proofs.  The
    statements are repeated, without proofs, in Props_Tolerance.v. *)

From Coq Require Import ZArith Bool List String Ascii Lia Reals Lra Sorted Permutation.
From Verif Require Import RefineFacts Num F64 XReal Py Np NpFacts ArgsortFacts Util Models Atlas Hough HoughFacts PolyEval Calib SpecCalib CalibFacts Main_Calib Cand SpecCand CandFacts Main_Cand Plot SpecPlot Main_Plot.
Import ListNotations.
Local Open Scope num_scope.

(** C123: a larger candidate_tolerance keeps every linear candidate of every line. *)
Lemma candidates_monotone_main :
  forall (A : Type) (N : Num A) (O : NumOrder A) (c : calib A) lines pairs rt lt tol tol',
    c_lines c = Some lines -> c_pairs c = PArr pairs -> h_rt (c_hp c) = Some rt -> h_lt (c_hp c) = Some lt ->
    tol <=' tol' = true ->
    exists cs cs', candidates_linear c tol = Ok cs /\ candidates_linear c tol' = Ok cs' /\
      Forall2 (fun cand cand' => forall row, In row cand -> In row cand') cs cs'.
Proof.
  intros A N O c lines pairs rt lt tol tol' Hl Hp Hrt Hlt Ht. unfold candidates_linear. rewrite Hl, Hp, Hrt, Hlt.
  destruct lines as [|q r]; [do 2 exists []; auto|]. do 2 eexists. split; [reflexivity|]. split; [reflexivity|].
  generalize (q :: r). intros ls. induction ls as [|ln ls IH]; cbn [map]; constructor; auto.
  unfold line_candidates. intros row H. apply in_map_iff in H. destruct H as (p & E & Hf). apply in_map_iff. exists p. split; auto.
  apply filter_In in Hf. destruct Hf as (H1 & H2). apply filter_In. split; auto. exact (leb_trans _ _ _ H2 Ht).
Qed.

Lemma between lo hi v : (lo <= v <= hi -> exists s, 0 <= s <= 1 /\ v = s * hi + (1 - s) * lo)%R.
Proof.
  intros H. destruct (Req_dec lo hi) as [E|E]; [exists 0%R; lra|]. exists ((v - lo) / (hi - lo))%R. split.
  - split; [apply Rmult_le_pos; [lra|left; apply Rinv_0_lt_compat; lra]|].
    apply Rmult_le_reg_r with (hi - lo)%R; [lra|]. unfold Rdiv. rewrite Rmult_assoc, Rinv_l by lra. lra.
  - field. lra.
Qed.

Lemma in_quad_wider m a b d e a' b' d' e' q :
  (b' <= b -> a <= a' -> b <= a -> d' <= d -> e <= e' -> d <= e ->
   in_hull [(0, a); (0, b); (m, d); (m, e)] q -> in_hull [(0, a'); (0, b'); (m, d'); (m, e')] q)%R.
Proof.
  intros H1 H2 H3 H4 H5 H6. destruct q as [p w]. intros H. apply in_quad in H.
  destruct H as (t1 & t2 & t3 & t4 & P1 & P2 & P3 & P4 & S & Ep & Ew).
  destruct (between b' a' a) as (u1 & U1 & V1); [lra|]. destruct (between b' a' b) as (u2 & U2 & V2); [lra|].
  destruct (between d' e' d) as (u3 & U3 & V3); [lra|]. destruct (between d' e' e) as (u4 & U4 & V4); [lra|].
  exists [t1 * u1 + t2 * u2; t1 * (1 - u1) + t2 * (1 - u2); t3 * (1 - u3) + t4 * (1 - u4); t3 * u3 + t4 * u4]%R.
  split; [reflexivity|]. split.
  { repeat (apply Forall_cons; [apply Rplus_le_le_0_compat; apply Rmult_le_pos; lra|]). apply Forall_nil. }
  split; [cbn; lra|]. cbn. f_equal; [rewrite Ep; ring|]. rewrite Ew, V1, V2, V3, V4. ring.
Qed.

Lemma cal_run_peaks {A} {N : Num A} (e : env A) c h : c_peaks (cal_run e c h) = c_peaks c.
Proof.
  induction h as [|o h IH] using rev_ind; [reflexivity|]. rewrite cal_run_snoc, step_peaks. exact IH.
Qed.

Lemma is_product_In {A} (peaks lines : list A) rows p w :
  is_product peaks lines rows -> (In (p, w) rows <-> In p peaks /\ In w lines).
Proof.
  intros (L & H). split.
  - intros Hi. apply In_nth_error in Hi. destruct Hi as (k & Hk).
    assert (Lk : (k < List.length rows)%nat) by (apply nth_error_Some; congruence). rewrite L in Lk.
    assert (Ln : List.length lines <> 0%nat) by (intros E; rewrite E in Lk; lia).
    pose proof (Nat.div_mod k (List.length lines) Ln) as E.
    assert (Lj : (k mod List.length lines < List.length lines)%nat) by (apply Nat.mod_upper_bound; auto).
    assert (Li : (k / List.length lines < List.length peaks)%nat) by (apply Nat.div_lt_upper_bound; [auto|lia]).
    destruct (nth_error peaks (k / List.length lines)) as [p'|] eqn:Ep; [|apply nth_error_None in Ep; lia].
    destruct (nth_error lines (k mod List.length lines)) as [w'|] eqn:Ew; [|apply nth_error_None in Ew; lia].
    specialize (H _ _ _ _ Ep Ew). rewrite (Nat.mul_comm (k / _)) , <- E in H.
    assert (Eq : (p', w') = (p, w)) by congruence. injection Eq as -> ->. split; eapply nth_error_In; eauto.
  - intros (Hp & Hw). apply In_nth_error in Hp, Hw. destruct Hp as (i & Hp), Hw as (j & Hw).
    eapply nth_error_In. apply H; eauto.
Qed.

Lemma parr_inj {A} (a b : list (A * A)) : PArr a = PArr b -> a = b.
Proof. congruence. Qed.

(** C123: larger range_tolerance and candidate_tolerance, all else equal, keep every
    pair; over exact numbers, for an exact test of the convex hull. *)
Lemma pairs_monotone_main :
  forall (e : env xr) (inside : list (xr * xr) -> xr * xr -> bool) peaks spectrum c0 h h' (a : atlas xr)
         (ct ct' minw maxw rt rt' : R) px rows rows',
    (forall k pts, e_hull e k pts = Ok (map (inside k) pts)) ->
    (forall k q1 q2, inside (on_points k) (Fin q1, Fin q2) = true <-> in_hull k (q1, q2)) ->
    calib_init (e_hull e) peaks spectrum = Ok c0 ->
    let c := cal_run e c0 h in
    let c' := cal_run e c0 h' in
    let r := set_atlas (e_hull e) c a (Fin ct) true in
    let r' := set_atlas (e_hull e) c' a (Fin ct') true in
    snd r = Ok tt -> c_pairs (fst r) = PArr rows -> snd r' = Ok tt -> c_pairs (fst r') = PArr rows' ->
    h_minw (c_hp c) = Some (Fin minw) -> h_maxw (c_hp c) = Some (Fin maxw) -> h_rt (c_hp c) = Some (Fin rt) ->
    h_minw (c_hp c') = Some (Fin minw) -> h_maxw (c_hp c') = Some (Fin maxw) -> h_rt (c_hp c') = Some (Fin rt') ->
    g_pixels (c_gp c) = Some (map Fin px) -> g_pixels (c_gp c') = Some (map Fin px) ->
    (0 <= rt <= rt')%R -> (0 <= ct <= ct')%R ->
    forall p w, In (Fin p, Fin w) rows -> In (Fin p, Fin w) rows'.
Proof.
  intros e inside peaks spectrum c0 h h' a ct ct' minw maxw rt rt' px rows rows' Hh Hin H0 c c' r r' Hr Hpr Hr' Hpr'
    E1 E2 E3 E1' E2' E3' Epx Epx' Hrt Hct p w Hq.
  destruct (pairs_constrained_main xr XRnum e inside peaks spectrum c0 h a (Fin ct) Hh H0 Hr)
    as (q1 & q2 & q3 & q4 & m & prod & F1 & F2 & F3 & F4 & F5 & F7 & F6).
  destruct (pairs_constrained_main xr XRnum e inside peaks spectrum c0 h' a (Fin ct') Hh H0 Hr')
    as (q1' & q2' & q3' & q4' & m' & prod' & F1' & F2' & F3' & F4' & F5' & F7' & F6').
  fold c r in F1, F2, F3, F4, F6, F7. fold c' r' in F1', F2', F3', F4', F6', F7'.
  assert (q1 = Fin minw) by congruence. assert (q2 = Fin maxw) by congruence. assert (q3 = Fin rt) by congruence.
  assert (q4 = map Fin px) by congruence.
  assert (q1' = Fin minw) by congruence. assert (q2' = Fin maxw) by congruence. assert (q3' = Fin rt') by congruence.
  assert (q4' = map Fin px) by congruence. subst q1 q2 q3 q4 q1' q2' q3' q4'.
  assert (m' = m) by congruence. subst m'.
  assert (Hm : exists x, m = Fin x).
  { destruct px as [|x0 px]; [discriminate F5|]. destruct (np_amax_Fin px x0) as (m1 & G1 & _). exists m1. congruence. }
  destruct Hm as (x & ->).
  rewrite Hpr in F6. rewrite Hpr' in F6'.
  apply parr_inj in F6. apply parr_inj in F6'. rewrite F6 in Hq. rewrite F6'.
  apply filter_In in Hq. destruct Hq as (Hq1 & Hq2). apply filter_In. split.
  - apply (is_product_In _ _ _ _ _ F7'). apply (is_product_In _ _ _ _ _ F7) in Hq1.
    assert (E : c_peaks c = c_peaks c') by (transitivity (c_peaks c0); [|symmetry]; apply cal_run_peaks).
    rewrite <- E. exact Hq1.
  - rewrite (nZ_Fin 0) in Hq2 |- *.
    apply (proj1 (Hin [(0, minw + rt + ct); (0, minw + - rt + - ct); (x, maxw + - rt + - ct); (x, maxw + rt + ct)]%R p w)) in Hq2.
    apply (proj2 (Hin [(0, minw + rt' + ct'); (0, minw + - rt' + - ct'); (x, maxw + - rt' + - ct'); (x, maxw + rt' + ct')]%R p w)).
    revert Hq2. apply in_quad_wider; lra.
Qed.

(** C123, a peak at 50 and lines at 6000 and 9000: with a tolerance of 3000 both pairs
    are kept (with 10, see C98, only the first one). *)
Example pairs_monotone_example_main :
  let e := mkEnv (fun l : list xr => seq 0 (List.length l)) (mkCatalogue [] (fun _ => None)) (fun k pts => Ok (map (quad_inside k) pts)) in
  let at_ := mkAtlas (map (fun w => mkAL (Fin w) "Ar"%string (Fin 1) None) [6000; 9000]%R) (Fin 3000) (Fin 9000) (Fin 500) in
  let h := [OGeneral None (Some (map Fin [0; 100]%R)) None] in
  exists c0, calib_init (e_hull e) [Fin 50] (Some [Fin 1; Fin 2]) = Ok c0 /\
    (let c := cal_run e c0 h in
     let r := set_atlas (e_hull e) c at_ (Fin 3000) true in
     snd r = Ok tt /\ c_pairs (fst r) = PArr [(Fin 50, Fin 6000); (Fin 50, Fin 9000)] /\
     h_minw (c_hp c) = Some (Fin 3000) /\ h_maxw (c_hp c) = Some (Fin 9000) /\ h_rt (c_hp c) = Some (Fin 500) /\
     g_pixels (c_gp c) = Some (map Fin [0; 100]%R)).
Proof.
  cbv zeta. unfold calib_init.
  set (e := mkEnv _ _ _).
  assert (Ea : exists x r, np_arange0 (nnat (A := xr) 2) = x :: r).
  { unfold np_arange0, np_arange1. rewrite nnat_Fin, (nZ_Fin 0).
    assert (E : nceil (nsub (Fin (INR 2)) (Fin 0)) = Some 2%Z).
    { unfold nceil. assert (E : nsub (Fin (INR 2)) (Fin 0) = Fin (IZR 2)) by (change (Fin (INR 2 + - 0) = Fin (IZR 2)); f_equal; cbn; lra).
      rewrite E. change (ntrunc (Fin (IZR 2))) with (xtrunc (Fin (IZR 2))). rewrite xtrunc_IZR, nZ_Fin.
      change (nltb (Fin 2) (Fin 2)) with (Rltb 2 2). destruct (Rltb_spec 2 2); [lra|reflexivity]. }
    rewrite E. cbn. do 2 eexists. reflexivity. }
  destruct Ea as (x & r & Ea).
  unfold set_calibrator_properties. cbn [calib_blank c_gp g_num_pix c_spectrum List.length g_pixels g_library keep]. rewrite Ea.
  cbn -[e set_hough_properties set_ransac_properties].
  unfold set_hough_properties. cbn -[np_ptp set_ransac_properties nadd nsub nZ]. 
  unfold np_ptp, np_amax, np_amin. cbn -[set_ransac_properties nadd nsub nZ np_maximum np_minimum].
  eexists. split; [reflexivity|]. cbn -[nadd nsub nZ nlit nnat np_arange0 keep set_atlas quad_inside].
  unfold set_atlas, generate_pairs. cbn -[nadd nsub nZ nlit np_amax quad_inside].
  unfold corners. cbn -[nadd nsub nZ nlit np_amax quad_inside].
  assert (Em : np_maximum (Fin 0) (Fin 100) = Fin 100).
  { unfold np_maximum. change (nleb (Fin 100) (Fin 0)) with (Rleb 100 0). destruct (Rleb_spec 100 0); [lra|reflexivity]. }
  rewrite Em. change (Fin (Rlit 0 0)) with (nZ (A := xr) 0). rewrite !nZ_Fin.
  repeat match goal with
  | |- context [nadd (Fin ?a) (Fin ?b)] => change (nadd (Fin a) (Fin b)) with (Fin (a + b))
  | |- context [nsub (Fin ?a) (Fin ?b)] => change (nsub (Fin a) (Fin b)) with (Fin (a + - b))
  | |- context [xadd (Fin ?a) (Fin ?b)] => change (xadd (Fin a) (Fin b)) with (Fin (a + b))
  | |- context [xsub (Fin ?a) (Fin ?b)] => change (xsub (Fin a) (Fin b)) with (Fin (a + - b))
  end.
  unfold quad_inside.
  repeat match goal with
  | |- context [Reqb ?a ?b] => let E := fresh in
     first [ assert (E : Reqb a b = true) by (destruct (Reqb_spec a b); [reflexivity|exfalso; lra])
           | assert (E : Reqb a b = false) by (destruct (Reqb_spec a b); [exfalso; lra|reflexivity])]; rewrite E; clear E
  | |- context [Rltb ?a ?b] => let E := fresh in
     first [ assert (E : Rltb a b = true) by (destruct (Rltb_spec a b); [reflexivity|exfalso; lra])
           | assert (E : Rltb a b = false) by (destruct (Rltb_spec a b); [exfalso; lra|reflexivity])]; rewrite E; clear E
  | |- context [Rleb ?a ?b] => let E := fresh in
     first [ assert (E : Rleb a b = true) by (destruct (Rleb_spec a b); [reflexivity|exfalso; lra])
           | assert (E : Rleb a b = false) by (destruct (Rleb_spec a b); [exfalso; lra|reflexivity])]; rewrite E; clear E
  end.
  repeat split; reflexivity.
Qed.

Example candidates_monotone_example_main :
  match candidates_linear cand_state (fz 5), candidates_linear cand_state (fz 20) with
  | Ok cs, Ok cs' => map (@List.length _) cs = [2; 3]%nat /\ map (@List.length _) cs' = [3; 3]%nat
  | _, _ => False
  end.
Proof. vm_compute. auto. Qed.

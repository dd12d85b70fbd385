(** * Main_Permute: the order in which peaks and lines are given (C119).  The
    statements are repeated, without proofs, in Props_Permute.v. *)

From Coq Require Import ZArith Bool List Lia Reals Lra Permutation String.
From Verif Require Import Num F64 XReal Py Np NpFacts ArgsortFacts Util Atlas Hough SpecHough HoughFacts SampleFacts
  Calib SpecCalib CalibFacts Cand SpecOrder SpecPermute Main_Hough.
From Verif Require Import RansacFacts.
From Verif Require Main_Calib.
Import ListNotations.
Local Open Scope num_scope.

Lemma data_range_perm v w lo hi : Permutation v w -> data_range v lo hi -> data_range w lo hi.
Proof.
  intros P [(-> & -> & ->)|(a & b & Ha & Hb & Hab & H)].
  - left. apply Permutation_nil in P. auto.
  - right. exists a, b. split; [exact (Permutation_in _ P Ha)|]. split; [exact (Permutation_in _ P Hb)|].
    split; auto. intros x Hx. apply Hab. exact (Permutation_in _ (Permutation_sym P) Hx).
Qed.

Lemma bin_edges_perm v w n : Permutation v w -> bin_edges (map Fin v) n = bin_edges (map Fin w) n.
Proof.
  intros P. destruct n as [|n]; [reflexivity|].
  destruct (bin_edges_Fin v (S n)) as (lo & hi & E & D & _); [lia|].
  destruct (bin_edges_Fin w (S n)) as (lo' & hi' & E' & D' & _); [lia|].
  destruct (data_range_unique w lo hi lo' hi' (data_range_perm _ _ _ _ P D) D') as [-> ->]. congruence.
Qed.

Lemma filter_perm {T} (f : T -> bool) l l' : Permutation l l' -> Permutation (filter f l) (filter f l').
Proof.
  induction 1; cbn; auto.
  - destruct (f x); auto.
  - destruct (f x), (f y); auto. apply perm_swap.
  - etransitivity; eauto.
Qed.

Lemma list_prod_perm {T U} (l l' : list T) (k k' : list U) :
  Permutation l l' -> Permutation k k' -> Permutation (list_prod l k) (list_prod l' k').
Proof.
  intros P Q. transitivity (list_prod l k').
  - clear P l'. induction l as [|x l IH]; cbn; auto. apply Permutation_app; auto. apply Permutation_map; auto.
  - induction P; cbn; auto.
    + apply Permutation_app_head; auto.
    + rewrite !app_assoc. apply Permutation_app_tail. apply Permutation_app_comm.
    + etransitivity; eauto.
Qed.

Lemma hist_counts_perm {A} {N : Num A} (xe ye : list A) xb yb pts qts :
  Permutation pts qts -> hist_counts xe ye xb yb pts = hist_counts xe ye xb yb qts.
Proof.
  intros P. unfold hist_counts. apply map_ext. intros i. apply map_ext. intros j.
  apply Permutation_length. apply filter_perm. exact P.
Qed.

Definition points_permuted (a b : option (points xr)) : Prop :=
  exists p q, a = Some (HArr (map FinP p)) /\ b = Some (HArr (map FinP q)) /\ Permutation p q.

Lemma permuted_reordered a b : points_permuted a b -> points_reordered a b.
Proof. right. auto. Qed.

Lemma bin_perm argsort s t xb yb :
  hough_reordered s t -> points_permuted (ho_points s) (ho_points t) ->
  snd (bin_hough_points argsort s xb yb) = snd (bin_hough_points argsort t xb yb) /\
  hough_reordered (fst (bin_hough_points argsort s xb yb)) (fst (bin_hough_points argsort t xb yb)).
Proof.
  intros (pt & Hpt & ->) (p & q & Hp & Hq & P). cbn in Hq. subst pt. unfold bin_hough_points. rewrite Hp.
  cbn [ho_points].
  assert (F1 : forall l, map fst (map FinP l) = map Fin (map fst l)) by (intros; rewrite !map_map; reflexivity).
  assert (F2 : forall l, map snd (map FinP l) = map Fin (map snd l)) by (intros; rewrite !map_map; reflexivity).
  rewrite !F1, !F2. rewrite (bin_edges_perm _ _ xb (Permutation_map fst P)).
  rewrite (bin_edges_perm _ _ yb (Permutation_map snd P)).
  assert (K : hough_reordered s (mkHough (Some (HArr (map FinP q))) (ho_lines s) (ho_hist s) (ho_xedges s) (ho_yedges s)
          (ho_min_slope s) (ho_max_slope s) (ho_min_intercept s) (ho_max_intercept s))) by (eexists; eauto).
  destruct (bin_edges (map Fin (map fst q)) xb) as [xe|ex]; cbn [fst snd]; [|split; auto].
  destruct (bin_edges (map Fin (map snd q)) yb) as [ye|ex]; cbn [fst snd]; [|split; auto].
  split; auto.
  rewrite (hist_counts_perm xe ye xb yb _ _ (Permutation_map FinP P)).
  eexists. split; [|reflexivity]. cbn. right. eauto.
Qed.

Lemma all_lines_perm lo hi n d d' : Permutation d d' -> Permutation (all_lines lo hi n d) (all_lines lo hi n d').
Proof.
  intros P. unfold all_lines. induction (seq 0 n) as [|i l IH]; cbn; auto.
  apply Permutation_app; auto. apply Permutation_map. exact P.
Qed.

Lemma map_fst_FinP (l : list (R * R)) : map fst (map FinP l) = map (fun p => Fin (fst p)) l.
Proof. rewrite map_map. reflexivity. Qed.
Lemma map_snd_FinP (l : list (R * R)) : map snd (map FinP l) = map (fun p => Fin (snd p)) l.
Proof. rewrite map_map. reflexivity. Qed.

(** The points generated from permuted pairs. *)
Lemma generate_perm argsort (brute : bool) ns (s t : hough xr) p q a b c d :
  (forall l, is_argsort l (argsort l)) ->
  Permutation p q ->
  ho_lims s = (Some (Fin a), Some (Fin b), Some (Fin c), Some (Fin d)) -> hough_reordered s t ->
  let gen h l := if brute then generate_hough_points_brute_force argsort h (map fst (map FinP l)) (map snd (map FinP l))
                 else match ns with
                      | Some (Zneg _) => (h, Raise ValueError)
                      | Some z => generate_hough_points h (map fst (map FinP l)) (map snd (map FinP l)) (Z.to_nat z)
                      | None => (h, Raise TypeError)
                      end in
  snd (gen s p) = snd (gen t q) /\ hough_reordered (fst (gen s p)) (fst (gen t q)) /\
  (snd (gen s p) = Ok tt -> points_permuted (ho_points (fst (gen s p))) (ho_points (fst (gen t q)))).
Proof.
  intros Ha P Ls St gen. assert (St' := St). destruct St' as (pt & _ & Et).
  assert (Lt : ho_lims t = ho_lims s) by (rewrite Et; reflexivity).
  rewrite Ls in Lt. unfold ho_lims in Ls, Lt.
  assert (S1 : ho_min_slope s = Some (Fin a)) by congruence. assert (S2 : ho_max_slope s = Some (Fin b)) by congruence.
  assert (S3 : ho_min_intercept s = Some (Fin c)) by congruence. assert (S4 : ho_max_intercept s = Some (Fin d)) by congruence.
  assert (T1 : ho_min_slope t = Some (Fin a)) by congruence. assert (T2 : ho_max_slope t = Some (Fin b)) by congruence.
  assert (T3 : ho_min_intercept t = Some (Fin c)) by congruence. assert (T4 : ho_max_intercept t = Some (Fin d)) by congruence.
  pose proof (Permutation_length P) as PL.
  assert (Close : forall s' t', same_but_points s s' -> same_but_points t t' ->
            points_permuted (ho_points s') (ho_points t') -> hough_reordered s' t').
  { intros s' t' (E1 & E2 & E3 & E4 & E5) (D1 & D2 & D3 & D4 & D5) Hp. exists (ho_points t').
    split; [right; exact Hp|]. unfold ho_lims in *. rewrite Et in D1, D2, D3, D4. cbn in D1, D2, D3, D4.
    destruct s' as [? ? ? ? ? ? ? ? ?], t' as [? ? ? ? ? ? ? ? ?]; cbn in *. congruence. }
  destruct brute; unfold gen.
  - destruct (Nat.le_gt_cases 2 (List.length p)) as [H2|H2].
    + rewrite !map_fst_FinP, !map_snd_FinP.
      destruct (generate_hough_points_brute_force argsort s _ _) as [s' r] eqn:E1.
      destruct (generate_hough_points_brute_force argsort t _ _) as [t' r'] eqn:E2.
      apply (brute_force_exact_main argsort s s' p a b c d r Ha S1 S2 S3 S4) in E1; [|lia].
      apply (brute_force_exact_main argsort t t' q a b c d r' Ha T1 T2 T3 T4) in E2; [|lia].
      destruct E1 as (-> & Sm & l1 & Q1 & P1). destruct E2 as (-> & Tm & l2 & Q2 & P2).
      cbn [fst snd].
      assert (PP : points_permuted (ho_points s') (ho_points t')).
      { exists l1, l2. split; auto. split; auto.
        rewrite P1, P2. symmetry. apply admissible_lines_perm. symmetry. exact P. }
      split; auto.
    + unfold generate_hough_points_brute_force.
      assert (Le : forall l, List.length l = List.length p ->
         Nat.leb (List.length (gather (combine (map fst (map FinP l)) (map snd (map FinP l)))
                                      (argsort (map fst (map FinP l))))) 1 = true).
      { intros l Hl. destruct (Ha (map fst (map FinP l))) as [Hp _].
        assert (Pg : Permutation (gather (combine (map fst (map FinP l)) (map snd (map FinP l)))
             (argsort (map fst (map FinP l)))) (combine (map fst (map FinP l)) (map snd (map FinP l)))).
        { apply gather_perm. rewrite combine_length, !map_length, Nat.min_id. rewrite !map_length in Hp. exact Hp. }
        rewrite (Permutation_length Pg), combine_length, !map_length, Nat.min_id.
        apply Nat.leb_le. lia. }
      rewrite (Le p eq_refl), (Le q (eq_sym PL)). rewrite !map_length, !Nat.ltb_irrefl. cbn.
      split; auto. split; auto. discriminate.
  - assert (G : forall z, (0 <= z)%Z ->
       snd (generate_hough_points s (map fst (map FinP p)) (map snd (map FinP p)) (Z.to_nat z)) =
       snd (generate_hough_points t (map fst (map FinP q)) (map snd (map FinP q)) (Z.to_nat z)) /\
       hough_reordered (fst (generate_hough_points s (map fst (map FinP p)) (map snd (map FinP p)) (Z.to_nat z)))
                       (fst (generate_hough_points t (map fst (map FinP q)) (map snd (map FinP q)) (Z.to_nat z))) /\
       (snd (generate_hough_points s (map fst (map FinP p)) (map snd (map FinP p)) (Z.to_nat z)) = Ok tt ->
        points_permuted (ho_points (fst (generate_hough_points s (map fst (map FinP p)) (map snd (map FinP p)) (Z.to_nat z))))
                       (ho_points (fst (generate_hough_points t (map fst (map FinP q)) (map snd (map FinP q)) (Z.to_nat z)))))).
    { intros z Hz. destruct (Nat.eq_dec (Z.to_nat z) 0) as [E0|E0];
        [|destruct (Nat.eq_dec (List.length p) 0) as [El|El]].
      - rewrite E0. unfold generate_hough_points. rewrite S1, S2, T1, T2, !map_length, !Nat.eqb_refl. cbn.
        split; auto. split; auto. discriminate.
      - unfold generate_hough_points. rewrite S1, S2, T1, T2, !map_length, !Nat.eqb_refl, <- PL, El. cbn [negb].
        rewrite orb_comm. cbn. split; auto. split; auto. discriminate.
      - rewrite !map_fst_FinP, !map_snd_FinP.
        destruct (generate_hough_points s _ _ _) as [s' r] eqn:E1.
        destruct (generate_hough_points t _ _ _) as [t' r'] eqn:E2.
        apply (hough_points_exact_main s s' p _ a b c d r S1 S2 S3 S4) in E1; [|destruct p; [contradiction El; reflexivity|discriminate]|lia].
        apply (hough_points_exact_main t t' q _ a b c d r' T1 T2 T3 T4) in E2; [|destruct q; [cbn in PL; lia|discriminate]|lia].
        destruct E1 as (-> & Q1 & Sm). destruct E2 as (-> & Q2 & Tm). cbn [fst snd].
        assert (PP : points_permuted (ho_points s') (ho_points t')).
        { eexists; eexists. split; [exact Q1|]. split; [exact Q2|]. apply filter_perm. apply all_lines_perm. exact P. }
        split; auto. }
    destruct ns as [[|z|z]|]; cbn [fst snd]; try (apply G; lia); split; auto; split; auto; discriminate.
Qed.

Lemma check_finite_Fin (v : option xr) w : check_finite v = Ok w -> exists r, v = Some (Fin r) /\ w = Fin r.
Proof. unfold check_finite. destruct v as [[r| |]|]; cbn; try discriminate. intros E. injection E as <-. eauto. Qed.

Lemma hough_reordered_refl h : hough_reordered h h.
Proof. exists (ho_points h). split; [left; auto|]. destruct h; reflexivity. Qed.
Lemma points_reordered_refl p : points_reordered p p.
Proof. left; auto. Qed.

Lemma transform_perm argsort (c : calib xr) peaks pairs t pts brute :
  (forall l, is_argsort l (argsort l)) ->
  (exists a b, c_peaks c = map Fin a /\ peaks = map Fin b /\ Permutation a b) ->
  pairs_reordered (c_pairs c) pairs ->
  hough_reordered (c_ht c) t -> points_reordered (c_points c) pts ->
  let d := set_c_points pts (set_c_ht t (set_c_pairs pairs (set_c_peaks peaks c))) in
  snd (do_hough_transform argsort c brute) = snd (do_hough_transform argsort d brute) /\
  reordered (fst (do_hough_transform argsort c brute)) (fst (do_hough_transform argsort d brute)).
Proof.
  intros Ha Hpk Hpr Hh Hpt d.
  assert (PR : (c_pairs c = pairs /\ (pairs = PMissing \/ pairs = PFlat)) \/
               exists p q, c_pairs c = PArr (map FinP p) /\ pairs = PArr (map FinP q) /\ Permutation p q).
  { destruct (c_pairs c) as [| |l], pairs as [| |k]; cbn in Hpr; try contradiction; auto.
    destruct Hpr as (p & q & -> & -> & P). right. eauto. }
  assert (Re : reordered c d) by (exists peaks, pairs, t, pts; auto).
  assert (SH : forall s u, hough_reordered s u -> reordered (set_c_ht s c) (set_c_ht u d)).
  { intros s u Hs. exists peaks, pairs, u, pts. cbn. auto. }
  unfold do_hough_transform. change (c_pairs d) with pairs. change (c_hp d) with (c_hp c). change (c_ht d) with t.
  unfold set_constraints.
  destruct (bind (check_finite (h_min_slope (c_hp c))) _) as [[[[s1 s2] s3] s4]|ex] eqn:E.
  2:{ destruct PR as [[EE [->| ->]]|(p & q & EE & -> & P)]; rewrite EE in *; cbn; auto. }
  apply bind_Ok in E. destruct E as (x1 & C1 & E). apply bind_Ok in E. destruct E as (x2 & C2 & E).
  apply bind_Ok in E. destruct E as (x3 & C3 & E). apply bind_Ok in E. destruct E as (x4 & C4 & E).
  injection E as <- <- <- <-.
  apply check_finite_Fin in C1, C2, C3, C4. destruct C1 as (r1 & _ & ->). destruct C2 as (r2 & _ & ->).
  destruct C3 as (r3 & _ & ->). destruct C4 as (r4 & _ & ->).
  set (S := mkHough (ho_points (c_ht c)) _ _ _ _ _ _ _ _). set (T := mkHough (ho_points t) _ _ _ _ _ _ _ _).
  assert (HST : hough_reordered S T).
  { destruct Hh as (p & Hp & Et). exists p. split; auto. unfold T, S. rewrite Et. reflexivity. }
  destruct PR as [[EE [->| ->]]|(p & q & EE & -> & P)]; rewrite EE in *; cbn [fst snd]; auto.
  destruct (generate_perm argsort brute (h_num_slopes (c_hp c)) S T p q r1 r2 r3 r4 Ha P eq_refl HST) as (G1 & G2 & G3).
  cbv zeta in G1, G2, G3.
  match goal with |- context[let (t2, r2) := ?x in _] => destruct x as [t2 [v2|ex2]] eqn:E2 end;
  match type of G1 with _ = snd ?y => destruct y as [u2 [w2|ey2]] eqn:E3 end;
    cbn [fst snd] in G1, G2, G3; try discriminate; cbn [fst snd];
    [|split; [congruence|auto]].
  destruct v2. specialize (G3 eq_refl).
  destruct (h_xbins (c_hp c)) as [xb|]; [|cbn; auto].
  destruct (h_ybins (c_hp c)) as [yb|]; [|cbn; auto].
  destruct (bin_perm argsort t2 u2 xb yb G2 G3) as [B1 B2].
  destruct (bin_hough_points argsort t2 xb yb) as [t3 [[]|ex3]] eqn:E4;
  destruct (bin_hough_points argsort u2 xb yb) as [u3 [[]|ey3]] eqn:E5;
    cbn [fst snd] in *; try discriminate; [|split; [congruence|auto]].
  split; auto. destruct B2 as (p3 & B2 & ->). cbn [ho_lines ho_points].
  exists peaks, (PArr (map FinP q)), (mkHough p3 (ho_lines t3) (ho_hist t3) (ho_xedges t3) (ho_yedges t3)
          (ho_min_slope t3) (ho_max_slope t3) (ho_min_intercept t3) (ho_max_intercept t3)), p3. cbn.
  split; auto. split; [rewrite EE; eauto|]. split; [exists p3; auto|]. split; auto.
Qed.

Lemma product_FinP (a b : list R) : product_pairs (map Fin a) (map Fin b) = map FinP (list_prod a b).
Proof.
  unfold product_pairs. induction a as [|x a IH]; cbn; auto. rewrite map_app, <- IH. f_equal.
  rewrite !map_map. reflexivity.
Qed.

Lemma generate_pairs_perm hull (c : calib xr) peaks pairs t pts :
  pointwise hull -> finite_atlas c ->
  (exists a b, c_peaks c = map Fin a /\ peaks = map Fin b /\ Permutation a b) ->
  pairs_reordered (c_pairs c) pairs -> hough_reordered (c_ht c) t -> points_reordered (c_points c) pts ->
  let d := set_c_points pts (set_c_ht t (set_c_pairs pairs (set_c_peaks peaks c))) in
  snd (generate_pairs hull c) = snd (generate_pairs hull d) /\
  reordered (fst (generate_pairs hull c)) (fst (generate_pairs hull d)).
Proof.
  intros [inside Hin] Hf Hpk Hpr Hh Hpt d.
  assert (Re : reordered c d) by (exists peaks, pairs, t, pts; auto).
  unfold generate_pairs. change (c_atlas d) with (c_atlas c). change (c_constrain d) with (c_constrain c).
  change (corners d) with (corners c). change (c_peaks d) with peaks.
  destruct (c_atlas c) as [at_|] eqn:Ea; cbn [fst snd]; [|auto].
  destruct (Hf at_ Ea) as [l El]. assert (Hpk' := Hpk). destruct Hpk' as (a & b & Pa & Pb & P).
  rewrite Pa, Pb, El, !product_FinP.
  assert (PP : Permutation (list_prod a l) (list_prod b l)) by (apply list_prod_perm; auto).
  assert (SP : forall x y, pairs_reordered x y -> reordered (set_c_pairs x c) (set_c_pairs y d)).
  { intros x y H. exists peaks, y, t, pts. cbn. auto. }
  destruct (c_constrain c).
  - destruct (corners c) as [k|ex]; cbn [bind fst snd]; [|auto]. rewrite !Hin.
    destruct (list_prod a l) as [|u1 r1] eqn:E1.
    { apply Permutation_nil in PP. rewrite PP. cbn. auto. }
    destruct (list_prod b l) as [|u2 r2] eqn:E2.
    { symmetry in PP. apply Permutation_nil in PP. discriminate. }
    cbn [map fst snd]. split; auto. apply SP. change (FinP u1 :: map FinP r1) with (map FinP (u1 :: r1)).
    change (FinP u2 :: map FinP r2) with (map FinP (u2 :: r2)).
    change (inside k (FinP u1) :: map (inside k) (map FinP r1)) with (map (inside k) (map FinP (u1 :: r1))).
    change (inside k (FinP u2) :: map (inside k) (map FinP r2)) with (map (inside k) (map FinP (u2 :: r2))).
    rewrite !mask_select_map, !filter_map_comm. eexists; eexists. split; [reflexivity|]. split; [reflexivity|].
    apply filter_perm. exact PP.
  - cbn [fst snd]. split; auto. apply SP.
    destruct (list_prod a l) as [|u1 r1] eqn:E1.
    { apply Permutation_nil in PP. rewrite PP. cbn. auto. }
    destruct (list_prod b l) as [|u2 r2] eqn:E2.
    { symmetry in PP. apply Permutation_nil in PP. discriminate. }
    cbn [map]. exists (u1 :: r1), (u2 :: r2). auto.
Qed.

Lemma py_max_perm a b : Permutation a b -> py_max (map Fin a) = py_max (map Fin b).
Proof.
  assert (M : forall l x, exists m, fold_left (fun m y => if m <' y then y else m) (map Fin l) (Fin x) = Fin m /\
            In m (x :: l) /\ (forall y, In y (x :: l) -> (y <= m)%R)).
  { induction l as [|y l IH]; intros x; cbn [map fold_left].
    - exists x. split; auto. split; [left; auto|]. intros z [->|[]]. lra.
    - change (Fin x <' Fin y) with (Rltb x y). destruct (Rltb_spec x y).
      + destruct (IH y) as (m & E & I & B). exists m. split; auto. split; [right; auto|].
        intros z [->|[->|Hz]]; [|apply B; left; auto|apply B; right; auto].
        specialize (B y (or_introl eq_refl)). lra.
      + destruct (IH x) as (m & E & I & B). exists m. split; auto.
        split; [destruct I as [->|I]; [left; auto|right; right; auto]|].
        intros z [->|[->|Hz]]; [apply B; left; auto| |apply B; right; auto].
        specialize (B x (or_introl eq_refl)). lra. }
  intros P. destruct a as [|x a]; [apply Permutation_nil in P; subst; auto|].
  destruct b as [|y b]; [symmetry in P; apply Permutation_nil in P; discriminate|].
  cbn [map py_max]. destruct (M a x) as (m & E & I & B). destruct (M b y) as (m' & E' & I' & B').
  rewrite E, E'. do 2 f_equal. apply Rle_antisym.
  - apply B'. exact (Permutation_in _ P I).
  - apply B. exact (Permutation_in _ (Permutation_sym P) I').
Qed.

Lemma finite_atlas_frame (c d : calib xr) : c_atlas c = c_atlas d -> finite_atlas c -> finite_atlas d.
Proof. unfold finite_atlas. intros ->. auto. Qed.

Lemma generate_pairs_atlas {A} {N : Num A} hull (c : calib A) : c_atlas (fst (generate_pairs hull c)) = c_atlas c.
Proof.
  unfold generate_pairs. destruct (c_atlas c) eqn:E; auto. destruct (c_constrain c); [|auto].
  destruct (bind _ _); auto.
Qed.

(** One call on two calibrators that are equal up to order. *)
Lemma step_reordered (e : env xr) (o : cal_op xr) c d :
  (forall l, is_argsort l (e_argsort e l)) -> pointwise (e_hull e) ->
  reordered c d -> finite_atlas (fst (cal_step e c o)) ->
  snd (cal_step e c o) = snd (cal_step e d o) /\ reordered (fst (cal_step e c o)) (fst (cal_step e d o)).
Proof.
  intros Ha Hh (peaks & pairs & t & pts & Hpk & Hpr & Ht & Hpt & ->).
  assert (Re : reordered c (set_c_points pts (set_c_ht t (set_c_pairs pairs (set_c_peaks peaks c)))))
    by (exists peaks, pairs, t, pts; auto).
  destruct o as [np px lib| | |a|a|p w|at_ ct k|a ct k|u ct k|w tl| |b|fs n tp]; cbn [cal_step].
  - intros _. unfold set_calibrator_properties. cbn [c_gp c_spectrum c_peaks set_c_points set_c_ht set_c_pairs set_c_peaks].
    cbv zeta. assert (Hm : py_max peaks = py_max (c_peaks c)).
    { destruct Hpk as (x & y & E1 & -> & P). rewrite E1. symmetry. apply py_max_perm. exact P. }
    rewrite Hm.
    match goal with |- context[match ?x with Ok n => _ | Raise e => _ end] => destruct x as [v|ex] end;
      cbn [fst snd]; [|auto]. split; auto. exists peaks, pairs, t, pts. cbn. auto.
  - intros _. cbn. split; auto. exists peaks, pairs, t, pts. cbn. auto.
  - intros _. cbn. split; auto. exists peaks, pairs, t, pts. cbn. auto.
  - unfold set_hough_properties. cbn [c_hp c_gp c_atlas set_c_points set_c_ht set_c_pairs set_c_peaks]. cbv zeta.
    match goal with |- context[match ?x with Ok ns => _ | Raise e => _ end] => destruct x as [ns|ex] end; cbn [fst snd]; [|auto].
    destruct (g_pixels (c_gp c)) as [px|]; cbn [fst snd].
    2:{ intros _. split; auto. exists peaks, pairs, t, pts. cbn. auto. }
    destruct (np_ptp px) as [ptp|ex]; cbn [fst snd].
    2:{ intros _. split; auto. exists peaks, pairs, t, pts. cbn. auto. }
    destruct (c_atlas c) as [at_|] eqn:Ea; cbn [fst snd].
    2:{ intros _. split; auto. exists peaks, pairs, t, pts. cbn. auto. }
    match goal with |- context[generate_pairs (e_hull e) (set_c_hp ?h c)] => intros Hf;
      apply (finite_atlas_frame _ (set_c_hp h c)) in Hf; [|rewrite generate_pairs_atlas; reflexivity];
      exact (generate_pairs_perm (e_hull e) (set_c_hp h c) peaks pairs t pts Hh Hf Hpk Hpr Ht Hpt) end.
  - intros _. unfold set_ransac_properties. cbn [c_rp set_c_points set_c_ht set_c_pairs set_c_peaks]. cbv zeta.
    destruct (negb _); [|destruct (negb _); [|destruct (negb _)]]; cbn [fst snd];
      (split; [auto|exists peaks, pairs, t, pts; cbn; auto]).
  - intros _. unfold set_known_pairs. destruct p as [p|ex]; [|auto]. destruct w as [w|ex]; [|auto].
    destruct (negb _); [auto|]. destruct (existsb nisnan p); [auto|]. destruct (existsb nisnan w); [auto|].
    cbn [fst snd]. split; auto. exists peaks, pairs, t, pts. cbn. auto.
  - unfold set_atlas. intros Hf.
    apply (finite_atlas_frame _ (set_c_constrain k (set_c_cand_tol (Some ct) (set_c_atlas (Some at_) c)))) in Hf;
      [|rewrite generate_pairs_atlas; reflexivity].
    exact (generate_pairs_perm (e_hull e) _ peaks pairs t pts Hh Hf Hpk Hpr Ht Hpt).
  - unfold cal_add_atlas. cbn [c_hp c_atlas set_c_points set_c_ht set_c_pairs set_c_peaks]. cbv zeta.
    assert (G : forall v, finite_atlas (fst (generate_pairs (e_hull e) (set_c_constrain k (set_c_cand_tol (Some ct) (set_c_atlas v c))))) ->
      snd (generate_pairs (e_hull e) (set_c_constrain k (set_c_cand_tol (Some ct) (set_c_atlas v c)))) =
      snd (generate_pairs (e_hull e) (set_c_constrain k (set_c_cand_tol (Some ct) (set_c_atlas v
             (set_c_points pts (set_c_ht t (set_c_pairs pairs (set_c_peaks peaks c)))))))) /\
      reordered (fst (generate_pairs (e_hull e) (set_c_constrain k (set_c_cand_tol (Some ct) (set_c_atlas v c)))))
        (fst (generate_pairs (e_hull e) (set_c_constrain k (set_c_cand_tol (Some ct) (set_c_atlas v
             (set_c_points pts (set_c_ht t (set_c_pairs pairs (set_c_peaks peaks c)))))))))).
    { intros v Hf. apply (finite_atlas_frame _ (set_c_constrain k (set_c_cand_tol (Some ct) (set_c_atlas v c)))) in Hf;
        [|rewrite generate_pairs_atlas; reflexivity].
      exact (generate_pairs_perm (e_hull e) _ peaks pairs t pts Hh Hf Hpk Hpr Ht Hpt). }
    assert (S : forall v, reordered (set_c_atlas v c) (set_c_atlas v (set_c_points pts (set_c_ht t (set_c_pairs pairs (set_c_peaks peaks c)))))).
    { intros v. exists peaks, pairs, t, pts. cbn. auto. }
    destruct (h_minw (c_hp c)); [|auto]. destruct (h_maxw (c_hp c)); [|auto]. destruct (h_rt (c_hp c)); [|auto].
    destruct (c_atlas c) as [at_|].
    + destruct (atlas_add _ _ _ _) as [at' [v|ex]]; [apply G|cbn [fst snd]; auto].
    + destruct (atlas_init _ _ _ _ _ _ _ _ _ _ _ _ _) as [at'|ex]; [apply G|cbn [fst snd]; auto].
  - unfold cal_add_user_atlas. cbn [c_atlas set_c_points set_c_ht set_c_pairs set_c_peaks]. cbv zeta.
    assert (S : forall v, reordered (set_c_atlas v c) (set_c_atlas v (set_c_points pts (set_c_ht t (set_c_pairs pairs (set_c_peaks peaks c)))))).
    { intros v. exists peaks, pairs, t, pts. cbn. auto. }
    destruct (add_user_atlas _ _) as [at' [v|ex]]; [|cbn [fst snd]; auto]. intros Hf.
    apply (finite_atlas_frame _ (set_c_constrain k (set_c_cand_tol (Some ct) (set_c_atlas (Some at') c)))) in Hf;
      [|rewrite generate_pairs_atlas; reflexivity].
    exact (generate_pairs_perm (e_hull e) _ peaks pairs t pts Hh Hf Hpk Hpr Ht Hpt).
  - intros _. unfold cal_remove_lines. cbn [c_atlas set_c_points set_c_ht set_c_pairs set_c_peaks].
    destruct (c_atlas c); cbn [fst snd]; [|auto]. split; auto. exists peaks, pairs, t, pts. cbn. auto.
  - intros _. unfold cal_clear_atlas. cbn [c_atlas set_c_points set_c_ht set_c_pairs set_c_peaks].
    destruct (c_atlas c); cbn [fst snd]; [|auto]. split; auto. exists peaks, pairs, t, pts. cbn. auto.
  - intros _. exact (transform_perm (e_argsort e) c peaks pairs t pts b Ha Hpk Hpr Ht Hpt).
  - intros _. unfold load_hough_transform. cbn [c_ht set_c_points set_c_ht set_c_pairs set_c_peaks].
    assert (L : snd (hough_load (c_ht c) fs n tp) = snd (hough_load t fs n tp) /\
                hough_reordered (fst (hough_load (c_ht c) fs n tp)) (fst (hough_load t fs n tp))).
    { destruct Ht as (p & Hp & ->).
      assert (K : forall p' hi xe ye lims, snd (load_fields (c_ht c) p' hi xe ye lims) =
          snd (load_fields (mkHough p (ho_lines (c_ht c)) (ho_hist (c_ht c)) (ho_xedges (c_ht c)) (ho_yedges (c_ht c))
             (ho_min_slope (c_ht c)) (ho_max_slope (c_ht c)) (ho_min_intercept (c_ht c)) (ho_max_intercept (c_ht c))) p' hi xe ye lims) /\
          hough_reordered (fst (load_fields (c_ht c) p' hi xe ye lims))
          (fst (load_fields (mkHough p (ho_lines (c_ht c)) (ho_hist (c_ht c)) (ho_xedges (c_ht c)) (ho_yedges (c_ht c))
             (ho_min_slope (c_ht c)) (ho_max_slope (c_ht c)) (ho_min_intercept (c_ht c)) (ho_max_intercept (c_ht c))) p' hi xe ye lims))).
      { intros p' hi xe ye [[[l1 l2] l3] l4]. unfold load_fields. cbn.
        destruct hi; [|split; [auto|apply hough_reordered_refl]]. destruct xe; [|split; [auto|apply hough_reordered_refl]].
        destruct ye; [|split; [auto|apply hough_reordered_refl]]. destruct l1; [|split; [auto|apply hough_reordered_refl]].
        destruct l2; [|split; [auto|apply hough_reordered_refl]]. destruct l3; [|split; [auto|apply hough_reordered_refl]].
        destruct l4; split; auto; apply hough_reordered_refl. }
      assert (Z : hough_reordered (c_ht c) (mkHough p (ho_lines (c_ht c)) (ho_hist (c_ht c)) (ho_xedges (c_ht c)) (ho_yedges (c_ht c))
             (ho_min_slope (c_ht c)) (ho_max_slope (c_ht c)) (ho_min_intercept (c_ht c)) (ho_max_intercept (c_ht c))))
        by (exists p; auto).
      unfold hough_load. destruct (String.eqb tp "npy").
      - destruct (fs _) as [[]|]; cbn [fst snd]; auto.
      - destruct (String.eqb tp "json"); [|auto]. destruct (fs _) as [[]|]; cbn [fst snd]; auto. }
    destruct (hough_load (c_ht c) fs n tp) as [t1 r1]. destruct (hough_load t fs n tp) as [t2 r2]. cbn [fst snd] in *.
    destruct L as [-> L]. split; auto. exists peaks, pairs, t2, pts. cbn. auto.
Qed.

Lemma run_reordered (e : env xr) : forall h c d,
  (forall l, is_argsort l (e_argsort e l)) -> pointwise (e_hull e) -> reordered c d ->
  (forall h1 h2, h = (h1 ++ h2)%list -> finite_atlas (cal_run e c h1)) ->
  outcomes e c h = outcomes e d h /\ reordered (cal_run e c h) (cal_run e d h).
Proof.
  induction h as [|o h IH]; intros c d Ha Hh Hr Hf; [split; auto|].
  destruct (step_reordered e o c d Ha Hh Hr) as [E1 E2].
  { exact (Hf [o] h eq_refl). }
  destruct (IH (fst (cal_step e c o)) (fst (cal_step e d o)) Ha Hh E2) as [I1 I2].
  { intros h1 h2 E. apply (Hf (o :: h1) h2). cbn. congruence. }
  split; [cbn [outcomes]; congruence|exact I2].
Qed.

(** C119: calibrators built from the same peaks in another order, put through the same
    calls, have the same outcomes and end equal up to the order of peaks, pairs and
    Hough points: in particular the same Hough lines in the same order, the same
    histogram and limits, and the same candidates for every Hough line. *)
Lemma peaks_order_main :
  forall (e : env xr) (a b : list R) (spectrum : option (list xr)) (h : list (cal_op xr)),
    (forall l, is_argsort l (e_argsort e l)) -> pointwise (e_hull e) ->
    Permutation a b ->
    match calib_init (e_hull e) (map Fin a) spectrum, calib_init (e_hull e) (map Fin b) spectrum with
    | Ok c, Ok d =>
        (forall h1 h2, h = (h1 ++ h2)%list -> finite_atlas (cal_run e c h1)) ->
        outcomes e c h = outcomes e d h /\ reordered (cal_run e c h) (cal_run e d h)
    | Raise x, Raise y => x = y
    | _, _ => False
    end.
Proof.
  intros e a b sp h Ha Hh P.
  assert (Z : forall p s, calib_init (e_hull e) p s =
     (let c1 := cal_step e (calib_blank p s) (OGeneral None None None) in
      bind (snd c1) (fun _ => let c2 := cal_step e (fst c1) (OHough no_hough_args) in
      bind (snd c2) (fun _ => let c3 := cal_step e (fst c2) (ORansac no_ransac_args) in
      bind (snd c3) (fun _ => Ok (fst c3)))))).
  { intros p s. unfold calib_init. cbn [cal_step]. cbv zeta.
    destruct (set_calibrator_properties _ _ _ _) as [c1 [[]|ex]]; cbn [fst snd bind]; [|reflexivity].
    destruct (set_hough_properties _ _ _) as [c2 [[]|ex]]; cbn [fst snd bind]; [|reflexivity].
    destruct (set_ransac_properties _ _) as [c3 r3]. reflexivity. }
  rewrite !Z. clear Z. cbv zeta.
  assert (R0 : reordered (calib_blank (map Fin a) sp) (calib_blank (map Fin b) sp)).
  { exists (map Fin b), PMissing, hough_init, None. split; [exists a, b; auto|]. split; [cbn; auto|].
    split; [apply hough_reordered_refl|]. split; [apply points_reordered_refl|]. reflexivity. }
  assert (F1 : c_atlas (fst (cal_step e (calib_blank (map Fin a) sp) (OGeneral None None None))) = None).
  { cbn [cal_step]. unfold set_calibrator_properties. cbv zeta.
    match goal with |- context[match ?x with Ok n => _ | Raise e => _ end] => destruct x end; reflexivity. }
  destruct (step_reordered e (OGeneral None None None) _ _ Ha Hh R0) as [E1 R1].
  { unfold finite_atlas. rewrite F1. discriminate. }
  destruct (cal_step e (calib_blank (map Fin a) sp) (OGeneral None None None)) as [c1 r1].
  destruct (cal_step e (calib_blank (map Fin b) sp) (OGeneral None None None)) as [d1 s1]. cbn [fst snd] in *. subst s1.
  destruct r1 as [[]|ex]; cbn [bind]; [|auto].
  assert (F2 : c_atlas (fst (cal_step e c1 (OHough no_hough_args))) = None).
  { cbn [cal_step]. unfold set_hough_properties. cbv zeta.
    match goal with |- context[match ?x with Ok n => _ | Raise e => _ end] => destruct x end; [|exact F1].
    destruct (g_pixels (c_gp c1)); [|exact F1]. destruct (np_ptp _); [|exact F1]. rewrite F1. exact F1. }
  destruct (step_reordered e (OHough no_hough_args) _ _ Ha Hh R1) as [E2 R2].
  { unfold finite_atlas. rewrite F2. discriminate. }
  destruct (cal_step e c1 (OHough no_hough_args)) as [c2 r2].
  destruct (cal_step e d1 (OHough no_hough_args)) as [d2 s2]. cbn [fst snd] in *. subst s2.
  destruct r2 as [[]|ex]; cbn [bind]; [|auto].
  destruct (step_reordered e (ORansac no_ransac_args) _ _ Ha Hh R2) as [E3 R3].
  { unfold finite_atlas. cbn. rewrite F2. discriminate. }
  destruct (cal_step e c2 (ORansac no_ransac_args)) as [c3 r3].
  destruct (cal_step e d2 (ORansac no_ransac_args)) as [d3 s3]. cbn [fst snd] in *. subst s3.
  destruct r3 as [[]|ex]; cbn [bind]; [|auto].
  intros Hf. apply run_reordered; auto.
Qed.

(** C119: what is equal when two calibrators are equal up to order: the candidate pairs
    of every Hough line, up to order, for every tolerance. *)
Lemma reordered_candidates_main :
  forall (c d : calib xr) (tol : xr), reordered c d ->
    c_lines c = c_lines d /\ ho_hist (c_ht c) = ho_hist (c_ht d) /\ c_hp c = c_hp d /\
    match candidates_linear c tol, candidates_linear d tol with
    | Ok cs, Ok ds => Forall2 (@Permutation _) cs ds
    | Raise x, Raise y => x = y
    | _, _ => False
    end.
Proof.
  intros c d tol (peaks & pairs & t & pts & Hpk & Hpr & (p & _ & ->) & Hpt & ->).
  split; auto. split; auto. split; auto.
  unfold candidates_linear. cbn [c_lines c_hp c_pairs set_c_points set_c_ht set_c_pairs set_c_peaks].
  destruct (c_lines c) as [[|x l]|]; cbn; auto.
  destruct (h_rt (c_hp c)) as [rt|]; auto. destruct (h_lt (c_hp c)) as [lt|]; auto.
  destruct (c_pairs c) as [| |u], pairs as [| |v]; cbn in Hpr; try contradiction; auto.
  destruct Hpr as (pp & q & -> & -> & P).
  assert (L : forall line, Permutation (line_candidates rt lt tol (map FinP pp) line) (line_candidates rt lt tol (map FinP q) line)).
  { intros line. unfold line_candidates. apply Permutation_map. apply filter_perm. apply Permutation_map. exact P. }
  constructor; [apply L|]. induction l; constructor; auto.
Qed.

Lemma transform_set_atlas {A} {N : Num A} argsort (c : calib A) v b :
  do_hough_transform argsort (set_c_atlas v c) b =
  (set_c_atlas v (fst (do_hough_transform argsort c b)), snd (do_hough_transform argsort c b)).
Proof.
  unfold do_hough_transform. cbn [c_pairs c_hp c_ht set_c_atlas].
  destruct (c_pairs c) as [| |l]; [reflexivity| |];
  destruct (set_constraints _ _ _ _ _) as [t1 [u|ex]]; try reflexivity.
  match goal with |- context[let (t2, r2) := ?x in _] => destruct x as [t2 [v2|ex2]] end; [|reflexivity].
  match goal with |- context[let (t3, r3) := ?x in _] => destruct x as [t3 [v3|ex3]] end; reflexivity.
Qed.

(** C119: nor does the order of the atlas lines matter: the same calibrator (up to the
    order of its peaks), given an atlas or another with the same wavelengths in another
    order and then transformed, has the same outcomes and ends equal up to order,
    the atlas itself apart. *)
Lemma lines_order_main :
  forall (e : env xr) (c d : calib xr) (at1 at2 : atlas xr) (l1 l2 : list R) ct k b,
    (forall l, is_argsort l (e_argsort e l)) -> pointwise (e_hull e) ->
    reordered c d ->
    get_lines at1 = map Fin l1 -> get_lines at2 = map Fin l2 -> Permutation l1 l2 ->
    outcomes e c [OSetAtlas at1 ct k; OTransform b] = outcomes e d [OSetAtlas at2 ct k; OTransform b] /\
    reordered (set_c_atlas (Some at2) (cal_run e c [OSetAtlas at1 ct k; OTransform b]))
              (cal_run e d [OSetAtlas at2 ct k; OTransform b]).
Proof.
  intros e c d at1 at2 l1 l2 ct k b Ha Hh Hr E1 E2 P.
  set (c1 := fst (cal_step e c (OSetAtlas at1 ct k))). set (d1 := fst (cal_step e d (OSetAtlas at2 ct k))).
  assert (S : snd (cal_step e c (OSetAtlas at1 ct k)) = snd (cal_step e d (OSetAtlas at2 ct k)) /\
              reordered (set_c_atlas (Some at2) c1) d1).
  { subst c1 d1. cbn [cal_step]. unfold set_atlas.
    destruct Hr as (peaks & pairs & t & pts & Hpk & Hpr & Ht & Hpt & ->).
    destruct Hh as [inside Hin]. unfold generate_pairs.
    cbn [c_atlas set_c_constrain set_c_cand_tol set_c_atlas c_peaks c_constrain].
    match goal with |- context[corners ?x] => set (co := corners x);
      match goal with |- context[bind (corners ?y) _] => change (corners y) with co end end.
    change (c_peaks (set_c_points pts (set_c_ht t (set_c_pairs pairs (set_c_peaks peaks c))))) with peaks.
    rewrite E1, E2. assert (Hpk' := Hpk). destruct Hpk' as (x & y & Pa & Pb & Q). rewrite Pa, Pb, !product_FinP.
    assert (PP : Permutation (list_prod x l1) (list_prod y l2)) by (apply list_prod_perm; auto).
    assert (SP : forall u v, pairs_reordered u v ->
      reordered (set_c_atlas (Some at2) (set_c_pairs u (set_c_constrain k (set_c_cand_tol (Some ct) (set_c_atlas (Some at1) c)))))
        (set_c_pairs v (set_c_constrain k (set_c_cand_tol (Some ct) (set_c_atlas (Some at2)
           (set_c_points pts (set_c_ht t (set_c_pairs pairs (set_c_peaks (map Fin y) c))))))))).
    { intros u v H. exists (map Fin y), v, t, pts. cbn. split; [exists x, y; auto|]. auto. }
    assert (S0 : reordered (set_c_atlas (Some at2) (set_c_constrain k (set_c_cand_tol (Some ct) (set_c_atlas (Some at1) c))))
        (set_c_constrain k (set_c_cand_tol (Some ct) (set_c_atlas (Some at2)
           (set_c_points pts (set_c_ht t (set_c_pairs pairs (set_c_peaks (map Fin y) c)))))))).
    { exists (map Fin y), pairs, t, pts. cbn. split; [exists x, y; auto|]. auto. }
    destruct k.
    - destruct co as [co'|ex]; cbn [bind fst snd]; [|auto].
      destruct (list_prod x l1) as [|u1 r1].
      { apply Permutation_nil in PP. rewrite PP. cbn [map fst snd]. auto. }
      destruct (list_prod y l2) as [|u2 r2].
      { symmetry in PP. apply Permutation_nil in PP. discriminate. }
      rewrite !Hin. cbn [map fst snd]. split; auto. apply SP.
      change (FinP u1 :: map FinP r1) with (map FinP (u1 :: r1)).
      change (FinP u2 :: map FinP r2) with (map FinP (u2 :: r2)).
      change (inside co' (FinP u1) :: map (inside co') (map FinP r1)) with (map (inside co') (map FinP (u1 :: r1))).
      change (inside co' (FinP u2) :: map (inside co') (map FinP r2)) with (map (inside co') (map FinP (u2 :: r2))).
      rewrite !mask_select_map, !filter_map_comm. eexists; eexists. split; [reflexivity|]. split; [reflexivity|].
      apply filter_perm. exact PP.
    - cbn [fst snd]. split; auto. apply SP.
      destruct (list_prod x l1) as [|u1 r1].
      { apply Permutation_nil in PP. rewrite PP. cbn. auto. }
      destruct (list_prod y l2) as [|u2 r2].
      { symmetry in PP. apply Permutation_nil in PP. discriminate. }
      cbn [map]. exists (u1 :: r1), (u2 :: r2). auto. }
  destruct S as [S1 S2].
  assert (T := step_reordered e (OTransform b) _ _ Ha Hh S2). cbn [cal_step] in T. rewrite transform_set_atlas in T.
  cbn [fst snd] in T. destruct T as [T1 T2].
  { unfold finite_atlas. cbn. intros a Ea. injection Ea as <-. exists l2. exact E2. }
  split.
  - cbn [outcomes]. f_equal; [exact S1|]. f_equal. exact T1.
  - exact T2.
Qed.

(** Three peaks and two lines in two orders: the pairs differ, the Hough lines do not. *)
Example peaks_order_example_main :
  exists c0 d0 : calib f64,
    calib_init Main_Calib.all_inside [fz 10; fz 20; fz 40] None = Ok c0 /\
    calib_init Main_Calib.all_inside [fz 40; fz 10; fz 20] None = Ok d0 /\
    let c := cal_run Main_Calib.env0 c0 Main_Calib.hough_history in
    let d := cal_run Main_Calib.env0 d0 Main_Calib.hough_history in
    cal_ok Main_Calib.env0 c0 Main_Calib.hough_history /\
    c_pairs c <> c_pairs d /\ c_lines c = c_lines d /\ c_lines c <> None /\ ho_hist (c_ht c) = ho_hist (c_ht d).
Proof.
  eexists; eexists. split; [vm_compute; reflexivity|]. split; [vm_compute; reflexivity|]. cbv zeta.
  split; [vm_compute; repeat split|]. split; [vm_compute; discriminate|]. split; [vm_compute; reflexivity|].
  split; [vm_compute; discriminate|]. vm_compute. reflexivity.
Qed.

(** The assumptions on the libraries and on the atlas can be met. *)
Example peaks_order_hypotheses_example_main :
  pointwise (fun _ p => Ok (map (fun _ => true) p)) /\
  (forall l : list xr, is_argsort l (argsort_stable l)) /\
  forall c : calib xr, c_atlas c = Some (mkAtlas [] (Fin 3000) (Fin 5000) (Fin 500)) \/ c_atlas c = None -> finite_atlas c.
Proof.
  split; [exists (fun _ _ => true); reflexivity|]. split; [intros; apply argsort_stable_ok|].
  intros c [E|E] a Ea; rewrite E in Ea; [|discriminate]. injection Ea as <-. exists []. reflexivity.
Qed.

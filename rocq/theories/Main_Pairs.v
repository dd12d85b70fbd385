(** * Main_Pairs: listing, removing and adding matched pairs by position, and the
    arguments manual_refit rejects, with proofs.  The statements are repeated, without
    proofs, in Props_Pairs.v. *)

From Coq Require Import ZArith Bool List String Lia Reals Lra Sorted Permutation.
From Verif Require Import Num F64 XReal Py Np NpFacts ArgsortFacts Util Models Atlas Hough PolyEval SpecPoly PolyFacts Main_Models Calib SpecCalib Main_Calib Cand SpecCand CandFacts Ransac RansacFacts SampleFacts Main_Ransac Fit Main_Fit MatchPeaks SpecMatch MatchFacts Main_Match Main_Edit SpecPairs.
Import ListNotations.
Local Open Scope num_scope.

Lemma nth_error_combine {S T} : forall (a : list S) (b : list T) k x y,
  nth_error (combine a b) k = Some (x, y) <-> nth_error a k = Some x /\ nth_error b k = Some y.
Proof.
  induction a as [|u a IH]; intros [|v b] [|k] x y; cbn; split; intros H; try (destruct H; congruence); try congruence.
  - split; congruence.
  - apply IH; auto.
  - apply IH in H; auto.
Qed.

Lemma nth_error_numbered {T} (l : list T) k :
  nth_error (combine (seq 0 (List.length l)) l) k = match nth_error l k with Some x => Some (k, x) | None => None end.
Proof.
  destruct (nth_error l k) as [x|] eqn:E.
  - apply nth_error_combine. split; auto.
    assert (L : (k < List.length l)%nat) by (apply nth_error_Some; congruence).
    rewrite (nth_error_nth' (seq 0 (List.length l)) 0%nat) by (rewrite seq_length; auto).
    rewrite seq_nth by auto. reflexivity.
  - apply nth_error_None. apply nth_error_None in E. rewrite combine_length, seq_length. lia.
Qed.

Section P.
  Context {A : Type} {N : Num A}.
  Implicit Types c : calib A.

  Lemma listing_value c : aligned c ->
    get_pix_wave_pairs c = Ok (combine (seq 0 (List.length (matched_pairs c))) (matched_pairs c)).
  Proof.
    intros (H1 & H2 & _). unfold get_pix_wave_pairs, matched_pairs.
    destruct (c_mpeaks c), (c_matlas c); try contradiction; reflexivity.
  Qed.

  Lemma delete_at_in {T} (l : list T) (k : Z) : (0 <= k < Z.of_nat (List.length l))%Z ->
    delete_at l k = Ok (np_delete l (Z.to_nat k)).
  Proof.
    intros H. unfold delete_at.
    destruct (Z.ltb_spec k (- Z.of_nat (List.length l))); [lia|].
    destruct (Z.leb_spec (Z.of_nat (List.length l)) k); [lia|]. cbn [orb].
    destruct (Z.ltb_spec k 0); [lia|]. reflexivity.
  Qed.
  Lemma delete_at_neg {T} (l : list T) (k : Z) : (- Z.of_nat (List.length l) <= k < 0)%Z ->
    delete_at l k = Ok (np_delete l (Z.to_nat (k + Z.of_nat (List.length l)))).
  Proof.
    intros H. unfold delete_at.
    destruct (Z.ltb_spec k (- Z.of_nat (List.length l))); [lia|].
    destruct (Z.leb_spec (Z.of_nat (List.length l)) k); [lia|]. cbn [orb].
    destruct (Z.ltb_spec k 0); [|lia]. reflexivity.
  Qed.
  Lemma delete_at_out {T} (l : list T) (k : Z) : (k < - Z.of_nat (List.length l) \/ Z.of_nat (List.length l) <= k)%Z ->
    delete_at l k = Raise IndexError.
  Proof.
    intros H. unfold delete_at.
    destruct (Z.ltb_spec k (- Z.of_nat (List.length l))); auto.
    destruct (Z.leb_spec (Z.of_nat (List.length l)) k); auto. lia.
  Qed.

  Lemma combine_delete {S T} : forall k (p : list S) (w : list T), List.length p = List.length w ->
    combine (np_delete p k) (np_delete w k) = np_delete (combine p w) k.
  Proof.
    unfold np_delete. induction k as [|k IH]; intros [|x p] [|y w] H; try discriminate; auto.
    injection H as H. change (firstn (Datatypes.S k) (x :: p)) with (x :: firstn k p).
    change (firstn (Datatypes.S k) (y :: w)) with (y :: firstn k w).
    change (skipn (Datatypes.S (Datatypes.S k)) (x :: p)) with (skipn (Datatypes.S k) p).
    change (skipn (Datatypes.S (Datatypes.S k)) (y :: w)) with (skipn (Datatypes.S k) w).
    cbn [combine app]. rewrite IH by auto. reflexivity.
  Qed.

  Lemma np_delete_length {T} : forall k (l : list T), (k < List.length l)%nat -> List.length (np_delete l k) = pred (List.length l).
  Proof. intros k l H. unfold np_delete. rewrite app_length, firstn_length, skipn_length. lia. Qed.

  Lemma insert_delete {T} (l : list T) k v : (k <= List.length l)%nat -> np_delete (np_insert l k v) k = l.
  Proof.
    intros H. unfold np_delete, np_insert.
    assert (L : List.length (firstn k l) = k) by (rewrite firstn_length; lia).
    rewrite firstn_app, L, Nat.sub_diag. cbn [firstn]. rewrite app_nil_r, firstn_firstn, Nat.min_id.
    replace (S k) with (List.length (firstn k l ++ [v])) by (rewrite app_length, L; cbn; lia).
    replace (firstn k l ++ v :: skipn k l)%list with ((firstn k l ++ [v]) ++ skipn k l)%list by (rewrite <- app_assoc; reflexivity).
    rewrite skipn_app, skipn_all, Nat.sub_diag. cbn. apply firstn_skipn.
  Qed.

  Lemma remove_value c k p w :
    c_mpeaks c <> MNone -> c_matlas c <> MNone ->
    delete_at (mseq_vals (c_mpeaks c)) k = Ok p -> delete_at (mseq_vals (c_matlas c)) k = Ok w ->
    remove_pix_wave_pair c k = (set_c_matlas (MArr w) (set_c_mpeaks (MArr p) c), Ok tt).
  Proof.
    intros H1 H2 E1 E2. unfold remove_pix_wave_pair.
    destruct (c_mpeaks c), (c_matlas c); try contradiction; rewrite E1, E2; reflexivity.
  Qed.
End P.

(** C108: the listing numbers the pairs 0, 1, ... in order. *)
Lemma listing_exact_main :
  forall (A : Type) (N : Num A) (c : calib A),
    aligned c ->
    exists l, get_pix_wave_pairs c = Ok l /\ List.length l = List.length (mseq_vals (c_mpeaks c)) /\
      forall pos k p w, nth_error l pos = Some (k, (p, w)) <->
        k = pos /\ nth_error (mseq_vals (c_mpeaks c)) pos = Some p /\ nth_error (mseq_vals (c_matlas c)) pos = Some w.
Proof.
  intros A N c H. rewrite (listing_value c H). eexists. split; [reflexivity|].
  assert (HL : List.length (matched_pairs c) = List.length (mseq_vals (c_mpeaks c))).
  { destruct H as (_ & _ & H). unfold matched_pairs. rewrite combine_length. lia. }
  split; [rewrite combine_length, seq_length; lia|].
  intros pos k p w. rewrite nth_error_numbered. split.
  - destruct (nth_error (matched_pairs c) pos) as [[p' w']|] eqn:E; [|discriminate].
    intros Q. assert (p' = p /\ w' = w /\ k = pos) as (-> & -> & ->) by (repeat split; congruence).
    apply nth_error_combine in E. auto.
  - intros (-> & E1 & E2). unfold matched_pairs.
    rewrite (proj2 (nth_error_combine _ _ pos p w) (conj E1 E2)). reflexivity.
Qed.

(** C108: removing a listed position removes that pair and no other; positions -1, -2,
    ... count from the end; any other position raises and changes nothing. *)
Lemma remove_listed_main :
  forall (A : Type) (N : Num A) (c : calib A) l,
    aligned c -> get_pix_wave_pairs c = Ok l ->
    (forall before k pw after, l = (before ++ (k, pw) :: after)%list ->
       forall arg, arg = Z.of_nat k \/ arg = (Z.of_nat k - Z.of_nat (List.length l))%Z ->
       exists c' l', remove_pix_wave_pair c arg = (c', Ok tt) /\ aligned c' /\ get_pix_wave_pairs c' = Ok l' /\
         map snd l' = (map snd before ++ map snd after)%list) /\
    (forall arg, (arg < - Z.of_nat (List.length l) \/ Z.of_nat (List.length l) <= arg)%Z ->
       remove_pix_wave_pair c arg = (c, Raise IndexError)).
Proof.
  intros A N c l H Hl. pose proof H as (H1 & H2 & H3). rewrite (listing_value c H) in Hl.
  assert (El : l = combine (seq 0 (List.length (matched_pairs c))) (matched_pairs c)) by congruence. clear Hl.
  assert (HM : List.length (matched_pairs c) = List.length (mseq_vals (c_mpeaks c))).
  { unfold matched_pairs. rewrite combine_length. lia. }
  assert (HL : List.length l = List.length (mseq_vals (c_mpeaks c))).
  { rewrite El, combine_length, seq_length. lia. }
  assert (Hsnd : forall (T : Type) (m : list T), map snd (combine (seq 0 (List.length m)) m) = m).
  { intros T m. generalize 0%nat. induction m as [|x m IH]; intros n; cbn; auto. f_equal. apply IH. }
  split.
  - intros before k pw after E arg Harg.
    assert (Ek : nth_error l (List.length before) = Some (k, pw)).
    { rewrite E, nth_error_app2, Nat.sub_diag by lia. reflexivity. }
    assert (Ekk : k = List.length before).
    { rewrite El, nth_error_numbered in Ek. destruct (nth_error (matched_pairs c) _); [|discriminate]. congruence. }
    assert (Hk : (k < List.length (mseq_vals (c_mpeaks c)))%nat).
    { rewrite <- HL, E, app_length. cbn. lia. }
    assert (D1 : delete_at (mseq_vals (c_mpeaks c)) arg = Ok (np_delete (mseq_vals (c_mpeaks c)) k)).
    { destruct Harg as [->| ->].
      - rewrite delete_at_in by lia. rewrite Nat2Z.id. reflexivity.
      - rewrite HL, delete_at_neg by lia. do 2 f_equal. lia. }
    assert (D2 : delete_at (mseq_vals (c_matlas c)) arg = Ok (np_delete (mseq_vals (c_matlas c)) k)).
    { destruct Harg as [->| ->].
      - rewrite delete_at_in by lia. rewrite Nat2Z.id. reflexivity.
      - rewrite HL, H3, delete_at_neg by lia. do 2 f_equal. lia. }
    eexists. eexists. split; [apply (remove_value c arg _ _ H1 H2 D1 D2)|].
    match goal with |- aligned ?c' /\ _ => assert (Ha : aligned c') end.
    { split; [discriminate|]. split; [discriminate|]. cbn [c_mpeaks c_matlas set_c_mpeaks set_c_matlas mseq_vals].
      rewrite !np_delete_length by lia. lia. }
    split; [exact Ha|]. split; [apply listing_value; exact Ha|].
    rewrite Hsnd. unfold matched_pairs at 1. cbn [c_mpeaks c_matlas set_c_mpeaks set_c_matlas mseq_vals].
    rewrite combine_delete by auto. fold (matched_pairs c).
    assert (Em : matched_pairs c = (map snd before ++ pw :: map snd after)%list).
    { rewrite <- (Hsnd _ (matched_pairs c)), <- El, E, map_app. reflexivity. }
    rewrite Em, Ekk. unfold np_delete. rewrite <- (map_length snd before).
    rewrite firstn_app, Nat.sub_diag, firstn_all. cbn [firstn]. rewrite app_nil_r. f_equal.
    replace (S (List.length (map snd before))) with (List.length (map snd before ++ [pw])) by (rewrite app_length; cbn; lia).
    replace (map snd before ++ pw :: map snd after)%list with ((map snd before ++ [pw]) ++ map snd after)%list by (rewrite <- app_assoc; reflexivity).
    rewrite skipn_app, skipn_all, Nat.sub_diag. reflexivity.
  - intros arg Ho. rewrite HL in Ho. unfold remove_pix_wave_pair.
    pose proof (delete_at_out (mseq_vals (c_mpeaks c)) arg Ho) as D.
    destruct (c_mpeaks c), (c_matlas c); try contradiction; rewrite D; reflexivity.
Qed.

(** C109: a pair just added is listed, and removing it at its position restores the
    pairs; nothing else changes. *)
Lemma remove_undoes_add_main :
  forall (A : Type) (N : Num A) (c c1 : calib A) pix wave,
    aligned c -> add_pix_wave_pair c pix wave = (c1, Ok tt) ->
    exists k l c2,
      get_pix_wave_pairs c1 = Ok l /\ nth_error l k = Some (k, (pix, wave)) /\
      remove_pix_wave_pair c1 (Z.of_nat k) = (c2, Ok tt) /\
      get_pix_wave_pairs c2 = get_pix_wave_pairs c /\
      set_c_matlas (c_matlas c) (set_c_mpeaks (c_mpeaks c) c2) = c.
Proof.
  intros A N c c1 pix wave H Hadd. pose proof H as (H1 & H2 & H3). unfold add_pix_wave_pair in Hadd.
  destruct (c_mpeaks c) as [p|p|] eqn:Ep; [discriminate| |discriminate].
  destruct (np_where (fun q => q <' pix) p) as [|k ks]; [discriminate|].
  assert (Hm : exists w, mseq_vals (c_matlas c) = w) by eauto. destruct Hm as [w Ew].
  assert (G : (if Nat.ltb (List.length w) k then (c, Raise IndexError)
     else (set_c_matlas (MArr (np_insert w k wave)) (set_c_mpeaks (MArr (np_insert p k pix)) c), Ok tt)) = (c1, Ok tt)).
  { rewrite <- Ew. destruct (c_matlas c); try contradiction; exact Hadd. }
  clear Hadd. destruct (Nat.ltb_spec (List.length w) k) as [|Hk]; [discriminate|].
  assert (E1 : c1 = set_c_matlas (MArr (np_insert w k wave)) (set_c_mpeaks (MArr (np_insert p k pix)) c)) by congruence.
  cbn [mseq_vals] in H3. rewrite Ew in H3.
  assert (LI : forall (T : Type) (l : list T) v, (k <= List.length l)%nat -> List.length (np_insert l k v) = S (List.length l)).
  { intros T l v L. unfold np_insert. rewrite app_length, firstn_length. cbn. rewrite skipn_length. lia. }
  assert (Ha : aligned c1).
  { rewrite E1. split; [discriminate|]. split; [discriminate|]. cbn [c_mpeaks c_matlas set_c_mpeaks set_c_matlas mseq_vals].
    rewrite !LI by lia. lia. }
  assert (NI : forall (T : Type) (l : list T) v, (k <= List.length l)%nat -> nth_error (np_insert l k v) k = Some v).
  { intros T l v L. unfold np_insert. rewrite nth_error_app2; rewrite firstn_length_le by lia; [|lia].
    rewrite Nat.sub_diag. reflexivity. }
  exists k. eexists. eexists. split; [apply listing_value; exact Ha|]. split.
  - rewrite nth_error_numbered. unfold matched_pairs. rewrite E1. cbn [c_mpeaks c_matlas set_c_mpeaks set_c_matlas mseq_vals].
    rewrite (proj2 (nth_error_combine _ _ k pix wave)); [reflexivity|]. split; apply NI; lia.
  - assert (D1 : delete_at (mseq_vals (c_mpeaks c1)) (Z.of_nat k) = Ok p).
    { rewrite E1. cbn [c_mpeaks set_c_mpeaks set_c_matlas mseq_vals].
      rewrite delete_at_in by (rewrite LI by lia; lia). rewrite Nat2Z.id, insert_delete by lia. reflexivity. }
    assert (D2 : delete_at (mseq_vals (c_matlas c1)) (Z.of_nat k) = Ok w).
    { rewrite E1. cbn [c_matlas set_c_mpeaks set_c_matlas mseq_vals].
      rewrite delete_at_in by (rewrite LI by lia; lia). rewrite Nat2Z.id, insert_delete by lia. reflexivity. }
    split; [apply remove_value; [rewrite E1; discriminate|rewrite E1; discriminate|exact D1|exact D2]|].
    split.
    + rewrite (listing_value c) by (split; [rewrite Ep; discriminate|]; split; auto; rewrite Ep, Ew; exact H3).
      rewrite listing_value.
      * unfold matched_pairs. cbn [c_mpeaks c_matlas set_c_mpeaks set_c_matlas mseq_vals]. rewrite Ep, Ew. reflexivity.
      * split; [discriminate|]. split; [discriminate|]. exact H3.
    + rewrite E1. rewrite <- Ep. destruct c; reflexivity.
Qed.

(** Non-vacuity of C108 and C109. *)
Example listing_example_main :
  let c := set_c_matlas (MArr [fz 600; fz 500; fz 400]) (set_c_mpeaks (MArr [fz 30; fz 20; fz 10]) (calib_blank [] None)) in
  aligned c /\
  get_pix_wave_pairs c = Ok [(0, (fz 30, fz 600)); (1, (fz 20, fz 500)); (2, (fz 10, fz 400))]%nat /\
  get_pix_wave_pairs (fst (remove_pix_wave_pair c (-2))) = Ok [(0, (fz 30, fz 600)); (1, (fz 10, fz 400))]%nat /\
  get_pix_wave_pairs (fst (add_pix_wave_pair c (fz 15) (fz 450))) =
    Ok [(0, (fz 30, fz 600)); (1, (fz 20, fz 500)); (2, (fz 15, fz 450)); (3, (fz 10, fz 400))]%nat.
Proof. cbv zeta. split; [split; [discriminate|split; [discriminate|reflexivity]]|]. vm_compute. auto. Qed.

(** C76: a refit needs a starting point that is a list, a degree of at least 1 below
    the number of pairs, as many wavelengths as pixels, and as many starting values as
    coefficients; otherwise it raises and changes nothing. *)
Lemma manual_refit_rejects_main :
  forall (A : Type) (N : Num A) (o : oracle A) (c : calib A) (a : refit_args A),
    let x := mseq_vals (given_or (rf_peaks a) (c_mpeaks c)) in
    let y := mseq_vals (given_or (rf_atlas a) (c_matlas c)) in
    ((exists l, rf_x0 a = MArr l) \/ refit_degree c a = None \/
     (exists d, refit_degree c a = Some d /\
        ((d < 1)%Z \/ (Z.of_nat (List.length x) <= d)%Z \/
         (exists l, rf_x0 a = MList l /\ Z.of_nat (List.length l) <> (d + 1)%Z))) \/
     List.length x <> List.length y) ->
    exists e, manual_refit o c a = (c, Raise e).
Proof.
  intros A N o c a x y H.
  destruct (Nat.eq_dec (List.length x) (List.length y)) as [L|L].
  2:{ destruct (manual_refit_validates_main A N o c a) as [V _]. specialize (V L). destruct V as [V1 [e V2]].
      exists e. destruct (manual_refit o c a); cbn in *; congruence. }
  destruct H as [H|[H|[H|H]]]; [| | |contradiction].
  - destruct H as [l H]. unfold manual_refit, refit_start. rewrite H. destruct (rf_deg a); eauto.
  - unfold refit_degree in H. unfold manual_refit, refit_start.
    destruct (rf_deg a); [discriminate|]. destruct (rf_x0 a); [discriminate|eauto|].
    destruct (c_coeff c); [discriminate|eauto].
  - destruct H as (d & Hd & H).
    assert (G : forall x0 d', refit_start c a = Ok (x0, d') -> d' = d /\
                ((d < 1)%Z \/ (Z.of_nat (List.length x) <= d)%Z)).
    { intros x0 d' E. unfold refit_degree in Hd. unfold refit_start in E.
      destruct (rf_x0 a) as [l|l|]; [| destruct (rf_deg a); discriminate |].
      - destruct (rf_deg a) as [dd|].
        + destruct (Z.eqb_spec (Z.of_nat (List.length l)) (dd + 1)); [|discriminate].
          split; [congruence|]. destruct H as [H|[H|(l' & E' & H)]]; auto. exfalso. apply H.
          assert (l' = l) by congruence. subst l'. congruence.
        + split; [congruence|]. destruct H as [H|[H|(l' & E' & H)]]; auto. exfalso. apply H.
          assert (l' = l) by congruence. subst l'. assert (d = (Z.of_nat (List.length l) - 1)%Z) by congruence. lia.
      - destruct (rf_deg a) as [dd|].
        + split; [congruence|]. destruct H as [H|[H|(l' & E' & H)]]; auto. discriminate.
        + destruct (c_coeff c) as [l|]; [|discriminate].
          split; [congruence|]. destruct H as [H|[H|(l' & E' & H)]]; auto. discriminate. }
    unfold manual_refit. destruct (refit_start c a) as [[x0 d']|e] eqn:E; [|eauto].
    destruct (G x0 d' eq_refl) as [-> G'].
    assert (C : negb (Nat.eqb (List.length x) (List.length y) && negb (Nat.eqb (List.length x) 0) && (0 <? d)%Z &&
                     (d <=? Z.of_nat (List.length x) - 1)%Z) = true).
    { destruct (Z.ltb_spec 0 d); [|rewrite andb_false_r; reflexivity].
      destruct (Z.leb_spec d (Z.of_nat (List.length x) - 1)); [lia|]. rewrite andb_false_r. reflexivity. }
    unfold x, y, given_or in C.
    destruct (rf_peaks a), (rf_atlas a), (c_mpeaks c), (c_matlas c); cbn [mseq_vals] in C |- *; try rewrite C; eauto.
Qed.

Example manual_refit_rejects_example_main :
  let c := set_c_coeff (Some [fz 1; fz 2]) (calib_blank [] None) in
  let a := mkRF (MList [fz 1; fz 2]) (MList [fz 3; fz 4]) (Some 2%Z) MNone in
  refit_degree c a = Some 2%Z /\ refit_degree c (mkRF MNone MNone None MNone) = Some 1%Z.
Proof. auto. Qed.

(** * LoadFacts: proofs about load_calibration_lines. *)

From Coq Require Import ZArith Bool List String Lia Permutation Sorted Reals Lra.
From Verif Require Import Num XReal Py Np NpFacts Util SpecUtil UtilFacts SepFacts.
Import ListNotations.

Section Gen.
  Context {A : Type} {N : Num A} {O : NumOrder A}.
  Local Open Scope num_scope.

  Lemma str_in_In s l : str_in s l = true <-> In s l.
  Proof.
    unfold str_in. rewrite existsb_exists. split.
    - intros (x & Hx & E). apply String.eqb_eq in E. subst; auto.
    - intros H. exists s. split; auto. apply String.eqb_refl.
  Qed.

  Lemma filter_ext_eq {T} (f g : T -> bool) l : (forall x, f x = g x) -> filter f l = filter g l.
  Proof. intros H. induction l; cbn; auto. rewrite H, IHl. auto. Qed.

  Lemma requested_eq elements (rows : list (line A)) :
    mask_select (map (fun l => str_in (l_el l) elements) rows) rows = requested elements rows.
  Proof.
    rewrite (mask_select_map (fun l => str_in (l_el l) elements)). apply filter_ext_eq. intros r.
    destruct (in_dec string_dec (l_el r) elements) as [i|i].
    - apply str_in_In; auto.
    - destruct (str_in (l_el r) elements) eqn:E; auto. apply str_in_In in E. tauto.
  Qed.

  Lemma intensity_mask_spec elements (lines : list (line A)) m mask :
    intensity_mask elements lines m = Ok mask ->
    forall r, In r (mask_select mask lines) <-> In r lines /\ bright_enough elements m r.
  Proof.
    assert (D : forall mm, filter_intensity elements lines mm = Ok mask ->
                forall r, In r (mask_select mask lines) <-> In r lines /\
                   exists t, threshold elements mm (l_el r) t /\ t <=' l_int r = true).
    { intros mm H r. apply filter_intensity_ok in H. destruct H as (_ & Hl & H). rewrite mask_select_In. split.
      - intros (i & H1 & H2). split; [eapply nth_error_In; eauto|].
        destruct (H i r H2) as (t & Ht & E). exists t. split; auto. congruence.
      - intros (Hin & t & Ht & Hle). apply In_nth_error in Hin. destruct Hin as [i Hi].
        exists i. split; auto. destruct (H i r Hi) as (t' & Ht' & E). rewrite E.
        assert (t' = t); [|congruence].
        destruct mm; cbn in Ht, Ht'; try tauto.
        + destruct Ht, Ht'; congruence.
        + destruct Ht, Ht'; congruence.
        + destruct Ht as (k & K1 & K2 & K3), Ht' as (k' & K1' & K2' & K3').
          destruct (Nat.lt_trichotomy k k') as [L|[L|L]].
          * exfalso. apply (K3 k' L). auto.
          * subst. congruence.
          * exfalso. apply (K3' k L). auto. }
    destruct m; cbn [intensity_mask bright_enough]; auto.
    - intros H; injection H as <-. intros r. rewrite mask_select_all_true. tauto.
    - intros H; injection H as <-. intros r. rewrite mask_select_all_true. tauto.
  Qed.

  Lemma requested_incl elements (rows : list (line A)) : incl (requested elements rows) rows.
  Proof. intros r H. apply filter_In in H. tauto. Qed.

  Lemma load_select_spec cat (a : load_args A) rows sel :
    read_linelist cat (la_linelist a) = Ok rows ->
    (forall r, In r rows -> nisnan (l_wl r) = false) ->
    load_select cat a = Ok sel ->
    selection rows (la_elements a) (fst (load_limits a)) (snd (load_limits a)) (la_min_intensity a) sel
    /\ incl sel rows.
  Proof.
    unfold load_select. intros -> Hn. cbn [bind]. rewrite requested_eq.
    destruct (load_limits a) as [lo hi]. cbn [fst snd].
    destruct (intensity_mask _ _ _) as [m|e] eqn:E; cbn [bind]; [|discriminate].
    intros H; injection H as <-.
    assert (Hn' : forall r, In r (requested (la_elements a) rows) -> nisnan (l_wl r) = false).
    { intros r Hr. apply Hn. eapply requested_incl; eauto. }
    destruct (filter_wavelengths_spec (requested (la_elements a) rows) lo hi Hn') as [S1 S2].
    split; [split|].
    - apply SS_mask_select. exact S1.
    - intros r. rewrite (intensity_mask_spec _ _ _ _ E), S2. tauto.
    - intros r Hr. apply mask_select_incl in Hr. apply filter_wavelengths_incl in Hr.
      eapply requested_incl; eauto.
  Qed.

  Lemma load_brightest_spec argsort n (lines : list (line A)) :
    is_argsort (map l_int lines) (argsort (map l_int lines)) ->
    (forall r, In r lines -> nisnan (l_int r) = false) ->
    let out := load_brightest argsort (Some n) lines in
    List.length out = Nat.min n (List.length lines) /\
    exists rest, Permutation (out ++ rest) lines /\
      forall r q, In r rest -> In q out -> l_int r <=' l_int q = true.
  Proof.
    intros [HP HS] Hn out. rewrite map_length in HP.
    set (p := argsort (map l_int lines)) in *.
    assert (HPr : Permutation (rev p) (seq 0 (List.length lines))).
    { rewrite <- HP. apply Permutation_sym, Permutation_rev. }
    assert (Hout : out = gather lines (firstn n (rev p))) by reflexivity.
    assert (Hin : forall i, In i (rev p) -> (i < List.length lines)%nat).
    { intros i Hi. apply (Permutation_in _ HPr) in Hi. apply in_seq in Hi. lia. }
    split.
    - rewrite Hout, gather_length, firstn_length.
      + f_equal. rewrite (Permutation_length HPr). apply seq_length.
      + intros i Hi. apply Hin. rewrite <- (firstn_skipn n (rev p)). apply in_or_app; auto.
    - exists (gather lines (skipn n (rev p))). split.
      + rewrite Hout, <- gather_app, firstn_skipn. apply gather_perm; auto.
      + intros r q Hr Hq. rewrite Hout in Hq.
        apply gather_In in Hr. apply gather_In in Hq.
        destruct Hr as (i & Hi & Ei), Hq as (j & Hj & Ej).
        apply SS_rev in HS. destruct (SS_firstn _ n _ HS) as [_ HF].
        specialize (HF j i Hj Hi (l_int r) (l_int q)).
        rewrite !nth_error_map, Ei, Ej in HF. specialize (HF eq_refl eq_refl).
        assert (nisnan (l_int r) = false) by (apply Hn; eapply nth_error_In; eauto).
        assert (nisnan (l_int q) = false) by (apply Hn; eapply nth_error_In; eauto).
        rewrite np_lt_ltb in HF by auto. apply ltb_false_leb; auto.
  Qed.
  (** A strictly sorted list is determined by its members. *)
  Lemma increasing_unique (l1 l2 : list (line A)) :
    increasing_wl l1 -> increasing_wl l2 -> (forall r, In r l1 <-> In r l2) -> l1 = l2.
  Proof.
    revert l2. induction l1 as [|x l1 IH]; intros [|y l2] S1 S2 H.
    - reflexivity.
    - exfalso. apply (H y). left. reflexivity.
    - exfalso. apply (H x). left. reflexivity.
    - inversion S1 as [|? ? S1a S1b]; inversion S2 as [|? ? S2a S2b]; subst.
      rewrite Forall_forall in S1b, S2b.
      assert (E : x = y).
      { destruct (proj1 (H x) (or_introl eq_refl)) as [E|Hx]; [auto|].
        destruct (proj2 (H y) (or_introl eq_refl)) as [E|Hy]; [auto|].
        specialize (S1b y Hy). specialize (S2b x Hx). cbv beta in *.
        pose proof (ltb_trans _ _ _ S1b S2b) as K. rewrite ltb_irrefl in K. discriminate. }
      subst y. f_equal. apply IH; auto. intros r. split; intros Hr.
      + destruct (proj1 (H r) (or_intror Hr)) as [E|K]; [|exact K]. subst r.
        specialize (S1b x Hr). cbv beta in S1b. rewrite ltb_irrefl in S1b. discriminate.
      + destruct (proj2 (H r) (or_intror Hr)) as [E|K]; [|exact K]. subst r.
        specialize (S2b x Hr). cbv beta in S2b. rewrite ltb_irrefl in S2b. discriminate.
  Qed.

  (** The selection exists, is unique and is what load_select computes. *)
  Lemma load_select_total cat (a : load_args A) rows sel :
    read_linelist cat (la_linelist a) = Ok rows ->
    (forall r, In r rows -> nisnan (l_wl r) = false) ->
    (forall l, la_min_intensity a = ThList l -> List.length l = List.length (la_elements a)) ->
    selection rows (la_elements a) (fst (load_limits a)) (snd (load_limits a)) (la_min_intensity a) sel ->
    load_select cat a = Ok sel.
  Proof.
    intros Hr Hn Hv [S1 S2].
    destruct (load_select cat a) as [sel'|e] eqn:E.
    - destruct (load_select_spec cat a rows sel' Hr Hn E) as [[S1' S2'] _]. f_equal.
      apply increasing_unique; auto. intros r. rewrite S2, S2'. tauto.
    - exfalso. unfold load_select in E. rewrite Hr in E. cbn [bind] in E. rewrite requested_eq in E.
      destruct (load_limits a) as [lo hi]. clear S1 S2.
      destruct (intensity_mask _ _ _) as [m|e'] eqn:Em; cbn [bind] in E; [discriminate|].
      assert (K : filter_intensity (la_elements a) (filter_wavelengths (requested (la_elements a) rows) lo hi)
                    (la_min_intensity a) = Raise e' /\ la_min_intensity a <> ThOther).
      { destruct (la_min_intensity a); cbn [intensity_mask] in Em; try discriminate; split; auto; discriminate. }
      destruct K as [K K0]. apply filter_intensity_raise in K.
      destruct K as [[_ K]|[(_ & l & K1 & K2)|(_ & _ & l & K1 & K2)]]; [auto|apply K2, Hv, K1|].
      apply filter_wavelengths_incl in K1. unfold requested in K1. apply filter_In in K1.
      destruct K1 as [_ K1]. destruct (in_dec string_dec (l_el l) (la_elements a)); [auto|discriminate].
  Qed.
End Gen.

Local Open Scope R_scope.

(** Two rows with (finite) wavelengths at least d apart. *)
Lemma finite_rows (sel : list (line xr)) :
  (forall r, In r sel -> exists w, l_wl r = Fin w) ->
  exists rs, map l_wl sel = map Fin rs.
Proof.
  induction sel as [|r sel IH]; intros H.
  - exists []; auto.
  - destruct IH as [rs IH]; [intros q Hq; apply H; cbn; auto|].
    destruct (H r) as [w Hw]; [cbn; auto|]. exists (w :: rs). cbn. congruence.
Qed.

Lemma load_separate_spec (sel : list (line xr)) (d : R) kept :
  (forall r, In r sel -> exists w, l_wl r = Fin w) ->
  increasing_wl sel ->
  load_separate (Fin d) sel = Ok kept ->
  subseq kept sel /\
  (forall i r, nth_error sel i = Some r ->
     (In r kept <-> (0 < d -> (2 <= List.length sel)%nat /\
        forall j q, (j = S i \/ i = S j)%nat -> nth_error sel j = Some q -> apart d r q))) /\
  (0 < d -> forall r q, In r kept -> In q kept -> r <> q -> apart d r q).
Proof.
  intros Hf HS. unfold load_separate. rewrite nZ_Fin. cbn [nltb XRnum xltb].
  destruct (Rltb_spec 0 d) as [Hd|Hd].
  2:{ intros H; injection H as <-. rewrite mask_select_all_true. split; [apply subseq_refl|]. split.
      - intros i r Hr. split; [intros _ ?; lra|]. intros _. eapply nth_error_In; eauto.
      - intros ?; lra. }
  destruct (finite_rows sel Hf) as [rs Hrs].
  assert (Hlen : List.length rs = List.length sel).
  { apply (f_equal (@List.length xr)) in Hrs. rewrite !map_length in Hrs. auto. }
  assert (Hnth : forall i r, nth_error sel i = Some r -> exists w, nth_error rs i = Some w /\ l_wl r = Fin w).
  { intros i r Hr. apply (f_equal (fun l => nth_error l i)) in Hrs. rewrite !nth_error_map, Hr in Hrs.
    cbn in Hrs. destruct (nth_error rs i); cbn in Hrs; [|discriminate]. injection Hrs as E. eauto. }
  assert (HSr : StronglySorted Rlt rs).
  { apply SS_of_nth_error. intros i j x y Hij Hx Hy.
    destruct (nth_error sel i) as [r|] eqn:Er.
    2:{ apply nth_error_None in Er. assert (i < List.length rs)%nat by (apply nth_error_Some; congruence). lia. }
    destruct (nth_error sel j) as [q|] eqn:Eq.
    2:{ apply nth_error_None in Eq. assert (j < List.length rs)%nat by (apply nth_error_Some; congruence). lia. }
    pose proof (SS_nth_error _ _ _ _ _ _ HS Hij Er Eq) as L. cbn beta in L.
    destruct (Hnth i r Er) as (w & Hw & Ew), (Hnth j q Eq) as (v & Hv & Ev).
    rewrite Ew, Ev in L. cbn in L. apply Rltb_true in L.
    assert (w = x) by congruence. assert (v = y) by congruence. subst. auto. }
  assert (HSle : StronglySorted Rle rs).
  { eapply SS_impl; [|exact HSr]. intros; lra. }
  assert (HND : NoDup rs).
  { apply (SS_NoDup Rlt); auto. intros x Hx. lra. }
  assert (Hpos : forall i j r, nth_error sel i = Some r -> nth_error sel j = Some r -> i = j).
  { intros i j r Hi Hj. destruct (Hnth i r Hi) as (w & Hw & Ew), (Hnth j r Hj) as (v & Hv & Ev).
    assert (w = v) by congruence. subst v.
    apply (proj1 (NoDup_nth_error rs) HND); [|congruence].
    apply nth_error_Some; congruence. }
  rewrite Hrs. destruct (le_lt_dec 2 (List.length rs)) as [L2|L2].
  - destruct (filter_separation_real rs d L2 HSle) as (m & Hm & Hml & Hc & Hp).
    rewrite Hm. cbn [bind]. intros H; injection H as <-.
    assert (HIn : forall i r, nth_error sel i = Some r ->
                   (In r (mask_select m sel) <-> nth_error m i = Some true)).
    { intros i r Hr. rewrite mask_select_In. split.
      - intros (j & H1 & H2). assert (i = j) by (eapply Hpos; eauto). subst. auto.
      - intros H. exists i; auto. }
    split; [apply subseq_mask|]. split.
    + intros i r Hr. rewrite (HIn i r Hr). destruct (Hnth i r Hr) as (w & Hw & Ew).
      rewrite (Hc i w Hw). split.
      * intros H _. split; [lia|]. intros j q Hj Hq. destruct (Hnth j q Hq) as (v & Hv & Ev).
        exists w, v. split; auto. split; auto. apply (H j); auto.
      * intros H j v Hj Hv. destruct (H Hd) as [_ H'].
        destruct (nth_error sel j) as [q|] eqn:Eq.
        2:{ apply nth_error_None in Eq. assert (j < List.length rs)%nat by (apply nth_error_Some; congruence). lia. }
        destruct (H' j q Hj Eq) as (w' & v' & E1 & E2 & E3).
        destruct (Hnth j q Eq) as (v2 & Hv2 & Ev2).
        assert (w' = w) by congruence. assert (v' = v) by congruence. subst. auto.
    + intros _ r q Hr Hq Hne.
      apply mask_select_In in Hr. apply mask_select_In in Hq.
      destruct Hr as (i & Hi & Er), Hq as (j & Hj & Eq).
      destruct (Hnth i r Er) as (w & Hw & Ew), (Hnth j q Eq) as (v & Hv & Ev).
      exists w, v. split; auto. split; auto. apply (Hp i j); auto. intros ->. congruence.
  - destruct rs as [|w [|w2 rs]]; cbn in L2; [| |lia].
    + cbn. discriminate.
    + change (filter_separation (map Fin [w]) (Fin d)) with (Ok [xleb (Fin d) (xabs (nZ 0 : xr))]). rewrite nZ_Fin. cbn. rewrite Rabs_R0. intros H; injection H as <-.
      destruct sel as [|r [|? ?]]; cbn in Hlen; try lia.
      destruct (Rleb_spec d 0) as [|_]; [lra|].
      rewrite mask_select_cons, mask_select_nil_l.
      split; [apply subseq_nil_l|]. split.
      * intros [|[|i]] q Hq; try discriminate. cbn. split; [tauto|]. intros H. destruct (H Hd). lia.
      * intros _ ? ? [].
Qed.

(** Rows converted to air as load_calibration_lines does at the end. *)
Definition row_to_air {A} {N : Num A} (a : load_args A) (r : line A) : line A :=
  mkLine (l_el r)
         (ndiv (l_wl r) (refraction_at (l_wl r) (la_temperature a) (la_pressure a) (la_rh a)))
         (l_int r).

Lemma to_air_rows {A} {N : Num A} (a : load_args A) (l : list (line A)) :
  map (fun p => mkLine (l_el (fst p)) (snd p) (l_int (fst p)))
      (combine l (vacuum_to_air (map l_wl l) (la_temperature a) (la_pressure a) (la_rh a)))
  = map (row_to_air a) l.
Proof.
  unfold vacuum_to_air. induction l as [|r l IH]; cbn; auto. f_equal; auto.
Qed.

Lemma load_unfold {A} {N : Num A} argsort cat (a : load_args A) out :
  load_calibration_lines argsort cat a = Ok out <->
  exists sel kept, load_select cat a = Ok sel /\
    load_separate (la_min_distance a) (load_brightest argsort (la_brightest_n a) sel) = Ok kept /\
    out = if la_vacuum a then kept else map (row_to_air a) kept.
Proof.
  unfold load_calibration_lines. destruct (load_select cat a) as [sel|e]; cbn [bind].
  2:{ split; [discriminate|]. intros (? & ? & ? & _). discriminate. }
  destruct (load_separate _ _) as [kept|e] eqn:E; cbn [bind].
  2:{ split; [discriminate|]. intros (s & k & H1 & H2 & _). injection H1 as <-. congruence. }
  rewrite to_air_rows. split.
  - intros H. exists sel, kept. split; auto. split; auto. destruct (la_vacuum a); congruence.
  - intros (s & k & H1 & H2 & ->). injection H1 as <-.
    assert (k = kept) by congruence. subst. destruct (la_vacuum a); auto.
Qed.

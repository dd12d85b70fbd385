(** * UtilFacts: proofs about the model of util.py (line lists and peaks). *)

From Coq Require Import ZArith Bool List String Lia Permutation Sorted.
From Verif Require Import Num Py Np NpFacts Util SpecUtil.
Import ListNotations.
Local Open Scope num_scope.

Lemma subseq_refl {T} (l : list T) : subseq l l.
Proof. induction l; constructor; auto. Qed.
Lemma subseq_nil_l {T} (l : list T) : subseq [] l.
Proof. induction l; constructor; auto. Qed.
Lemma subseq_filter {T} (f : T -> bool) (l : list T) : subseq (filter f l) l.
Proof. induction l; cbn; [constructor|]. destruct (f a); constructor; auto. Qed.
Lemma subseq_mask {T} m (l : list T) : subseq (mask_select m l) l.
Proof.
  revert m. induction l as [|a l IH]; intros [|b m].
  - constructor.
  - constructor.
  - apply subseq_nil_l.
  - rewrite mask_select_cons. destruct b; constructor; auto.
Qed.
Lemma subseq_trans {T} (l1 l2 l3 : list T) : subseq l1 l2 -> subseq l2 l3 -> subseq l1 l3.
Proof.
  intros H1 H2. revert l1 H1. induction H2; intros l0 H0; auto.
  - inversion H0; subst; constructor; auto.
  - constructor; auto.
Qed.
Lemma subseq_length {T} (l1 l2 : list T) : subseq l1 l2 -> (List.length l1 <= List.length l2)%nat.
Proof. induction 1; cbn; lia. Qed.
Lemma subseq_incl {T} (l1 l2 : list T) : subseq l1 l2 -> incl l1 l2.
Proof.
  induction 1 as [|y l1 l2 H IH|y l1 l2 H IH]; intros x Hx; cbn in *; auto.
  destruct Hx as [->|Hx]; auto.
Qed.
Lemma subseq_map {T U} (f : T -> U) l1 l2 : subseq l1 l2 -> subseq (map f l1) (map f l2).
Proof. induction 1; cbn; constructor; auto. Qed.

Section Facts.
  Context {A : Type} {N : Num A} {O : NumOrder A}.

  (* ---------------------------------------------------------------- *)
  (** ** filter_wavelengths *)

  Definition wl_of (p : line A * nat) : A := l_wl (fst p).

  Lemma filter_wavelengths_eq (lines : list (line A)) lo hi :
    filter_wavelengths lines lo hi =
    filter (fun r => (lo <=' l_wl r) && (l_wl r <=' hi))
      (map fst (dedup_by wl_of (sort_by wl_of (combine lines (seq 0 (List.length lines)))))).
  Proof.
    unfold filter_wavelengths, np_unique_index. rewrite map_length, combine_map_l.
    set (L0 := combine lines (seq 0 (List.length lines))).
    rewrite (sort_by_map (fun p : line A * nat => (l_wl (fst p), snd p)) wl_of fst) by reflexivity.
    rewrite (dedup_by_map (fun p : line A * nat => (l_wl (fst p), snd p)) wl_of fst) by reflexivity.
    rewrite map_map. cbn [snd].
    set (L := dedup_by wl_of (sort_by wl_of L0)).
    rewrite gather_map.
    assert (G : gather lines (map (fun x : line A * nat => snd x) L) = map fst L).
    { apply gather_pairs. intros x i Hx. apply dedup_by_incl in Hx. apply sort_by_In in Hx.
      apply combine_seq_In in Hx. rewrite Nat.sub_0_r in Hx. tauto. }
    rewrite G, map_map. rewrite (mask_select_map (fun x => (lo <=' l_wl x) && (l_wl x <=' hi))).
    reflexivity.
  Qed.

  Lemma unique_rows_spec (lines : list (line A)) :
    (forall r, In r lines -> nisnan (l_wl r) = false) ->
    let L := map fst (dedup_by wl_of (sort_by wl_of (combine lines (seq 0 (List.length lines))))) in
    increasing_wl L /\ (forall r, In r L <-> exists i, earliest lines i r).
  Proof.
    intros Hn L.
    set (L0 := combine lines (seq 0 (List.length lines))) in *.
    assert (Hn0 : forall p, In p L0 -> nisnan (wl_of p) = false).
    { intros [r i] Hp. apply in_combine_l in Hp. apply Hn; auto. }
    assert (Hn1 : forall p, In p (sort_by wl_of L0) -> nisnan (wl_of p) = false).
    { intros p Hp. apply sort_by_In in Hp. auto. }
    assert (St : StronglySorted (stable_lt wl_of (fun p q => (snd p < snd q)%nat)) (sort_by wl_of L0)).
    { apply sort_by_stable; auto. apply combine_seq_SS. }
    assert (HInc : StronglySorted (fun p q => wl_of p <' wl_of q = true) (dedup_by wl_of (sort_by wl_of L0))).
    { apply dedup_by_sorted. apply sort_by_sorted; auto. }
    split.
    - unfold increasing_wl, L. apply SS_map. exact HInc.
    - intros r. unfold L. rewrite in_map_iff. split.
      + intros ([r' i] & E & Hin). cbn in E; subst r'. exists i.
        assert (Hin0 := Hin). apply dedup_by_incl in Hin0. apply sort_by_In in Hin0.
        apply combine_seq_In in Hin0. rewrite Nat.sub_0_r in Hin0. destruct Hin0 as [_ Hi].
        split; auto. intros j q Hj Hq.
        destruct (l_wl q ==' l_wl r) eqn:E; auto. exfalso.
        assert (Hqin : In (q, j) (sort_by wl_of L0)).
        { apply sort_by_In. apply combine_seq_In. rewrite Nat.sub_0_r. split; [lia|auto]. }
        destruct (dedup_by_repr wl_of (fun p q => (snd p < snd q)%nat) (sort_by wl_of L0)) with (x := (q, j))
          as ([y k] & Hy & Ey & Ry); auto.
        { intros; lia. }
        assert (Hk : (k <= j)%nat) by (destruct Ry as [Ry|Ry]; [injection Ry as -> ->; lia|cbn in Ry; lia]).
        assert (Eyr : wl_of (y, k) ==' wl_of (r, i) = true) by (eapply eqb_trans; eauto).
        destruct (In_nth_error _ _ Hin) as [a Ha]. destruct (In_nth_error _ _ Hy) as [b Hb].
        destruct (Nat.lt_trichotomy a b) as [Hab|[Hab|Hab]].
        * pose proof (SS_nth_error _ _ _ _ _ _ HInc Hab Ha Hb) as F. cbn in F.
          apply ltb_neqb in F. rewrite eqb_sym in F. unfold wl_of in *; cbn in *; congruence.
        * subst b. rewrite Ha in Hb. injection Hb as -> ->. lia.
        * pose proof (SS_nth_error _ _ _ _ _ _ HInc Hab Hb Ha) as F. cbn in F.
          apply ltb_neqb in F. unfold wl_of in *; cbn in *; congruence.
      + intros (i & Hi & Hearly).
        assert (Hqin : In (r, i) (sort_by wl_of L0)).
        { apply sort_by_In. apply combine_seq_In. rewrite Nat.sub_0_r. split; [lia|auto]. }
        destruct (dedup_by_repr wl_of (fun p q => (snd p < snd q)%nat) (sort_by wl_of L0)) with (x := (r, i))
          as ([y k] & Hy & Ey & Ry); auto.
        { intros; lia. }
        destruct Ry as [Ry|Ry].
        * injection Ry as -> ->. exists (r, i); auto.
        * cbn in Ry. exfalso.
          assert (Hy0 := Hy). apply dedup_by_incl in Hy0. apply sort_by_In in Hy0.
          apply combine_seq_In in Hy0. rewrite Nat.sub_0_r in Hy0. destruct Hy0 as [_ Hk].
          specialize (Hearly k y Ry Hk). unfold wl_of in Ey; cbn in Ey. congruence.
  Qed.

  Lemma filter_wavelengths_spec (lines : list (line A)) lo hi :
    (forall r, In r lines -> nisnan (l_wl r) = false) ->
    increasing_wl (filter_wavelengths lines lo hi) /\
    (forall r, In r (filter_wavelengths lines lo hi) <->
               within lo hi (l_wl r) /\ exists i, earliest lines i r).
  Proof.
    intros Hn. rewrite filter_wavelengths_eq.
    destruct (unique_rows_spec lines Hn) as [H1 H2]. split.
    - apply SS_filter. exact H1.
    - intros r. rewrite filter_In, H2. unfold within. rewrite andb_true_iff. tauto.
  Qed.

  Lemma filter_wavelengths_incl (lines : list (line A)) lo hi :
    incl (filter_wavelengths lines lo hi) lines.
  Proof.
    rewrite filter_wavelengths_eq. intros r Hr. apply filter_In in Hr. destruct Hr as [Hr _].
    apply in_map_iff in Hr. destruct Hr as ([r' i] & <- & H).
    apply dedup_by_incl, sort_by_In in H. apply in_combine_l in H. auto.
  Qed.

  (* ---------------------------------------------------------------- *)
  (** ** filter_intensity *)

  Lemma dict_get_None (d : list (string * A)) k :
    dict_get d k = None <-> ~ In k (map fst d).
  Proof.
    induction d as [|[e v] d IH]; cbn; [tauto|].
    destruct (dict_get d k) eqn:E.
    - split; [discriminate|]. intros H. exfalso. apply H. right.
      destruct (in_dec string_dec k (map fst d)) as [i|i]; auto. apply IH in i. discriminate.
    - destruct (String.eqb_spec e k).
      + split; [discriminate|]. intros H. exfalso. apply H. auto.
      + split; auto. intros _ [H|H]; [congruence|]. apply IH in H; auto.
  Qed.

  Lemma dict_get_Some (d : list (string * A)) k t :
    dict_get d k = Some t <->
    exists i, nth_error d i = Some (k, t) /\
              forall j, (i < j)%nat -> forall u, nth_error d j <> Some (k, u).
  Proof.
    induction d as [|[e v] d IH]; cbn.
    - split; [discriminate|]. intros ([|i] & H & _); discriminate.
    - split.
      + destruct (dict_get d k) as [t'|] eqn:E.
        * intros H; injection H as ->. destruct (proj1 IH eq_refl) as (i & Hi & Hl). exists (S i). split; auto.
          intros [|j] Hj u; [lia|]. cbn. apply Hl. lia.
        * destruct (String.eqb_spec e k); [|discriminate].
          intros H; injection H as ->. subst e. exists 0%nat. split; auto.
          intros [|j] Hj u; [lia|]. cbn. intros Hn.
          apply dict_get_None in E. apply E. apply nth_error_In in Hn.
          apply (in_map fst) in Hn. auto.
      + intros ([|i] & Hi & Hl); cbn in Hi.
        * injection Hi as -> ->.
          assert (E : dict_get d k = None).
          { apply dict_get_None. intros Hin. apply in_map_iff in Hin.
            destruct Hin as ([k' u] & Hk & Hin). cbn in Hk. subst k'.
            apply In_nth_error in Hin. destruct Hin as [j Hj].
            apply (Hl (S j) ltac:(lia) u). auto. }
          rewrite E, String.eqb_refl. auto.
        * assert (E : dict_get d k = Some t).
          { apply IH. exists i. split; auto. intros j Hj u. apply (Hl (S j)). lia. }
          rewrite E. auto.
  Qed.

  Lemma intensity_loop_Ok (d : list (string * A)) (lines : list (line A)) m :
    intensity_loop d lines = Ok m <->
    (List.length m = List.length lines /\
     forall i l, nth_error lines i = Some l ->
       exists t, dict_get d (l_el l) = Some t /\ nth_error m i = Some (t <=' l_int l)).
  Proof.
    revert m. induction lines as [|l lines IH]; intros m; cbn.
    - split.
      + intros H; injection H as <-. split; auto. intros [|i] l H; discriminate.
      + intros [H _]. destruct m; [auto|discriminate].
    - destruct (dict_get d (l_el l)) as [t|] eqn:E.
      + split.
        * destruct (intensity_loop d lines) as [m'|e] eqn:F; cbn; [|discriminate].
          intros H; injection H as <-. destruct (proj1 (IH m') eq_refl) as [H1 H2].
          split; [cbn; lia|]. intros [|i] q Hq; cbn in Hq.
          { injection Hq as <-. exists t. auto. }
          { cbn. auto. }
        * intros [H1 H2]. destruct m as [|b m]; [discriminate|].
          assert (F : intensity_loop d lines = Ok m).
          { apply IH. split; [cbn in H1; lia|]. intros i q Hq. apply (H2 (S i) q Hq). }
          rewrite F. cbn. destruct (H2 0%nat l eq_refl) as (t' & Ht & Hb). cbn in Hb. congruence.
      + split; [discriminate|]. intros [_ H2]. destruct (H2 0%nat l eq_refl) as (t & Ht & _). congruence.
  Qed.

  Lemma intensity_loop_Raise (d : list (string * A)) (lines : list (line A)) e :
    intensity_loop d lines = Raise e -> e = KeyError /\ exists l, In l lines /\ ~ In (l_el l) (map fst d).
  Proof.
    induction lines as [|l lines IH]; cbn; [discriminate|].
    destruct (dict_get d (l_el l)) as [t|] eqn:E.
    - destruct (intensity_loop d lines) as [m'|e'] eqn:F; cbn; [discriminate|].
      intros H; injection H as ->. destruct (IH eq_refl) as (-> & q & H1 & H2). eauto.
    - intros H; injection H as <-. split; auto. exists l. split; auto. apply dict_get_None; auto.
  Qed.

  Lemma map_fst_const (elements : list string) (a : A) :
    map fst (map (fun e => (e, a)) elements) = elements.
  Proof. rewrite map_map. cbn. apply map_id. Qed.

  Lemma map_fst_combine {T U} (l : list T) (k : list U) :
    List.length k = List.length l -> map fst (combine l k) = l.
  Proof. revert k. induction l; intros [|b k]; cbn; try discriminate; auto. intros; f_equal; auto. Qed.

  Lemma nth_error_combine {T U} (l : list T) (k : list U) i x y :
    nth_error (combine l k) i = Some (x, y) <-> nth_error l i = Some x /\ nth_error k i = Some y.
  Proof.
    revert k i. induction l as [|a l IH]; intros [|b k] [|i]; cbn;
      try (split; [discriminate | intros [? ?]; discriminate]).
    - split; [intros H; injection H as -> ->; auto|intros [H1 H2]; congruence].
    - apply IH.
  Qed.

  Lemma dict_threshold elements m d e t :
    intensity_dict elements m = Ok d ->
    (dict_get d e = Some t <-> threshold elements m e t).
  Proof.
    assert (C : forall a, dict_get (map (fun e0 : string => (e0, a)) elements) e = Some t <->
                          In e elements /\ t = a).
    { intros a. split.
      - intros H. assert (H' := H). apply dict_get_Some in H. destruct H as (i & Hi & _).
        apply nth_error_In in Hi. apply in_map_iff in Hi. destruct Hi as (e' & He & Hin).
        injection He as -> ->. auto.
      - intros [H ->]. destruct (dict_get (map (fun e0 => (e0, a)) elements) e) as [t'|] eqn:E.
        + apply dict_get_Some in E. destruct E as (i & Hi & _).
          apply nth_error_In in Hi. apply in_map_iff in Hi. destruct Hi as (e' & He & Hin). congruence.
        + apply dict_get_None in E. rewrite map_fst_const in E. tauto. }
    destruct m; cbn.
    - intros H; injection H as <-. apply C.
    - intros H; injection H as <-. apply C.
    - destruct (Nat.eqb_spec (List.length l) (List.length elements)) as [El|]; [|discriminate].
      intros H; injection H as <-. rewrite dict_get_Some. split.
      + intros (i & Hi & Hl). apply nth_error_combine in Hi. destruct Hi as [H1 H2].
        exists i. split; auto. split; auto. intros k Hk Hn.
        destruct (nth_error l k) as [u|] eqn:Eu.
        * apply (Hl k Hk u). apply nth_error_combine. auto.
        * apply nth_error_None in Eu. assert (k < List.length elements)%nat; [|lia].
          apply nth_error_Some. congruence.
      + intros (k & H1 & H2 & H3). exists k. split; [apply nth_error_combine; auto|].
        intros j Hj u Hu. apply nth_error_combine in Hu. apply (H3 j Hj). tauto.
    - discriminate.
  Qed.

  Lemma intensity_dict_keys elements (m : thr A) d :
    intensity_dict elements m = Ok d -> map fst d = elements.
  Proof.
    destruct m; cbn; try discriminate.
    - intros H; injection H as <-. apply map_fst_const.
    - intros H; injection H as <-. apply map_fst_const.
    - destruct (Nat.eqb_spec (List.length l) (List.length elements)); [|discriminate].
      intros H; injection H as <-. apply map_fst_combine; auto.
  Qed.

  Lemma filter_intensity_ok elements (lines : list (line A)) m mask :
    filter_intensity elements lines m = Ok mask <->
    (valid_thr elements m /\ List.length mask = List.length lines /\
     forall i l, nth_error lines i = Some l ->
       exists t, threshold elements m (l_el l) t /\ nth_error mask i = Some (t <=' l_int l)).
  Proof.
    unfold filter_intensity. destruct (intensity_dict elements m) as [d|e] eqn:E; cbn.
    - rewrite intensity_loop_Ok.
      assert (V : valid_thr elements m).
      { destruct m; cbn in *; try discriminate; auto.
        destruct (Nat.eqb_spec (List.length l) (List.length elements)); auto. discriminate. }
      split.
      + intros [H1 H2]. split; auto. split; auto. intros i l Hl.
        destruct (H2 i l Hl) as (t & Ht & Hm). exists t. split; auto.
        apply (dict_threshold elements m d); auto.
      + intros (_ & H1 & H2). split; auto. intros i l Hl.
        destruct (H2 i l Hl) as (t & Ht & Hm). exists t. split; auto.
        apply (dict_threshold elements m d); auto.
    - split; [discriminate|]. intros (V & _).
      destruct m; cbn in *; try discriminate; try tauto.
      rewrite V, Nat.eqb_refl in E. discriminate.
  Qed.

  Lemma filter_intensity_raise elements (lines : list (line A)) m e :
    filter_intensity elements lines m = Raise e <->
    ((e = ValueError /\ m = ThOther) \/
     (e = AssertionError /\ exists l, m = ThList l /\ List.length l <> List.length elements) \/
     (e = KeyError /\ valid_thr elements m /\ exists l, In l lines /\ ~ In (l_el l) elements)).
  Proof.
    assert (V : forall d, intensity_dict elements m = Ok d -> valid_thr elements m).
    { intros d E. destruct m; cbn in *; try discriminate; auto.
      destruct (Nat.eqb_spec (List.length l) (List.length elements)); auto. discriminate. }
    unfold filter_intensity. split.
    - destruct (intensity_dict elements m) as [d|e'] eqn:E; cbn.
      + intros H. apply intensity_loop_Raise in H. destruct H as (-> & l & H1 & H2).
        right; right. split; auto. split; [eapply V; eauto|]. exists l. split; auto.
        rewrite (intensity_dict_keys _ _ _ E) in H2. auto.
      + intros H; injection H as ->. destruct m; cbn in E; try discriminate.
        * destruct (Nat.eqb_spec (List.length l) (List.length elements)); [discriminate|].
          injection E as <-. right; left. eauto.
        * injection E as <-. auto.
    - intros [[-> ->]|[[-> (l & -> & Hl)]|[-> (Hv & l & H1 & H2)]]].
      + reflexivity.
      + cbn. destruct (Nat.eqb_spec (List.length l) (List.length elements)); [tauto|reflexivity].
      + destruct (intensity_dict elements m) as [d|e'] eqn:E; cbn.
        * destruct (intensity_loop d lines) as [mk|e'] eqn:F.
          { apply intensity_loop_Ok in F. destruct F as [_ F].
            apply In_nth_error in H1. destruct H1 as [i Hi].
            destruct (F i l Hi) as (t & Ht & _). apply dict_get_Some in Ht.
            destruct Ht as (k & Hk & _). apply nth_error_In in Hk. apply (in_map fst) in Hk.
            rewrite (intensity_dict_keys _ _ _ E) in Hk. tauto. }
          { apply intensity_loop_Raise in F. destruct F as [-> _]. auto. }
        * destruct m; cbn in E; try discriminate; cbn in Hv; try tauto.
          rewrite Hv, Nat.eqb_refl in E. discriminate.
  Qed.
End Facts.

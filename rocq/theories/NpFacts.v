(** * NpFacts: lemmas about the numpy primitives of Np.v. *)

From Coq Require Import ZArith Bool List Lia Permutation Sorted.
From Verif Require Import Num Py Np.
Import ListNotations.

#[global] Arguments mask_select {T} m l : simpl never.
#[global] Arguments gather {T} l idx : simpl never.

(** ** Lists *)

Lemma SS_app {T} (R : T -> T -> Prop) l1 l2 :
  StronglySorted R (l1 ++ l2) <->
  StronglySorted R l1 /\ StronglySorted R l2 /\ (forall x y, In x l1 -> In y l2 -> R x y).
Proof.
  induction l1 as [|a l1 IH]; cbn.
  - split; [intros H; split; [constructor|split; [auto|intros ? ? []]] | tauto].
  - split.
    + intros H. inversion H as [|? ? H1 H2]; subst. apply IH in H1. destruct H1 as (H3 & H4 & H5).
      rewrite Forall_forall in H2. split; [|split].
      * constructor; auto. apply Forall_forall. intros x Hx. apply H2. apply in_or_app; auto.
      * auto.
      * intros x y [->|Hx] Hy; auto. apply H2. apply in_or_app; auto.
    + intros (H1 & H2 & H3). inversion H1 as [|? ? H4 H5]; subst. constructor.
      * apply IH. split; [auto|split; auto].
      * rewrite Forall_forall in *. intros x Hx. apply in_app_or in Hx. destruct Hx; auto.
Qed.

Lemma SS_impl {T} (R S : T -> T -> Prop) l :
  (forall x y, In x l -> In y l -> R x y -> S x y) -> StronglySorted R l -> StronglySorted S l.
Proof.
  induction l as [|a l IH]; intros H HS; constructor; inversion HS as [|? ? H1 H2]; subst.
  - apply IH; auto. intros x y Hx Hy. apply H; cbn; auto.
  - rewrite Forall_forall in *. intros x Hx. apply H; cbn; auto.
Qed.

Lemma SS_map {T U} (f : T -> U) (R : U -> U -> Prop) l :
  StronglySorted R (map f l) <-> StronglySorted (fun x y => R (f x) (f y)) l.
Proof.
  induction l as [|a l IH]; cbn; split; intros H; constructor; inversion H as [|? ? H1 H2]; subst.
  - apply IH; auto.
  - rewrite Forall_forall in *. intros x Hx. apply H2. apply in_map; auto.
  - apply IH; auto.
  - rewrite Forall_forall in *. intros x Hx. apply in_map_iff in Hx. destruct Hx as (y & <- & Hy). auto.
Qed.

Lemma SS_filter {T} (f : T -> bool) (R : T -> T -> Prop) l :
  StronglySorted R l -> StronglySorted R (filter f l).
Proof.
  induction 1 as [|a l H IH HF]; cbn; [constructor|].
  destruct (f a); auto. constructor; auto. rewrite Forall_forall in *.
  intros x Hx. apply filter_In in Hx. apply HF; tauto.
Qed.

Lemma SS_rev {T} (R : T -> T -> Prop) l :
  StronglySorted R l -> StronglySorted (fun x y => R y x) (rev l).
Proof.
  induction 1 as [|a l H IH HF]; cbn; [constructor|].
  apply SS_app. split; [auto|split]; [repeat constructor|].
  intros x y Hx [<-|[]]. rewrite Forall_forall in HF. apply HF. apply in_rev; auto.
Qed.

Lemma SS_firstn {T} (R : T -> T -> Prop) k l :
  StronglySorted R l -> StronglySorted R (firstn k l) /\
    (forall x y, In x (firstn k l) -> In y (skipn k l) -> R x y).
Proof.
  intros H. rewrite <- (firstn_skipn k l) in H. apply SS_app in H. tauto.
Qed.

Lemma SS_nth_error {T} (R : T -> T -> Prop) l i j x y :
  StronglySorted R l -> i < j -> nth_error l i = Some x -> nth_error l j = Some y -> R x y.
Proof.
  intros H. revert i j. induction H as [|a l H IH HF]; intros i j Hij Hi Hj.
  - destruct i; discriminate.
  - destruct j; [lia|]. cbn in Hj. destruct i; cbn in Hi.
    + injection Hi as <-. rewrite Forall_forall in HF. apply HF. eapply nth_error_In; eauto.
    + apply (IH i j); auto; lia.
Qed.

Lemma SS_of_nth_error {T} (R : T -> T -> Prop) l :
  (forall i j x y, i < j -> nth_error l i = Some x -> nth_error l j = Some y -> R x y) ->
  StronglySorted R l.
Proof.
  induction l as [|a l IH]; intros H; constructor.
  - apply IH. intros i j x y Hij Hi Hj. apply (H (S i) (S j)); auto. lia.
  - apply Forall_forall. intros y Hy. apply In_nth_error in Hy. destruct Hy as [j Hj].
    apply (H 0 (S j)); auto. lia.
Qed.

Lemma SS_NoDup {T} (R : T -> T -> Prop) l :
  (forall x, ~ R x x) -> StronglySorted R l -> NoDup l.
Proof.
  intros HR. induction 1 as [|a l H IH HF]; constructor; auto.
  intros Hin. rewrite Forall_forall in HF. apply (HR a). auto.
Qed.

Lemma combine_seq_SS {T} (l : list T) k :
  StronglySorted (fun p q : T * nat => snd p < snd q) (combine l (seq k (length l))).
Proof.
  revert k. induction l as [|a l IH]; intros k; cbn; constructor; auto.
  apply Forall_forall. intros [x i] Hx. apply in_combine_r in Hx. apply in_seq in Hx. cbn. lia.
Qed.

Lemma combine_seq_In {T} (l : list T) k x i :
  In (x, i) (combine l (seq k (length l))) <-> (k <= i /\ nth_error l (i - k) = Some x).
Proof.
  revert k. induction l as [|a l IH]; intros k; cbn.
  - split; [tauto|]. intros [_ H]. destruct (i - k); discriminate.
  - rewrite IH. split.
    + intros [H|[H1 H2]].
      * injection H as -> ->. split; auto. rewrite Nat.sub_diag. reflexivity.
      * split; [lia|]. replace (i - k) with (S (i - S k)) by lia. auto.
    + intros [H1 H2]. destruct (Nat.eq_dec i k) as [->|Hne].
      * rewrite Nat.sub_diag in H2. cbn in H2. left. congruence.
      * right. split; [lia|]. replace (i - k) with (S (i - S k)) in H2 by lia. auto.
Qed.

Lemma combine_map_l {T U V} (f : T -> U) (l : list T) (m : list V) :
  combine (map f l) m = map (fun p => (f (fst p), snd p)) (combine l m).
Proof. revert m. induction l; intros [|b m]; cbn; auto. rewrite IHl. auto. Qed.

Lemma combine_map_same {T U V} (f : T -> U) (g : T -> V) (l : list T) :
  combine (map f l) (map g l) = map (fun x => (f x, g x)) l.
Proof. induction l; cbn; congruence. Qed.

Lemma combine_map_id {T U} (f : T -> U) (l : list T) :
  combine (map f l) l = map (fun x => (f x, x)) l.
Proof. induction l; cbn; congruence. Qed.

Lemma mask_select_map {T} (f : T -> bool) (l : list T) :
  mask_select (map f l) l = filter f l.
Proof.
  unfold mask_select. rewrite combine_map_id. induction l; cbn; auto.
  destruct (f a); cbn; congruence.
Qed.

Lemma mask_select_map_map {T U} (f : T -> bool) (g : T -> U) (l : list T) :
  mask_select (map f l) (map g l) = map g (filter f l).
Proof.
  unfold mask_select. rewrite combine_map_same. induction l; cbn; auto.
  destruct (f a); cbn; congruence.
Qed.

Lemma mask_select_cons {T} b m (x : T) l :
  mask_select (b :: m) (x :: l) = if b then x :: mask_select m l else mask_select m l.
Proof. unfold mask_select. cbn. destruct b; reflexivity. Qed.

Lemma mask_select_nil_l {T} (l : list T) : mask_select [] l = [].
Proof. reflexivity. Qed.
Lemma mask_select_nil_r {T} m : mask_select m (@nil T) = [].
Proof. destruct m; reflexivity. Qed.

Lemma mask_select_In {T} m (l : list T) x :
  In x (mask_select m l) <-> exists i, nth_error m i = Some true /\ nth_error l i = Some x.
Proof.
  revert m. induction l as [|a l IH]; intros [|b m];
    rewrite ?mask_select_nil_l, ?mask_select_nil_r; cbn.
  - split; [tauto|]. intros (i & H & _). destruct i; discriminate.
  - split; [tauto|]. intros (i & _ & H). destruct i; discriminate.
  - split; [tauto|]. intros (i & H & _). destruct i; discriminate.
  - rewrite mask_select_cons. destruct b; cbn; rewrite IH; split.
    + intros [->|(i & H1 & H2)]; [exists 0; auto | exists (S i); auto].
    + intros ([|i] & H1 & H2); cbn in *; [left; congruence | right; eauto].
    + intros (i & H1 & H2); exists (S i); auto.
    + intros ([|i] & H1 & H2); cbn in *; [congruence | eauto].
Qed.

Lemma mask_select_length {T} m (l : list T) :
  length m = length l -> length (mask_select m l) = length (filter (fun b : bool => b) m).
Proof.
  revert m. induction l as [|a l IH]; intros [|b m]; cbn; try discriminate; auto.
  intros H. rewrite mask_select_cons. destruct b; cbn; rewrite IH; auto.
Qed.

Lemma mask_select_incl {T} m (l : list T) : incl (mask_select m l) l.
Proof.
  intros x Hx. apply mask_select_In in Hx. destruct Hx as (i & _ & H). eapply nth_error_In; eauto.
Qed.

Lemma SS_mask_select {T} (R : T -> T -> Prop) m l :
  StronglySorted R l -> StronglySorted R (mask_select m l).
Proof.
  intros H. revert m. induction H as [|a l H IH HF]; intros [|b m]; try (cbn; constructor; fail).
  rewrite mask_select_cons. destruct b; auto. constructor; auto.
  rewrite Forall_forall in *. intros x Hx. apply HF. apply (mask_select_incl m l x Hx).
Qed.

Lemma mask_select_all_true {T} (l : list T) : mask_select (map (fun _ => true) l) l = l.
Proof.
  rewrite mask_select_map. induction l; cbn; congruence.
Qed.

Lemma mask_select_combine {T U} m (l : list T) (k : list U) :
  length l = length k -> mask_select m (combine l k) = combine (mask_select m l) (mask_select m k).
Proof.
  revert m k. induction l as [|a l IH]; intros [|b m] [|c k]; cbn; try discriminate; auto.
  intros H. rewrite !mask_select_cons. destruct b; cbn; rewrite IH; auto.
Qed.

Lemma gather_map {T U} (f : T -> U) (l : list T) idx :
  gather (map f l) idx = map f (gather l idx).
Proof.
  unfold gather. induction idx as [|i idx IH]; cbn; auto.
  rewrite nth_error_map, map_app, IH. destruct (nth_error l i); reflexivity.
Qed.

Lemma gather_In {T} (l : list T) idx x :
  In x (gather l idx) <-> exists i, In i idx /\ nth_error l i = Some x.
Proof.
  unfold gather. rewrite in_flat_map. split; intros (i & H1 & H2); exists i; split; auto.
  - destruct (nth_error l i); cbn in H2; [destruct H2; [congruence|tauto]|tauto].
  - rewrite H2. cbn; auto.
Qed.

Lemma gather_length {T} (l : list T) idx :
  (forall i, In i idx -> i < length l) -> length (gather l idx) = length idx.
Proof.
  induction idx as [|i idx IH]; cbn; auto. intros H.
  unfold gather in *. cbn. rewrite app_length, IH by auto.
  destruct (nth_error l i) eqn:E; cbn; auto.
  apply nth_error_None in E. specialize (H i (or_introl eq_refl)). lia.
Qed.

Lemma gather_pairs {T} (l : list T) (L : list (T * nat)) :
  (forall x i, In (x, i) L -> nth_error l i = Some x) -> gather l (map snd L) = map fst L.
Proof.
  induction L as [|[x i] L IH]; cbn; auto. intros H.
  unfold gather in *. cbn. rewrite (H x i) by auto. cbn. rewrite IH; auto.
Qed.

Lemma gather_seq {T} (l : list T) : gather l (seq 0 (length l)) = l.
Proof.
  assert (G : forall (pre l : list T), gather (pre ++ l) (seq (length pre) (length l)) = l).
  { intros pre l0. revert pre. induction l0 as [|a l0 IH]; intros pre; cbn; auto.
    unfold gather in *. cbn. rewrite nth_error_app2, Nat.sub_diag by auto. cbn.
    f_equal. specialize (IH (pre ++ [a])). rewrite app_length in IH. cbn in IH.
    rewrite Nat.add_1_r in IH. rewrite <- app_assoc in IH. exact IH. }
  exact (G [] l).
Qed.

Lemma gather_app {T} (l : list T) i j : gather l (i ++ j) = gather l i ++ gather l j.
Proof. unfold gather. apply flat_map_app. Qed.

Lemma gather_perm {T} (l : list T) idx :
  Permutation idx (seq 0 (length l)) -> Permutation (gather l idx) l.
Proof.
  intros H. rewrite <- (gather_seq l) at 2. unfold gather. apply Permutation_flat_map; auto.
Qed.

Lemma gather_NoDup {T} (l : list T) idx : NoDup l -> NoDup idx -> NoDup (gather l idx).
Proof.
  intros Hl. induction 1 as [|i idx Hi H IH]; [constructor|].
  unfold gather in *. cbn. destruct (nth_error l i) eqn:E; cbn; auto. constructor; auto.
  intros Hin. apply gather_In in Hin. destruct Hin as (j & Hj & Ej).
  assert (i = j); [|congruence].
  apply (proj1 (NoDup_nth_error l) Hl); [|congruence].
  apply nth_error_Some; congruence.
Qed.

Lemma NoDup_skipn_disjoint {T} (l : list T) k x :
  NoDup l -> In x (firstn k l) -> In x (skipn k l) -> False.
Proof.
  intros H H1 H2. rewrite <- (firstn_skipn k l) in H.
  induction (firstn k l) as [|a f IH]; cbn in *; [tauto|].
  inversion H as [|? ? H3 H4]; subst. destruct H1 as [->|H1]; auto.
  apply H3. apply in_or_app; auto.
Qed.

Section Sorting.
  Context {A : Type} {N : Num A} {O : NumOrder A}.
  Local Open Scope num_scope.

  Lemma ins_by_perm {T} (key : T -> A) x l : Permutation (ins_by key x l) (x :: l).
  Proof.
    induction l as [|y l IH]; cbn; auto. destruct (np_lt (key y) (key x)); auto.
    rewrite IH. apply perm_swap.
  Qed.

  Lemma sort_by_cons {T} (key : T -> A) x l : sort_by key (x :: l) = ins_by key x (sort_by key l).
  Proof. reflexivity. Qed.

  Lemma sort_by_perm {T} (key : T -> A) l : Permutation (sort_by key l) l.
  Proof.
    induction l as [|x l IH]; auto. rewrite sort_by_cons, ins_by_perm. auto.
  Qed.

  Lemma sort_by_In {T} (key : T -> A) l x : In x (sort_by key l) <-> In x l.
  Proof.
    split; intros H; [eapply Permutation_in; [apply (sort_by_perm key l)|exact H] |
      eapply Permutation_in; [apply Permutation_sym, (sort_by_perm key l)|exact H]].
  Qed.

  Lemma sort_by_length {T} (key : T -> A) l : length (sort_by key l) = length l.
  Proof. apply Permutation_length, sort_by_perm. Qed.

  Lemma ins_by_map {T U} (f : T -> U) (kT : T -> A) (kU : U -> A) x l :
    (forall t, kU (f t) = kT t) -> ins_by kU (f x) (map f l) = map f (ins_by kT x l).
  Proof.
    intros H. induction l as [|y l IH]; cbn; auto. rewrite !H.
    destruct (np_lt (kT y) (kT x)); cbn; rewrite ?IH; auto.
  Qed.
  Lemma sort_by_map {T U} (f : T -> U) (kT : T -> A) (kU : U -> A) l :
    (forall t, kU (f t) = kT t) -> sort_by kU (map f l) = map f (sort_by kT l).
  Proof.
    intros H. induction l as [|x l IH]; [reflexivity|].
    cbn [map]. rewrite !sort_by_cons, IH. apply ins_by_map; auto.
  Qed.
  Lemma dedup_from_map {T U} (f : T -> U) (kT : T -> A) (kU : U -> A) x l :
    (forall t, kU (f t) = kT t) -> dedup_from kU (f x) (map f l) = map f (dedup_from kT x l).
  Proof.
    intros H. revert x. induction l as [|y l IH]; intros x; cbn; auto. rewrite !H.
    destruct (kT y ==' kT x); cbn; rewrite ?IH; auto.
  Qed.
  Lemma dedup_by_map {T U} (f : T -> U) (kT : T -> A) (kU : U -> A) l :
    (forall t, kU (f t) = kT t) -> dedup_by kU (map f l) = map f (dedup_by kT l).
  Proof. intros H. destruct l; cbn; auto. f_equal. apply dedup_from_map; auto. Qed.

  (** For keys that are not NaN, np_lt is <. *)
  Lemma np_lt_ltb (a b : A) : nisnan b = false -> np_lt a b = (a <' b).
  Proof. intros H. unfold np_lt. rewrite H. cbn. apply orb_false_r. Qed.

  Definition no_nan (l : list A) : Prop := forall x, In x l -> nisnan x = false.

  (** The order established by a stable sort. *)
  Definition stable_lt {T} (key : T -> A) (R : T -> T -> Prop) (p q : T) : Prop :=
    key p <' key q = true \/ (key p ==' key q = true /\ R p q).

  Lemma sort_by_stable {T} (key : T -> A) (R : T -> T -> Prop) l :
    (forall x, In x l -> nisnan (key x) = false) ->
    StronglySorted R l ->
    StronglySorted (stable_lt key R) (sort_by key l).
  Proof.
    intros Hn HS. induction HS as [|x l HS IH HF]; [constructor|]. rewrite sort_by_cons.
    assert (IH' := IH (fun y Hy => Hn y (or_intror Hy))). clear IH.
    rewrite Forall_forall in HF.
    assert (Hx : nisnan (key x) = false) by (apply Hn; cbn; auto).
    assert (Hall : forall y, In y (sort_by key l) -> nisnan (key y) = false /\ R x y).
    { intros y Hy. apply sort_by_In in Hy. split; auto. apply Hn; cbn; auto. }
    revert IH' Hall. generalize (sort_by key l) as s. clear HS HF Hn.
    induction s as [|y s IHs]; intros HS Hall; cbn; [repeat constructor|].
    inversion HS as [|? ? HS1 HS2]; subst.
    rewrite np_lt_ltb by auto.
    destruct (key y <' key x) eqn:E.
    - constructor.
      + apply IHs; auto. intros z Hz. apply Hall; cbn; auto.
      + apply Forall_forall. intros z Hz.
        apply (Permutation_in _ (ins_by_perm key x s)) in Hz. destruct Hz as [<-|Hz].
        * left; auto.
        * rewrite Forall_forall in HS2. auto.
    - constructor; auto. apply Forall_forall. intros z Hz.
      assert (Hyx : key x <=' key y = true).
      { destruct (Hall y (or_introl eq_refl)). apply ltb_false_leb; auto. }
      assert (Hxz : key x <=' key z = true).
      { destruct Hz as [<-|Hz]; auto. rewrite Forall_forall in HS2.
        specialize (HS2 z Hz). eapply leb_trans; [exact Hyx|].
        destruct HS2 as [H|[H _]]; [apply ltb_leb_weak; auto | apply eqb_leb in H; tauto]. }
      destruct (Hall z Hz) as [_ Hr].
      apply leb_cases in Hxz. destruct Hxz; [left|right]; auto.
  Qed.

  Lemma sort_by_sorted {T} (key : T -> A) l :
    (forall x, In x l -> nisnan (key x) = false) ->
    StronglySorted (fun p q => key p <=' key q = true) (sort_by key l).
  Proof.
    intros Hn. eapply SS_impl; [|apply (sort_by_stable key (fun _ _ => True)); auto].
    - intros x y _ _ [H|[H _]]; [apply ltb_leb_weak; auto | apply eqb_leb in H; tauto].
    - clear. induction l; constructor; auto. apply Forall_forall; auto.
  Qed.

  Lemma dedup_from_incl {T} (key : T -> A) prev l : incl (dedup_from key prev l) l.
  Proof.
    revert prev. induction l as [|y l IH]; intros prev; cbn; [apply incl_refl|].
    destruct (key y ==' key prev); intros x Hx.
    - right. eapply IH; eauto.
    - destruct Hx as [->|Hx]; [left; auto|right]. eapply IH; eauto.
  Qed.
  Lemma dedup_by_incl {T} (key : T -> A) l : incl (dedup_by key l) l.
  Proof.
    destruct l as [|x l]; cbn; [apply incl_refl|]. intros y [->|Hy]; [left; auto|right].
    eapply dedup_from_incl; eauto.
  Qed.

  Lemma dedup_from_sorted {T} (key : T -> A) prev l :
    StronglySorted (fun p q => key p <=' key q = true) (prev :: l) ->
    StronglySorted (fun p q => key p <' key q = true) (prev :: dedup_from key prev l).
  Proof.
    revert prev. induction l as [|y l IH]; intros prev H; cbn; [repeat constructor|].
    inversion H as [|? ? H1 H2]; subst. inversion H2 as [|? ? H3 H4]; subst.
    specialize (IH y H1). destruct (key y ==' key prev) eqn:E.
    - inversion IH as [|? ? I1 I2]; subst. constructor; auto.
      rewrite Forall_forall in *. intros z Hz. specialize (I2 z Hz).
      apply leb_ltb_trans with (key y); auto.
    - constructor; auto. constructor.
      + apply leb_cases in H3. destruct H3 as [H3|H3]; auto.
        rewrite eqb_sym in H3. congruence.
      + inversion IH as [|? ? I1 I2]; subst. rewrite Forall_forall in *.
        intros z Hz. specialize (I2 z Hz). apply leb_ltb_trans with (key y); auto.
  Qed.

  Lemma dedup_by_sorted {T} (key : T -> A) l :
    StronglySorted (fun p q => key p <=' key q = true) l ->
    StronglySorted (fun p q => key p <' key q = true) (dedup_by key l).
  Proof. destruct l as [|x l]; cbn; [constructor|]. apply dedup_from_sorted. Qed.

  (** Every element is represented by one with an equal key that is itself or
      stands (R-)before it. *)
  Lemma dedup_from_repr {T} (key : T -> A) (R : T -> T -> Prop) prev l :
    (forall x y z, R x y -> R y z -> R x z) ->
    (forall x, In x (prev :: l) -> nisnan (key x) = false) ->
    StronglySorted (stable_lt key R) (prev :: l) ->
    forall x, In x (prev :: l) ->
    exists y, In y (prev :: dedup_from key prev l) /\ key y ==' key x = true /\ (y = x \/ R y x).
  Proof.
    intros HR. revert prev. induction l as [|y l IH]; intros prev Hn H x Hx.
    - destruct Hx as [<-|[]]. exists prev. cbn. split; auto. split; auto. apply eqb_refl.
      apply Hn; cbn; auto.
    - destruct Hx as [<-|Hx].
      { exists prev. split; [cbn; auto|]. split; auto. apply eqb_refl. apply Hn; cbn; auto. }
      inversion H as [|? ? H1 H2]; subst.
      destruct (IH y (fun z Hz => Hn z (or_intror Hz)) H1 x Hx) as (z & Hz & Ez & Rz).
      cbn. destruct (key y ==' key prev) eqn:E.
      + destruct Hz as [<-|Hz].
        * (* represented by y, which equals prev *)
          exists prev. split; [cbn; auto|].
          assert (Eyp : key prev ==' key y = true) by (rewrite eqb_sym; auto).
          split; [eapply eqb_trans; eauto|]. right.
          inversion H2 as [|? ? H3 H4]; subst. destruct H3 as [H3|[_ H3]].
          { apply ltb_neqb in H3. congruence. }
          destruct Rz as [->|Rz]; auto. eapply HR; eauto.
        * exists z. cbn; auto.
      + exists z. split; [cbn; tauto|]. auto.
  Qed.

  Lemma dedup_by_repr {T} (key : T -> A) (R : T -> T -> Prop) l :
    (forall x y z, R x y -> R y z -> R x z) ->
    (forall x, In x l -> nisnan (key x) = false) ->
    StronglySorted (stable_lt key R) l ->
    forall x, In x l ->
    exists y, In y (dedup_by key l) /\ key y ==' key x = true /\ (y = x \/ R y x).
  Proof.
    destruct l as [|a l]; [intros ? ? ? ? []|]. cbn [dedup_by]. apply dedup_from_repr.
  Qed.

  (** np.unique *)
  Lemma np_sort_sorted l : no_nan l -> StronglySorted (fun x y => x <=' y = true) (np_sort l).
  Proof. intros H. apply (sort_by_sorted (fun x => x)). exact H. Qed.

  Lemma np_unique_sorted l : no_nan l -> StronglySorted (fun x y => x <' y = true) (np_unique l).
  Proof. intros H. apply (dedup_by_sorted (fun x => x)). apply np_sort_sorted; auto. Qed.

  Lemma np_unique_incl l : incl (np_unique l) l.
  Proof.
    intros x Hx. apply dedup_by_incl in Hx. apply sort_by_In in Hx. auto.
  Qed.

  Lemma np_unique_repr l x : no_nan l -> In x l ->
    exists y, In y (np_unique l) /\ y ==' x = true.
  Proof.
    intros Hn Hx.
    destruct (dedup_by_repr (fun x : A => x) (fun _ _ => True) (np_sort l)) with (x := x)
      as (y & H1 & H2 & _); auto.
    - intros z Hz. apply Hn. apply sort_by_In in Hz. auto.
    - apply sort_by_stable; [exact Hn|]. clear. induction l; constructor; auto.
      apply Forall_forall; auto.
    - apply sort_by_In; auto.
    - eauto.
  Qed.

  Lemma np_unique_NoDup l : no_nan l -> NoDup (np_unique l).
  Proof.
    intros H. apply (SS_NoDup (fun x y => x <' y = true)).
    - intros x Hx. rewrite ltb_irrefl in Hx. congruence.
    - apply np_unique_sorted; auto.
  Qed.

  Lemma np_unique_no_nan l : no_nan l -> no_nan (np_unique l).
  Proof. intros H x Hx. apply H. apply np_unique_incl; auto. Qed.
End Sorting.

(** * CandFacts: lemmas about the candidate selection. *)

From Coq Require Import ZArith Bool List Lia Sorted Permutation.
From Verif Require Import Num Py Np NpFacts Util Calib PolyEval Cand SpecCand.
Import ListNotations.
Local Open Scope num_scope.

Section ArgMin.
  Context {A : Type} {N : Num A} {O : NumOrder A}.

  Lemma argmin_from_spec (l pre : list A) best m :
    nth_error (pre ++ l) best = Some m -> (best < length pre)%nat ->
    (forall j x, (j < length pre)%nat -> nth_error pre j = Some x -> x <' m = false) ->
    exists i m', argmin_from (length pre) best m l = i /\ nth_error (pre ++ l) i = Some m' /\
      forall j x, nth_error (pre ++ l) j = Some x -> x <' m' = false.
  Proof.
    revert pre best m. induction l as [|x r IH]; intros pre best m Hb Hl Hp; cbn [argmin_from].
    - assert (E : (if nisnan m then best else best) = best) by (destruct (nisnan m); auto).
      rewrite E. exists best, m. split; auto. split; auto. rewrite app_nil_r. intros j x Hj.
      apply (Hp j x); auto. apply nth_error_Some. congruence.
    - destruct (nisnan m) eqn:En.
      + exists best, m. split; auto. split; auto. intros j y _.
        destruct (y <' m) eqn:E; auto. apply ltb_nan in E. destruct E; congruence.
      + assert (E : pre ++ x :: r = (pre ++ [x]) ++ r) by (rewrite <- app_assoc; reflexivity).
        assert (Ln : length (pre ++ [x]) = S (length pre)) by (rewrite app_length; cbn; lia).
        rewrite E in *. destruct (m <=' x) eqn:Em.
        * destruct (IH (pre ++ [x]) best m Hb) as (i & m' & H1 & H2 & H3); [lia| |].
          { intros j y Hj Hy. destruct (Nat.eq_dec j (length pre)) as [->|Hne].
            - rewrite nth_error_app2, Nat.sub_diag in Hy by lia. injection Hy as <-.
              destruct (x <' m) eqn:F; auto. apply ltb_leb in F. destruct F; congruence.
            - rewrite nth_error_app1 in Hy by lia. apply (Hp j y); auto. lia. }
          rewrite Ln in H1. eauto.
        * destruct (IH (pre ++ [x]) (length pre) x) as (i & m' & H1 & H2 & H3); [|lia| |].
          { rewrite nth_error_app1 by lia. rewrite nth_error_app2, Nat.sub_diag by lia. reflexivity. }
          { intros j y Hj Hy. destruct (Nat.eq_dec j (length pre)) as [->|Hne].
            - rewrite nth_error_app2, Nat.sub_diag in Hy by lia. injection Hy as <-. apply ltb_irrefl.
            - rewrite nth_error_app1 in Hy by lia. specialize (Hp j y ltac:(lia) Hy).
              destruct (y <' x) eqn:F; auto.
              destruct (ltb_nan _ _ F) as [N1 N2].
              assert (x <' m = true) as G.
              { apply leb_false_ltb in Em; auto. }
              rewrite (ltb_trans y x m F G) in Hp. congruence. }
          rewrite Ln in H1. eauto.
  Qed.

  Lemma np_argmin_spec (l : list A) : l <> [] ->
    exists i m, np_argmin l = Some i /\ nth_error l i = Some m /\
      forall x, In x l -> x <' m = false.
  Proof.
    destruct l as [|x r]; [congruence|]. intros _. cbn [np_argmin].
    destruct (argmin_from_spec r [x] 0 x) as (i & m & H1 & H2 & H3); auto.
    - intros [|j] y Hj Hy; cbn in *; [|lia]. injection Hy as <-. apply ltb_irrefl.
    - cbn [length] in H1. exists i, m. split; [congruence|]. split; [exact H2|].
      intros y Hy. apply In_nth_error in Hy. destruct Hy as [j Hj]. apply (H3 j y Hj).
  Qed.
End ArgMin.

Section Unique.
  Context {A : Type} {N : Num A} {O : NumOrder A}.

  Lemma SS_perm_sym {T} (R : T -> T -> Prop) l l' :
    (forall x y, R x y -> R y x) -> Permutation l l' ->
    StronglySorted R l -> StronglySorted R l'.
  Proof.
    intros Hs P. induction P as [|x l l' P IH|x y l|l1 l2 l3 P1 IH1 P2 IH2]; intros S; auto.
    - inversion S; subst. constructor; auto. apply (Permutation_Forall P). auto.
    - inversion S as [|? ? S1 F1]; subst. inversion S1 as [|? ? S2 F2]; subst.
      inversion F1; subst. constructor; [constructor; auto|constructor; auto].
  Qed.

  Lemma dedup_from_strict x (l : list A) :
    StronglySorted (fun a b => a ==' b = false) (x :: l) -> dedup_from (fun v => v) x l = l.
  Proof.
    revert x. induction l as [|y r IH]; intros x S; cbn; auto.
    inversion S as [|? ? S1 F]; subst. inversion F; subst. rewrite eqb_sym, H1. rewrite IH; auto.
  Qed.

  Lemma np_unique_different_length (l : list A) :
    pairwise_different l -> length (np_unique l) = length l.
  Proof.
    intros S. unfold np_unique.
    assert (P : Permutation l (np_sort l)) by (symmetry; apply sort_by_perm).
    assert (S' : StronglySorted (fun a b => a ==' b = false) (np_sort l)).
    { apply (SS_perm_sym _ _ _ (fun x y H => eq_trans (eqb_sym y x) H) P S). }
    rewrite (Permutation_length P). destruct (np_sort l) as [|x r]; auto.
    cbn. rewrite dedup_from_strict; auto.
  Qed.

  Lemma np_unique_distinct (l : list A) : no_nan l -> distinct_values l (np_unique l).
  Proof.
    intros H. split; [apply np_unique_sorted; auto|]. split; [apply np_unique_incl|].
    intros x Hx. apply np_unique_repr; auto.
  Qed.

  (** The list of distinct values is unique up to ==, in particular its length. *)
  Lemma distinct_length_le (l d d' : list A) :
    distinct_values l d -> distinct_values l d' -> (length d <= length d')%nat.
  Proof.
    intros (S & I & R) (S' & I' & R').
    assert (K : forall d l', StronglySorted (fun x y => x <' y = true) d ->
              (forall x, In x d -> exists y, In y l' /\ y ==' x = true) -> (length d <= length l')%nat).
    { clear -O. induction d as [|x r IH]; intros l' S H; cbn; [lia|].
      inversion S as [|? ? S1 F]; subst.
      destruct (H x (or_introl eq_refl)) as (y & Hy & Ey).
      apply in_split in Hy. destruct Hy as (l1 & l2 & ->).
      rewrite app_length. cbn. specialize (IH (l1 ++ l2) S1). rewrite app_length in IH.
      enough (length r <= length l1 + length l2)%nat by lia. apply IH.
      intros z Hz. destruct (H z (or_intror Hz)) as (w & Hw & Ew).
      exists w. split; auto. apply in_app_iff in Hw. apply in_app_iff.
      destruct Hw as [Hw|[<-|Hw]]; auto. exfalso.
      rewrite Forall_forall in F. specialize (F z Hz).
      rewrite eqb_sym in Ey. pose proof (eqb_trans _ _ _ Ey Ew) as E.
      apply ltb_neqb in F. congruence. }
    apply K; auto.
  Qed.

  Lemma distinct_length (l d d' : list A) :
    distinct_values l d -> distinct_values l d' -> length d = length d'.
  Proof. intros H H'. apply Nat.le_antisymm; eapply distinct_length_le; eauto. Qed.
End Unique.

Section Bijective.
  Context {A : Type} {N : Num A} {O : NumOrder A}.

  Definition q_err (q : A * A * A) : A := fst (fst q).
  Definition q_x (q : A * A * A) : A := snd (fst q).

  Lemma nearest_rows_ok (ev : A -> A) d peaks :
    (forall p, In p peaks -> exists ys, dict_get d p = Ok ys /\ ys <> []) ->
    exists rows, nearest_rows ev d peaks = Ok rows /\ map q_x rows = peaks /\
      forall e p y, In (e, p, y) rows ->
        exists ys, dict_get d p = Ok ys /\ nearest (ev p) ys e y.
  Proof.
    induction peaks as [|p r IH]; intros H.
    - exists []. cbn. split; auto. split; auto. intros e p y [].
    - destruct (H p (or_introl eq_refl)) as (ys & Hd & Hne).
      destruct IH as (rows & E & Em & Hr); [intros q Hq; apply H; right; auto|].
      cbn [nearest_rows]. rewrite Hd. cbn [bind].
      destruct (np_argmin_spec (map (fun y => nabs (ev p -' y)) ys)) as (i & m & Ei & En & Hm).
      { destruct ys; [congruence|discriminate]. }
      rewrite Ei, En. rewrite nth_error_map in En. destruct (nth_error ys i) as [y|] eqn:Ey; [|discriminate].
      cbn in En. injection En as <-. rewrite E. cbn [bind].
      eexists. split; [reflexivity|]. split; [cbn; rewrite Em; reflexivity|].
      intros e q z [Hq|Hq]; [|apply Hr; auto]. injection Hq as <- <- <-.
      exists ys. split; auto. split; [eapply nth_error_In; eauto|]. split; auto.
      intros y' Hy'. apply Hm. apply in_map_iff. eauto.
  Qed.

  Lemma resolve_rows_ok rows ws :
    (forall w, In w ws -> exists q, In q rows /\ snd q ==' w = true) ->
    exists qs, resolve_rows rows ws = Ok qs /\ map snd qs = ws /\
      forall e x w, In (e, x, w) qs ->
        exists y, In (e, x, y) rows /\ y ==' w = true /\
          forall q, In q rows -> snd q ==' w = true -> q_err q <' e = false.
  Proof.
    induction ws as [|w r IH]; intros H.
    - exists []. cbn. split; auto. split; auto. intros e x w [].
    - destruct IH as (qs & E & Em & Hq); [intros v Hv; apply H; right; auto|].
      cbn [resolve_rows].
      set (sel := filter (fun q => snd q ==' w) rows).
      destruct (H w (or_introl eq_refl)) as (q0 & Hq0 & Ew0).
      destruct (np_argmin_spec (map (fun q : A * A * A => fst (fst q)) sel)) as (i & m & Ei & En & Hm).
      { intros X. apply map_eq_nil in X. assert (In q0 sel) as Y by (apply filter_In; auto).
        rewrite X in Y. destruct Y. }
      rewrite Ei. rewrite nth_error_map in En. destruct (nth_error sel i) as [[[e0 x0] y0]|] eqn:Es; [|discriminate].
      cbn in En. injection En as ->. rewrite E. cbn [bind].
      eexists. split; [reflexivity|]. split; [cbn; rewrite Em; reflexivity|].
      intros e x v [Hv|Hv]; [|apply Hq; auto]. cbn in Hv. injection Hv as <- <- <-.
      apply nth_error_In in Es. apply filter_In in Es. destruct Es as [I1 I2].
      exists y0. split; auto. split; auto. intros q Hq1 Hq2. apply Hm.
      apply in_map_iff. exists q. split; auto. apply filter_In; auto.
  Qed.

  Lemma same_row (rows : list (A * A * A)) r r' :
    pairwise_different (map q_x rows) -> In r rows -> In r' rows ->
    q_x r ==' q_x r' = true -> r = r'.
  Proof.
    intros S H H' E. apply In_nth_error in H. apply In_nth_error in H'.
    destruct H as [i Hi], H' as [j Hj].
    assert (Mi : nth_error (map q_x rows) i = Some (q_x r)) by (rewrite nth_error_map, Hi; auto).
    assert (Mj : nth_error (map q_x rows) j = Some (q_x r')) by (rewrite nth_error_map, Hj; auto).
    destruct (Nat.lt_trichotomy i j) as [L|[->|L]].
    - pose proof (SS_nth_error _ _ _ _ _ _ S L Mi Mj) as X. cbn in X. congruence.
    - congruence.
    - pose proof (SS_nth_error _ _ _ _ _ _ S L Mj Mi) as X. cbn in X. rewrite eqb_sym in X. congruence.
  Qed.

  (** The whole of _match_bijective. *)
  Lemma match_bijective_ok (ev : A -> A) d peaks :
    pairwise_different peaks ->
    (forall p, In p peaks -> exists ys, dict_get d p = Ok ys /\ ys <> [] /\ no_nan ys) ->
    exists rows qs,
      nearest_rows ev d peaks = Ok rows /\ map q_x rows = peaks /\
      (forall e p y, In (e, p, y) rows -> exists ys, dict_get d p = Ok ys /\ nearest (ev p) ys e y) /\
      match_bijective ev d peaks = Ok (map q_err qs, map q_x qs, map snd qs) /\
      StronglySorted (fun a b => a <' b = true) (map snd qs) /\
      pairwise_different (map q_x qs) /\
      (forall e x w, In (e, x, w) qs ->
        exists y, In (e, x, y) rows /\ y ==' w = true /\
          forall q, In q rows -> snd q ==' w = true -> q_err q <' e = false) /\
      (forall r, In r rows -> exists q, In q qs /\ snd q ==' snd r = true) /\
      incl (map snd qs) (map snd rows).
  Proof.
    intros Sp Hd.
    destruct (nearest_rows_ok ev d peaks) as (rows & Er & Em & Hr).
    { intros p Hp. destruct (Hd p Hp) as (ys & ? & ? & _). eauto. }
    assert (NN : no_nan (map snd rows)).
    { intros y Hy. apply in_map_iff in Hy. destruct Hy as ([[e p] y'] & <- & Hy). cbn.
      destruct (Hr e p y' Hy) as (ys & G & I & _).
      assert (Hp : In p peaks). { rewrite <- Em. change p with (q_x (e, p, y')). apply in_map; auto. }
      destruct (Hd p Hp) as (ys' & G' & _ & Hn). apply Hn. congruence. }
    destruct (resolve_rows_ok rows (np_unique (map snd rows))) as (qs & Eq & Eqm & Hq).
    { intros w Hw. pose proof (np_unique_incl _ _ Hw) as Hw'. apply in_map_iff in Hw'.
      destruct Hw' as (q & <- & Hq). exists q. split; auto. apply eqb_refl.
      apply NN. apply in_map; auto. }
    pose proof (np_unique_sorted _ NN) as SU. rewrite <- Eqm in SU.
    assert (SX : pairwise_different (map q_x qs)).
    { apply SS_of_nth_error. intros i j a b L Ha Hb.
      rewrite nth_error_map in Ha, Hb.
      destruct (nth_error qs i) as [[[e1 x1] w1]|] eqn:E1; [|discriminate].
      destruct (nth_error qs j) as [[[e2 x2] w2]|] eqn:E2; [|discriminate].
      cbn in Ha, Hb. injection Ha as <-. injection Hb as <-.
      destruct (x1 ==' x2) eqn:Ex; auto. exfalso.
      destruct (Hq e1 x1 w1 (nth_error_In _ _ E1)) as (y1 & R1 & Y1 & _).
      destruct (Hq e2 x2 w2 (nth_error_In _ _ E2)) as (y2 & R2 & Y2 & _).
      assert (Sp' : pairwise_different (map q_x rows)) by (rewrite Em; auto).
      pose proof (same_row rows _ _ Sp' R1 R2 Ex) as X. injection X as -> -> ->.
      assert (W : w1 <' w2 = true).
      { apply (SS_nth_error _ _ i j w1 w2 SU L); rewrite nth_error_map; [rewrite E1|rewrite E2]; auto. }
      apply ltb_neqb in W. rewrite eqb_sym in Y1. rewrite (eqb_trans _ _ _ Y1 Y2) in W. discriminate. }
    exists rows, qs. split; auto. split; auto. split; auto. split.
    { unfold match_bijective. rewrite Er. cbn [bind]. rewrite Eq. cbn [bind].
      change (map (fun q : A * A * A => fst (fst q)) qs) with (map q_err qs).
      change (map (fun q : A * A * A => snd (fst q)) qs) with (map q_x qs).
      rewrite np_unique_different_length by auto.
      rewrite np_unique_different_length.
      2:{ apply (SS_impl (fun a b => a <' b = true)); auto. intros a b _ _ Hab. apply ltb_neqb; auto. }
      rewrite !map_length, Nat.eqb_refl. reflexivity. }
    split; auto. split; auto. split; auto. split.
    - intros r Hrr. destruct (np_unique_repr (map snd rows) (snd r) NN) as (w & Hw & Ew).
      { apply in_map; auto. }
      rewrite <- Eqm in Hw. apply in_map_iff in Hw. destruct Hw as (q & <- & Hqq). eauto.
    - rewrite Eqm. apply np_unique_incl.
  Qed.
End Bijective.

Section Common.
  Context {A : Type} {N : Num A} {O : NumOrder A}.
  Variable argsort : list A -> list nat.
  Hypothesis Hargsort : forall l, is_argsort l (argsort l).

  Lemma distinct_count_le (l : list A) : (length (np_unique l) <= length l)%nat.
  Proof.
    unfold np_unique. rewrite <- (Permutation_length (sort_by_perm (fun x : A => x) l)).
    unfold np_sort. generalize (sort_by (fun x : A => x) l). intros k. destruct k as [|x r]; cbn; auto.
    enough (length (dedup_from (fun v : A => v) x r) <= length r)%nat by lia.
    revert x. induction r as [|y r IH]; intros x; cbn; auto.
    destruct (y ==' x); cbn; specialize (IH y); lia.
  Qed.

  Lemma argsort_in_range (l : list A) k i : In i (firstn k (argsort l)) -> (i < length l)%nat.
  Proof.
    intros Hi. assert (In i (argsort l)).
    { rewrite <- (firstn_skipn k). apply in_app_iff. auto. }
    destruct (Hargsort l) as [P _]. apply (Permutation_in _ P) in H. apply in_seq in H. lia.
  Qed.

  Lemma argsort_length (l : list A) : length (argsort l) = length l.
  Proof. destruct (Hargsort l) as [P _]. rewrite (Permutation_length P). apply seq_length. Qed.

  Lemma common_for_length rows top weighted p :
    length (common_for argsort rows top weighted p) =
    Nat.min top (length (np_unique (map row_y (rows_of rows p)))).
  Proof.
    unfold common_for, rows_of. change (fun r : A * A * A => fst (fst r) ==' p) with (fun r => row_x r ==' p).
    set (sel := filter _ rows). set (uw := np_unique (map row_y sel)).
    rewrite gather_length.
    - rewrite firstn_length, argsort_length, !map_length. lia.
    - intros i Hi. apply argsort_in_range in Hi. rewrite !map_length in Hi.
      pose proof (distinct_count_le (map row_y sel)) as L. fold uw in L. lia.
  Qed.

  Lemma common_for_incl rows top weighted p :
    incl (common_for argsort rows top weighted p) (map row_y (rows_of rows p)).
  Proof.
    intros y Hy. unfold common_for in Hy. apply gather_In in Hy. destruct Hy as (i & _ & Hi).
    apply nth_error_In in Hi. exact Hi.
  Qed.

  Lemma flat_map_map {T U V} (f : T -> U) (g : U -> list V) l :
    flat_map g (map f l) = flat_map (fun x => g (f x)) l.
  Proof. induction l; cbn; congruence. Qed.

  Lemma flat_map_ext_in {T U} (f g : T -> list U) l :
    (forall x, In x l -> f x = g x) -> flat_map f l = flat_map g l.
  Proof.
    induction l as [|x r IH]; intros H; cbn; auto. rewrite (H x), IH; cbn; auto.
    intros y Hy. apply H; right; auto.
  Qed.

  Lemma most_common_blocks cs top weighted :
    let rows := concat cs in
    let ps := np_unique (map row_x rows) in
    let block p := common_for argsort rows top weighted p in
    most_common_candidates argsort cs top weighted =
    (flat_map (fun p => repeat p (length (block p))) ps, flat_map block ps).
  Proof.
    cbv zeta. unfold most_common_candidates. rewrite !flat_map_map. cbn [fst snd]. f_equal.
    apply flat_map_ext_in. intros p _. rewrite common_for_length. reflexivity.
  Qed.

  Lemma combine_repeat {T U} (x : T) (l : list U) : combine (repeat x (length l)) l = map (pair x) l.
  Proof. induction l; cbn; congruence. Qed.

  Lemma combine_flat {T U V} (l : list T) (f : T -> list U) (g : T -> list V) :
    (forall x, length (f x) = length (g x)) ->
    combine (flat_map f l) (flat_map g l) = flat_map (fun x => combine (f x) (g x)) l.
  Proof.
    intros H. induction l as [|x r IH]; cbn; auto. rewrite <- IH.
    generalize (flat_map f r) (flat_map g r). intros u v. specialize (H x). revert H.
    generalize (f x) (g x). intros a. induction a as [|y a IHa]; intros [|z b] E; cbn in *; try discriminate; auto.
    rewrite IHa; auto.
  Qed.

  Lemma pairs_kept_In cs top weighted p y :
    In (p, y) (combine (fst (most_common_candidates argsort cs top weighted))
                       (snd (most_common_candidates argsort cs top weighted))) <->
    In p (np_unique (map row_x (concat cs))) /\ In y (common_for argsort (concat cs) top weighted p).
  Proof.
    rewrite most_common_blocks. cbn [fst snd]. rewrite combine_flat by (intros; apply repeat_length).
    rewrite in_flat_map. split.
    - intros (q & Hq & H). rewrite combine_repeat in H. apply in_map_iff in H.
      destruct H as (z & E & Hz). injection E as <- <-. auto.
    - intros (Hp & Hy). exists p. split; auto. rewrite combine_repeat. apply in_map; auto.
  Qed.

  Lemma np_unique_strict (l : list A) :
    StronglySorted (fun x y => x <' y = true) l -> np_unique l = l.
  Proof.
    intros S. unfold np_unique, np_sort. 
    assert (E : sort_by (fun x : A => x) l = l).
    { induction S as [|x r S IH F]; auto. cbn. unfold sort_by in *. cbn [fold_right]. rewrite IH.
      destruct r as [|y r]; auto. cbn. inversion F; subst.
      unfold np_lt. destruct (ltb_nan _ _ H1) as [N1 N2]. rewrite N1, ?N2. cbn.
      assert (y <' x = false) as ->; auto.
      destruct (y <' x) eqn:E; auto. pose proof (ltb_trans _ _ _ H1 E) as X. rewrite ltb_irrefl in X. discriminate. }
    rewrite E. destruct l as [|x r]; auto. cbn. rewrite dedup_from_strict; auto.
    apply (SS_impl (fun a b => a <' b = true)); auto. intros a b _ _. apply ltb_neqb.
  Qed.
End Common.

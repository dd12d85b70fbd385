(** * RefineFacts: proofs about refine_peaks. *)

From Coq Require Import ZArith Bool List String Lia Permutation Sorted Reals Lra.
From Verif Require Import Num XReal Py Np NpFacts Util SpecUtil UtilFacts.
Import ListNotations.

Section Gen.
  Context {A : Type} {N : Num A}.
  Local Open Scope num_scope.

  Lemma rescaled_refl (v : A) : rescaled v v.
  Proof. exists []. reflexivity. Qed.
  Lemma rescaled_trans (a b c : A) : rescaled a b -> rescaled b c -> rescaled a c.
  Proof. intros [d1 ->] [d2 ->]. exists (d1 ++ d2). rewrite fold_left_app. reflexivity. Qed.

  (** The spectrum after a turn of the loop is the old one, rescaled. *)
  Definition rescaled_all (sp sp' : list A) : Prop := Forall2 rescaled sp sp'.
  Lemma rescaled_all_refl sp : rescaled_all sp sp.
  Proof. induction sp; constructor; auto using rescaled_refl. Qed.
  Lemma rescaled_all_trans a b c : rescaled_all a b -> rescaled_all b c -> rescaled_all a c.
  Proof.
    intros H. revert c. induction H; intros c Hc; inversion Hc; subst; constructor.
    - eapply rescaled_trans; eauto.
    - apply IHForall2; auto.
  Qed.
  Lemma rescaled_all_length a b : rescaled_all a b -> List.length b = List.length a.
  Proof. intros H. induction H; cbn; auto. Qed.
  Lemma rescaled_all_nth a b k v : rescaled_all a b -> nth_error b k = Some v ->
    exists v0, nth_error a k = Some v0 /\ rescaled v0 v.
  Proof.
    intros H. revert k. induction H; intros [|k]; cbn; try discriminate; eauto.
    intros E. injection E as <-. eauto.
  Qed.

  Lemma nth_error_firstn_lt {T} (l : list T) n k v :
    nth_error (firstn n l) k = Some v -> (k < n)%nat /\ nth_error l k = Some v.
  Proof.
    revert n k. induction l as [|x l IH]; intros [|n] [|k]; cbn; try discriminate.
    - intros; split; [lia|auto].
    - intros H. apply IH in H. split; [lia|tauto].
  Qed.
  Lemma nth_error_skipn' {T} (l : list T) n k : nth_error (skipn n l) k = nth_error l (n + k).
  Proof.
    revert l. induction n; intros l; cbn; auto. destruct l; auto. destruct k; auto.
  Qed.

  Lemma window_len_nonneg (len : nat) (ip width : Z) :
    (0 <= ip + width)%Z ->
    let (start, cnt) := slice_range (Z.of_nat len) (Z.max 0 (ip - width)) (Z.min (ip + width) (Z.of_nat len)) in
    (start <= len)%nat /\
    ((0 < cnt)%nat ->
     start = Z.to_nat (Z.max 0 (ip - width)) /\
     (start + cnt = Z.to_nat (Z.min (ip + width) (Z.of_nat len)))%nat /\ (start + cnt <= len)%nat).
  Proof.
    intros H. unfold slice_range, slice_bound.
    destruct (Z.ltb_spec (Z.max 0 (ip - width)) 0); [lia|].
    destruct (Z.ltb_spec (Z.min (ip + width) (Z.of_nat len)) 0); [lia|]. lia.
  Qed.

  Lemma mask_select_keep (y : list A) (x : list A) (f : A -> bool) :
    List.length x = List.length y ->
    mask_select (map f y) x = map fst (filter (fun q => f (snd q)) (combine x y)) /\
    mask_select (map f y) y = map snd (filter (fun q => f (snd q)) (combine x y)).
  Proof.
    revert x. induction y as [|v y IH]; intros [|u x]; try discriminate; cbn [map combine filter List.length].
    - intros _. rewrite !mask_select_nil_l. auto.
    - intros H. injection H as H. destruct (IH x H) as [E1 E2]. rewrite !mask_select_cons.
      cbn [snd]. destruct (f v); cbn [map fst snd]; rewrite E1, E2; auto.
  Qed.

  Lemma skipn_add {T} (l : list T) a b : skipn b (skipn a l) = skipn (a + b) l.
  Proof. revert l. induction a; intros l; cbn; auto. destruct l; auto. apply skipn_nil. Qed.

  Lemma Forall2_app_parts (sp : list A) start cnt m :
    rescaled_all sp (firstn start sp ++ map (fun v => v /' m) (firstn cnt (skipn start sp))
                       ++ skipn (start + cnt) sp).
  Proof.
    assert (E : sp = firstn start sp ++ firstn cnt (skipn start sp) ++ skipn (start + cnt) sp).
    { rewrite <- (firstn_skipn start sp) at 1. f_equal.
      rewrite <- (firstn_skipn cnt (skipn start sp)) at 1. f_equal.
      apply skipn_add. }
    rewrite E at 1. apply Forall2_app; [apply rescaled_all_refl|].
    apply Forall2_app; [|apply rescaled_all_refl].
    generalize (firstn cnt (skipn start sp)) as l. intros l. induction l; cbn; constructor; auto.
    exists [m]. reflexivity.
  Qed.

  Lemma np_nanmax_nonempty (l : list A) m : np_nanmax l = Ok m -> (0 < List.length l)%nat.
  Proof. destruct l; cbn; [discriminate|lia]. Qed.

  Lemma refine_one_spec cf sp0 sp width peak sp' o :
    rescaled_all sp0 sp ->
    refine_one cf sp width peak = (sp', o) ->
    rescaled_all sp0 sp' /\
    (forall loc, o = Ok (Some loc) ->
       exists c, fitted cf sp0 width peak c /\ loc = peak -' nZ width +' c).
  Proof.
    intros Hs. unfold refine_one. pose proof (rescaled_all_length _ _ Hs) as HL.
    destruct (peak_window _ _ _) as [[start cnt]|e] eqn:W; [|intros H; injection H as <- <-; split; [auto|discriminate]].
    set (y := firstn cnt (skipn start sp)).
    destruct (np_nanmax y) as [m|e] eqn:Em; [|intros H; injection H as <- <-; split; [auto|discriminate]].
    pose proof (np_nanmax_nonempty _ _ Em) as Hne.
    assert (L : rescaled_all sp0 (firstn start sp ++ map (fun v => v /' m) y ++ skipn (start + cnt) sp)).
    { eapply rescaled_all_trans; [exact Hs|apply Forall2_app_parts]. }
    set (y' := map (fun v => v /' m) y) in *.
    assert (Ly : List.length y' = List.length y) by (apply map_length).
    destruct (Nat.eqb _ 0); [intros H; injection H as <- <-; split; [exact L|discriminate]|].
    destruct (mask_select_keep y' (map nnat (seq 0 (List.length y')))
                (fun v => nisfinite v && negb (nisnan v))) as [K1 K2].
    { rewrite map_length, seq_length. auto. }
    rewrite K1, K2.
    destruct (cf _ _ _ _) as [[h c]|e] eqn:E.
    - destruct (h <' nZ 0) eqn:E1; [intros H; injection H as <- <-; split; [exact L|discriminate]|].
      destruct ((nZ (Z.of_nat (List.length sp)) <' c) || (c <' nZ 0)) eqn:E2;
        [intros H; injection H as <- <-; split; [exact L|discriminate]|].
      intros H; injection H as <- <-. split; [exact L|].
      intros loc Hl; injection Hl as <-. exists c. split; auto.
      apply orb_false_iff in E2. destruct E2.
      unfold peak_window in W. destruct (ntrunc peak) as [ip|] eqn:Ep; [|discriminate].
      assert (W' := f_equal (fun r => match r with Ok x => x | Raise _ => (start, cnt) end) W).
      cbn beta iota in W'. clear W.
      exists ip, y', (np_sum (map (fun p => fst p *' snd p) (combine (map nnat (seq 0 (List.length y'))) y')) /'
             nnat (List.length (filter (fun b : bool => b) (map (fun v => nisfinite v && negb (nisnan v)) y')))).
      eexists. exists h. split; [exact Ep|]. split.
      2:{ split; [exact E|]. rewrite <- HL. auto. }
      intros Hp. unfold window_samples. cbv zeta.
      pose proof (window_len_nonneg (List.length sp) ip width Hp) as Hw. rewrite W' in Hw.
      assert (Hc : (0 < cnt)%nat).
      { unfold y in Hne. rewrite firstn_length in Hne. lia. }
      destruct Hw as [_ Hw]. destruct (Hw Hc) as (H1 & H2 & H3).
      assert (Hy : List.length y = cnt).
      { unfold y. rewrite firstn_length, skipn_length. lia. }
      rewrite Ly, Hy. rewrite <- H1, <- HL, <- H2. split; [lia|]. split; [lia|].
      intros k v Hk. unfold y' in Hk. rewrite nth_error_map in Hk.
      destruct (nth_error y k) as [u|] eqn:Eu; [|discriminate]. cbn in Hk. injection Hk as <-.
      unfold y in Eu. apply nth_error_firstn_lt in Eu. destruct Eu as [_ Eu]. rewrite nth_error_skipn' in Eu.
      destruct (rescaled_all_nth _ _ _ _ Hs Eu) as (v0 & Hv0 & Hr). exists v0. split; auto.
      eapply rescaled_trans; [exact Hr|]. exists [m]. reflexivity.
    - destruct e; intros H; injection H as <- <-; (split; [exact L|discriminate]).
  Qed.

  Lemma refine_loop_spec cf width sp0 peaks : forall sp r,
    rescaled_all sp0 sp ->
    refine_loop cf sp width peaks = Ok r ->
    exists picks : list (A * A),
      r = map (fun pc => fst pc -' nZ width +' snd pc) picks /\
      subseq (map fst picks) peaks /\
      forall pc, In pc picks -> fitted cf sp0 width (fst pc) (snd pc).
  Proof.
    induction peaks as [|p peaks IH]; intros sp r Hs; cbn.
    - intros H; injection H as <-. exists []. split; [auto|]. split; [constructor|intros ? []].
    - destruct (refine_one cf sp width p) as [sp' o] eqn:E.
      destruct (refine_one_spec _ _ _ _ _ _ _ Hs E) as [L F].
      destruct o as [v|e]; cbn [bind]; [|discriminate].
      destruct (refine_loop cf sp' width peaks) as [rest|e] eqn:Er; cbn [bind]; [|discriminate].
      destruct (IH sp' rest L Er) as (picks & -> & S & Hp).
      intros H; injection H as <-. destruct v as [loc|].
      + destruct (F loc eq_refl) as (c & Hc & ->). exists ((p, c) :: picks).
        split; [reflexivity|]. split; [cbn; constructor; auto|].
        intros pc [<-|Hpc]; auto.
      + exists picks. split; auto. split; [constructor; auto|auto].
  Qed.

  Lemma close_to_prev_nth l prev i b :
    nth_error (close_to_prev prev l) i = Some b ->
    exists p x, nth_error (prev :: l) i = Some p /\ nth_error l i = Some x /\ b = np_isclose p x.
  Proof.
    revert prev i. induction l as [|y l IH]; intros prev i; cbn.
    - destruct i; discriminate.
    - destruct i as [|i]; cbn.
      + intros H; injection H as <-. eauto.
      + intros H. apply IH in H. destruct H as (p & x & H1 & H2 & H3). eauto.
  Qed.

  Lemma close_to_prev_length l prev : List.length (close_to_prev prev l) = List.length l.
  Proof. revert prev. induction l; intros; cbn; auto. Qed.
  Lemma distance_mask_length l : List.length (distance_mask l) = List.length l.
  Proof. destruct l; cbn; auto. rewrite close_to_prev_length. auto. Qed.

  (** Which raw locations are returned. *)
  Lemma refine_select (r : list A) n out :
    out = mask_select (map (fun q => fst q && negb (snd q))
            (combine (map (fun p => (nZ 0 <' p) && (p <' nZ (Z.of_nat n))) r) (distance_mask r))) r ->
    subseq out r /\
    (forall x, In x out <-> exists i, nth_error r i = Some x /\ nZ 0 <' x = true /\ x <' nZ (Z.of_nat n) = true /\
        forall p, nth_error r (i - 1) = Some p -> (0 < i)%nat -> np_isclose p x = false).
  Proof.
    intros ->. split; [apply subseq_mask|]. intros x. rewrite mask_select_In.
    assert (C : forall i x, nth_error r i = Some x ->
              exists b, nth_error (distance_mask r) i = Some b /\
                (b = false <-> forall p, nth_error r (i - 1) = Some p -> (0 < i)%nat -> np_isclose p x = false)).
    { intros i y Hy. destruct (nth_error (distance_mask r) i) as [b|] eqn:E.
      2:{ apply nth_error_None in E. rewrite distance_mask_length in E.
          assert (i < List.length r)%nat by (apply nth_error_Some; congruence). lia. }
      exists b. split; auto. destruct r as [|a r]; [destruct i; discriminate|].
      destruct i as [|i]; cbn in E.
      - injection E as <-. split; [intros; lia|auto].
      - apply close_to_prev_nth in E. destruct E as (p & z & H1 & H2 & ->).
        cbn in Hy. assert (z = y) by congruence. subst z.
        replace (S i - 1)%nat with i by lia. split.
        + intros H q Hq _. congruence.
        + intros H. apply H; auto. lia. }
    split.
    - intros (i & H1 & H2). exists i. split; auto. destruct (C i x H2) as (b & Hb & Hc).
      rewrite nth_error_map in H1.
      rewrite (proj2 (nth_error_combine _ _ i ((nZ 0 <' x) && (x <' nZ (Z.of_nat n))) b)) in H1
        by (split; [rewrite nth_error_map, H2; auto|auto]).
      cbn in H1. injection H1 as H1. apply andb_true_iff in H1. destruct H1 as [H1 H3].
      apply andb_true_iff in H1. destruct H1. split; auto. split; auto. apply Hc.
      destruct b; auto; discriminate.
    - intros (i & H1 & H2 & H3 & H4). exists i. split; auto. destruct (C i x H1) as (b & Hb & Hc).
      rewrite nth_error_map.
      rewrite (proj2 (nth_error_combine _ _ i ((nZ 0 <' x) && (x <' nZ (Z.of_nat n))) b))
        by (split; [rewrite nth_error_map, H1; auto|auto]).
      cbn. apply Hc in H4. subst b. rewrite H2, H3. reflexivity.
  Qed.

  Lemma subseq_map_inv {T U} (f : T -> U) l l2 :
    subseq l (map f l2) -> exists l1, l = map f l1 /\ subseq l1 l2.
  Proof.
    intros H. remember (map f l2) as m eqn:E. revert l2 E. induction H; intros l3 E.
    - destruct l3; [|discriminate]. exists []. split; auto. constructor.
    - destruct l3 as [|y l3]; [discriminate|]. cbn in E. injection E as -> E.
      destruct (IHsubseq l3 E) as (l4 & -> & H4). exists (y :: l4). split; auto. constructor; auto.
    - destruct l3 as [|y l3]; [discriminate|]. cbn in E. injection E as -> E.
      destruct (IHsubseq l3 E) as (l4 & -> & H4). exists l4. split; auto. constructor; auto.
  Qed.

  Lemma refine_peaks_spec cf sp peaks width out :
    refine_peaks cf sp peaks width = Ok out ->
    (forall x, In x out -> nZ 0 <' x = true /\ x <' nZ (Z.of_nat (List.length sp)) = true) /\
    exists picks : list (A * A),
      out = map (fun pc => fst pc -' nZ width +' snd pc) picks /\
      subseq (map fst picks) peaks /\
      forall pc, In pc picks -> fitted cf sp width (fst pc) (snd pc).
  Proof.
    unfold refine_peaks. destruct (refine_loop cf sp width peaks) as [r|e] eqn:E; cbn [bind]; [|discriminate].
    intros H; injection H as H. symmetry in H.
    destruct (refine_select r (List.length sp) out H) as [S I].
    split.
    - intros x Hx. apply I in Hx. destruct Hx as (i & _ & H1 & H2 & _). auto.
    - destruct (refine_loop_spec _ _ _ _ _ _ (rescaled_all_refl sp) E) as (picks & -> & Sp & Hf).
      apply subseq_map_inv in S. destruct S as (picks' & -> & S'). exists picks'.
      split; auto. split.
      + eapply subseq_trans; [apply subseq_map; eauto|auto].
      + intros pc Hpc. apply Hf. eapply subseq_incl; eauto.
  Qed.

  (** Close neighbours in the raw list are not both returned (by position). *)
  Lemma refine_peaks_adjacent cf sp peaks width out :
    refine_peaks cf sp peaks width = Ok out ->
    exists raw, refine_loop cf sp width peaks = Ok raw /\ subseq out raw /\
      forall x, In x out -> exists i, nth_error raw i = Some x /\
        forall p, nth_error raw (i - 1) = Some p -> (0 < i)%nat -> np_isclose p x = false.
  Proof.
    unfold refine_peaks. destruct (refine_loop cf sp width peaks) as [r|e] eqn:E; cbn [bind]; [|discriminate].
    intros H; injection H as H. symmetry in H.
    destruct (refine_select r (List.length sp) out H) as [S I].
    exists r. split; auto. split; auto. intros x Hx. apply I in Hx. destruct Hx as (i & H1 & _ & _ & H2). eauto.
  Qed.
End Gen.

Local Open Scope R_scope.

Lemma Int_part_IZR z : Int_part (IZR z) = z.
Proof.
  unfold Int_part. rewrite <- (tech_up (IZR z) (z + 1)).
  - lia.
  - rewrite plus_IZR. lra.
  - rewrite plus_IZR. lra.
Qed.

Lemma xtrunc_IZR z : xtrunc (Fin (IZR z)) = Some z.
Proof.
  unfold xtrunc. destruct (Rltb_spec (IZR z) 0).
  - rewrite <- opp_IZR, Int_part_IZR. f_equal. lia.
  - rewrite Int_part_IZR. reflexivity.
Qed.

Lemma refine_inside_lemma (cf : curve_fitter xr) sp peaks (width : Z) out :
  (forall p, In p peaks -> exists ip, p = Fin (IZR ip) /\ (0 <= width <= ip)%Z) ->
  refine_peaks cf sp peaks width = Ok out ->
  forall loc, In loc out ->
    exists ip c, In (Fin (IZR ip)) peaks /\ fitted cf sp width (Fin (IZR ip)) c /\
      loc = nadd (Fin (IZR (ip - width))) c.
Proof.
  intros Hw H loc Hin.
  destruct (refine_peaks_spec _ _ _ _ _ H) as (_ & picks & -> & S & F).
  apply in_map_iff in Hin. destruct Hin as ([p c] & <- & Hpc). specialize (F _ Hpc).
  assert (Hp : In p peaks).
  { eapply subseq_incl; [exact S|]. change p with (fst (p, c)). apply in_map. auto. }
  destruct (Hw p Hp) as (ip & -> & Hip). exists ip, c. split; auto. split; auto.
  cbn [fst snd]. rewrite nZ_Fin. cbn [nsub XRnum xsub xopp xadd]. rewrite minus_IZR. reflexivity.
Qed.

(** * RefineFacts2: independence of peaks with disjoint windows, and duplicates. *)

From Coq Require Import ZArith Bool List String Lia Permutation Sorted Reals Lra.
From Verif Require Import Num XReal Py Np NpFacts Util SpecUtil UtilFacts SepFacts RefineFacts.
Import ListNotations.

Section Gen.
  Context {A : Type} {N : Num A}.
  Local Open Scope num_scope.

  Definition win (sp : list A) (sc : nat * nat) : list A := firstn (snd sc) (skipn (fst sc) sp).

  Lemma refine_one_local cf (sp1 sp2 : list A) width p :
    List.length sp1 = List.length sp2 ->
    (forall sc, peak_window (Z.of_nat (List.length sp1)) width p = Ok sc -> win sp1 sc = win sp2 sc) ->
    snd (refine_one cf sp1 width p) = snd (refine_one cf sp2 width p).
  Proof.
    intros L H. unfold refine_one. rewrite <- L.
    destruct (peak_window _ _ _) as [[start cnt]|e]; [|reflexivity].
    specialize (H _ eq_refl). unfold win in H. cbn [fst snd] in H. rewrite <- H.
    destruct (np_nanmax _) as [m|e]; [|reflexivity].
    destruct (Nat.eqb _ 0); [reflexivity|].
    destruct (cf _ _ _ _) as [[h c]|e]; [|destruct e; reflexivity].
    destruct (h <' nZ 0); [reflexivity|].
    destruct (_ || _); reflexivity.
  Qed.

  Lemma rebuild_outside (sp : list A) start cnt (y : list A) i :
    List.length y = List.length (firstn cnt (skipn start sp)) ->
    (i < start \/ start + cnt <= i)%nat ->
    nth_error (firstn start sp ++ y ++ skipn (start + cnt) sp) i = nth_error sp i.
  Proof.
    intros L Hi. rewrite firstn_length, skipn_length in L.
    destruct (Nat.lt_ge_cases i start) as [H|H].
    - destruct (Nat.lt_ge_cases i (List.length sp)) as [H2|H2].
      + rewrite nth_error_app1 by (rewrite firstn_length; lia).
        rewrite <- (firstn_skipn start sp) at 2. rewrite nth_error_app1; [reflexivity|].
        rewrite firstn_length; lia.
      + transitivity (@None A); [|symmetry; apply nth_error_None; lia].
        apply nth_error_None. rewrite !app_length, firstn_length, skipn_length, L. lia.
    - destruct Hi as [Hi|Hi]; [lia|].
      destruct (Nat.lt_ge_cases i (List.length sp)) as [H2|H2].
      + rewrite nth_error_app2 by (rewrite firstn_length; lia).
        rewrite nth_error_app2 by (rewrite firstn_length, L; lia).
        rewrite firstn_length, nth_error_skipn'. f_equal. rewrite L. lia.
      + transitivity (@None A); [|symmetry; apply nth_error_None; lia].
        apply nth_error_None. rewrite !app_length, firstn_length, skipn_length, L. lia.
  Qed.

  Lemma refine_one_outside cf (sp : list A) width p sc :
    peak_window (Z.of_nat (List.length sp)) width p = Ok sc ->
    forall i, (i < fst sc \/ fst sc + snd sc <= i)%nat ->
    nth_error (fst (refine_one cf sp width p)) i = nth_error sp i.
  Proof.
    intros W i Hi. unfold refine_one. rewrite W. destruct sc as [start cnt]. cbn [fst snd] in Hi.
    destruct (np_nanmax _) as [m|e]; [|reflexivity].
    assert (R : forall y, List.length y = List.length (firstn cnt (skipn start sp)) ->
      nth_error (firstn start sp ++ y ++ skipn (start + cnt) sp) i = nth_error sp i).
    { intros y Ly. apply rebuild_outside; auto. }
    assert (R' := R (map (fun v => v /' m) (firstn cnt (skipn start sp))) (map_length _ _)).
    destruct (Nat.eqb _ 0); [exact R'|].
    destruct (cf _ _ _ _) as [[h c]|e]; [|destruct e; exact R'].
    destruct (h <' nZ 0); [exact R'|].
    destruct (_ || _); exact R'.
  Qed.

  Lemma win_ext (sp1 sp2 : list A) sc :
    (forall i, (fst sc <= i < fst sc + snd sc)%nat -> nth_error sp1 i = nth_error sp2 i) ->
    win sp1 sc = win sp2 sc.
  Proof.
    destruct sc as [s c]. unfold win. cbn [fst snd]. revert s. induction c as [|c IH]; intros s H; [reflexivity|].
    assert (E := H s ltac:(lia)).
    assert (G : forall sp : list A, firstn (S c) (skipn s sp) =
       match nth_error sp s with Some x => x :: firstn c (skipn (S s) sp) | None => [] end).
    { clear. induction s as [|s IHs]; intros [|x sp]; try reflexivity.
      change (skipn (S s) (x :: sp)) with (skipn s sp).
      change (skipn (S (S s)) (x :: sp)) with (skipn (S s) sp). apply IHs. }
    rewrite !G, E. destruct (nth_error sp2 s); auto. f_equal. apply IH. intros i Hi. apply H. lia.
  Qed.

  (** Two windows have no sample in common. *)
  Definition disjoint_windows (len : nat) (width : Z) (p q : A) : Prop :=
    forall a b, peak_window (Z.of_nat len) width p = Ok a -> peak_window (Z.of_nat len) width q = Ok b ->
    (fst a + snd a <= fst b \/ fst b + snd b <= fst a)%nat.

  Lemma refine_loop_indep cf (sp0 : list A) width peaks : forall sp r,
    List.length sp = List.length sp0 ->
    ForallOrdPairs (disjoint_windows (List.length sp0) width) peaks ->
    (forall p sc, In p peaks -> peak_window (Z.of_nat (List.length sp0)) width p = Ok sc -> win sp sc = win sp0 sc) ->
    refine_loop cf sp width peaks = Ok r ->
    exists parts, Forall2 (fun p o => snd (refine_one cf sp0 width p) = Ok o) peaks parts /\
      r = flat_map (fun o => match o with Some c => [c] | None => [] end) parts.
  Proof.
    induction peaks as [|p peaks IH]; intros sp r L D W; cbn [refine_loop].
    - intros H; injection H as <-. exists []. split; [constructor|reflexivity].
    - destruct (refine_one cf sp width p) as [sp' o] eqn:E.
      assert (Eo : snd (refine_one cf sp0 width p) = o).
      { rewrite <- (refine_one_local cf sp sp0 width p L); [rewrite E; reflexivity|].
        intros sc Hsc. apply (W p); [left; auto|]. rewrite <- L; auto. }
      destruct o as [v|e]; cbn [bind]; [|discriminate].
      destruct (refine_loop cf sp' width peaks) as [rest|e] eqn:Er; cbn [bind]; [|discriminate].
      intros H; injection H as <-. inversion D as [|? ? D1 D2]; subst.
      destruct (IH sp' rest) as (parts & P1 & P2); auto.
      + destruct (refine_one_spec cf sp sp width p sp' (Ok v) (rescaled_all_refl sp) E) as [R _].
        rewrite (rescaled_all_length _ _ R). exact L.
      + intros q sc Hq Hsc. rewrite <- (W q sc (or_intror Hq) Hsc). apply win_ext. intros i Hi.
        destruct (peak_window (Z.of_nat (List.length sp0)) width p) as [a|e] eqn:Ea.
        2:{ exfalso. unfold refine_one in E. rewrite L, Ea in E. discriminate. }
        rewrite Forall_forall in D1. specialize (D1 q Hq a sc Ea Hsc).
        rewrite <- (refine_one_outside cf sp width p a); [rewrite E; reflexivity|rewrite L; auto|lia].
      + exists (v :: parts). split; [constructor; auto|]. cbn [flat_map]. rewrite <- P2.
        destruct v; reflexivity.
  Qed.

  Lemma refine_single cf (sp : list A) width p o :
    snd (refine_one cf sp width p) = Ok o ->
    refine_peaks cf sp [p] width =
      Ok (match o with
          | Some c => if (nZ 0 <' c) && (c <' nZ (Z.of_nat (List.length sp))) then [c] else []
          | None => []
          end).
  Proof.
    intros H. unfold refine_peaks. cbn [refine_loop].
    destruct (refine_one cf sp width p) as [sp' o']. cbn [snd] in H. subst o'. cbn [bind].
    destruct o as [c|]; [|reflexivity].
    cbn [map distance_mask close_to_prev combine fst snd].
    rewrite mask_select_cons, mask_select_nil_l. rewrite andb_true_r. reflexivity.
  Qed.

  Lemma refine_independent_lemma cf (sp : list A) peaks width out :
    ForallOrdPairs (disjoint_windows (List.length sp) width) peaks ->
    refine_peaks cf sp peaks width = Ok out ->
    exists outs, Forall2 (fun p o => refine_peaks cf sp [p] width = Ok o) peaks outs /\
      subseq out (List.concat outs).
  Proof.
    intros D H. pose proof (refine_peaks_spec _ _ _ _ _ H) as [B _].
    destruct (refine_peaks_adjacent _ _ _ _ _ H) as (raw & Hr & S & _).
    destruct (refine_loop_indep cf sp width peaks sp raw eq_refl D) as (parts & P1 & P2); auto.
    exists (map (fun o => match o with
          | Some c => if (nZ 0 <' c) && (c <' nZ (Z.of_nat (List.length sp))) then [c] else []
          | None => []
          end) parts).
    split.
    - clear - P1. induction P1; cbn; constructor; auto. apply refine_single; auto.
    - assert (G : subseq (filter (fun c => (nZ 0 <' c) && (c <' nZ (Z.of_nat (List.length sp)))) out)
                     (List.concat (map (fun o => match o with
          | Some c => if (nZ 0 <' c) && (c <' nZ (Z.of_nat (List.length sp))) then [c] else []
          | None => []
          end) parts))).
      { subst raw. clear - S. revert out S.
        induction parts as [|o parts IH]; intros out S; cbn [flat_map map List.concat] in *.
        - inversion S; subst. constructor.
        - destruct o as [c|]; [|apply IH; auto]. cbn [app] in S. inversion S; subst.
          + cbn [filter]. destruct (_ && _); cbn [app]; [constructor; auto|apply IH; auto].
          + destruct (_ && _); cbn [app]; [constructor; apply IH; auto|apply IH; auto]. }
      replace (filter _ out) with out in G; auto.
      clear - B. induction out as [|x out IH]; cbn [filter]; auto.
      destruct (B x (or_introl eq_refl)) as [-> ->]. cbn [andb]. f_equal. apply IH. intros y Hy. apply B. right; auto.
  Qed.
End Gen.

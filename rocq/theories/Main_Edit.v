(** * Main_Edit: the properties of the editing of matched pairs and of manual_refit,
    with their proofs.  The statements are repeated, without proofs, in Props_Edit.v. *)

From Coq Require Import ZArith Bool List String Lia Reals Lra Sorted Permutation.
From Verif Require Import Num F64 XReal Py Np NpFacts ArgsortFacts Util Models Atlas Hough PolyEval SpecPoly PolyFacts Main_Models Calib SpecCalib Main_Calib Cand SpecCand CandFacts Ransac RansacFacts SampleFacts Main_Ransac Fit Main_Fit MatchPeaks SpecMatch MatchFacts Main_Match.
Import ListNotations.
Local Open Scope num_scope.

(* ------------------------------------------------------------------ *)
(** ** Lists *)

Lemma combine_insert {S T} : forall (k : nat) (p : list S) (w : list T) x y, List.length p = List.length w ->
  combine (np_insert p k x) (np_insert w k y) = np_insert (combine p w) k (x, y).
Proof.
  unfold np_insert. induction k as [|k IH]; intros p w x y L; [reflexivity|].
  destruct p as [|a p], w as [|b w]; try discriminate; [reflexivity|].
  cbn [firstn skipn combine app]. rewrite IH by (cbn in L; lia). reflexivity.
Qed.

Lemma combine_delete {S T} : forall (k : nat) (p : list S) (w : list T), List.length p = List.length w ->
  combine (np_delete p k) (np_delete w k) = np_delete (combine p w) k.
Proof.
  unfold np_delete. induction k as [|k IH]; intros p w L;
    (destruct p as [|a p], w as [|b w]; try discriminate; [reflexivity|]); [reflexivity|].
  change (skipn (Datatypes.S (Datatypes.S k)) (a :: p)) with (skipn (Datatypes.S k) p). change (skipn (Datatypes.S (Datatypes.S k)) (b :: w)) with (skipn (Datatypes.S k) w).
  cbn [firstn combine app]. rewrite IH by (cbn in L; lia). reflexivity.
Qed.

Lemma insert_perm {T} (l : list T) k x : Permutation (np_insert l k x) (x :: l).
Proof.
  unfold np_insert. rewrite <- (firstn_skipn k l) at 3. symmetry. apply Permutation_middle.
Qed.

Lemma delete_perm {T} : forall (l : list T) k x, nth_error l k = Some x -> Permutation (x :: np_delete l k) l.
Proof.
  unfold np_delete. induction l as [|a l IH]; intros [|k] x H; try discriminate.
  - injection H as ->. cbn. auto.
  - cbn in H. specialize (IH _ _ H). change (firstn (Datatypes.S k) (a :: l)) with (a :: firstn k l).
    change (skipn (Datatypes.S (Datatypes.S k)) (a :: l)) with (skipn (Datatypes.S k) l).
    cbn [app]. rewrite perm_swap. auto.
Qed.

Lemma insert_length {T} (l : list T) k x : List.length (np_insert l k x) = Datatypes.S (List.length l).
Proof. apply (Permutation_length (insert_perm l k x)). Qed.

Lemma where_bound {T} (f : T -> bool) l k r : np_where f l = k :: r ->
  exists q, nth_error l k = Some q /\ f q = true /\ forall j x, (j < k)%nat -> nth_error l j = Some x -> f x = false.
Proof.
  unfold np_where. intros H.
  assert (G : forall l n k r, map fst (filter (fun p => f (snd p)) (combine (seq n (List.length l)) l)) = k :: r ->
     exists q, (n <= k)%nat /\ nth_error l (k - n) = Some q /\ f q = true /\ forall j x, (j < k - n)%nat -> nth_error l j = Some x -> f x = false).
  { clear. induction l as [|a l IH]; intros n k r H; [discriminate|].
    cbn [List.length seq combine filter snd] in H. destruct (f a) eqn:Ea.
    - cbn [map fst] in H. injection H as <- _. exists a. rewrite Nat.sub_diag. split; auto. split; auto. split; auto. intros j x Hj; lia.
    - destruct (IH _ _ _ H) as (q & H1 & H2 & H3 & H4). exists q. split; [lia|].
      replace (k - n)%nat with (Datatypes.S (k - Datatypes.S n)) by lia. split; auto. split; auto.
      intros [|j] x Hj Hx; [cbn in Hx; congruence|]. apply (H4 j); auto. lia. }
  destruct (G l 0%nat k r H) as (q & _ & H2 & H3 & H4). rewrite Nat.sub_0_r in *. eauto.
Qed.

Lemma where_nil {T} (f : T -> bool) l : (forall x, In x l -> f x = false) -> np_where f l = [].
Proof.
  unfold np_where. intros H. generalize 0%nat. induction l as [|a l IH]; intros n; auto.
  cbn [List.length seq combine filter snd]. rewrite (H a) by (left; auto). apply IH. intros x Hx. apply H. right; auto.
Qed.

(* ------------------------------------------------------------------ *)
(** ** Editing *)

(** One successful call of add_pix_wave_pair. *)
Lemma add_inv {A} {N : Num A} (c : calib A) pix wave c' : add_pix_wave_pair c pix wave = (c', Ok tt) ->
  exists p k w, c_mpeaks c = MArr p /\ hd_error (np_where (fun q => q <' pix) p) = Some k /\ c_matlas c <> MNone /\
    w = mseq_vals (c_matlas c) /\ (k <= List.length w)%nat /\
    c' = set_c_matlas (MArr (np_insert w k wave)) (set_c_mpeaks (MArr (np_insert p k pix)) c).
Proof.
  unfold add_pix_wave_pair. intros H. destruct (c_mpeaks c) as [p|p|]; try discriminate.
  destruct (np_where (fun q => q <' pix) p) as [|k r] eqn:E; [discriminate|].
  assert (G : c_matlas c <> MNone /\ (if Nat.ltb (List.length (mseq_vals (c_matlas c))) k then (c, Raise IndexError)
     else (set_c_matlas (MArr (np_insert (mseq_vals (c_matlas c)) k wave)) (set_c_mpeaks (MArr (np_insert p k pix)) c), Ok tt)) = (c', Ok tt)).
  { destruct (c_matlas c) eqn:Em; [| |discriminate]; (split; [discriminate|exact H]). }
  destruct G as (Hm & G). destruct (Nat.ltb_spec (List.length (mseq_vals (c_matlas c))) k) as [|L]; [discriminate|].
  exists p, k, (mseq_vals (c_matlas c)). split; [reflexivity|]. split; [rewrite E; reflexivity|].
  split; [exact Hm|]. split; [reflexivity|]. split; [exact L|]. congruence.
Qed.

Lemma remove_inv {A} {N : Num A} (c : calib A) arg c' : remove_pix_wave_pair c arg = (c', Ok tt) ->
  exists p w, delete_at (mseq_vals (c_mpeaks c)) arg = Ok p /\ delete_at (mseq_vals (c_matlas c)) arg = Ok w /\
    c_mpeaks c <> MNone /\ c_matlas c <> MNone /\ c' = set_c_matlas (MArr w) (set_c_mpeaks (MArr p) c).
Proof.
  unfold remove_pix_wave_pair. intros H.
  assert (G : c_mpeaks c <> MNone /\ c_matlas c <> MNone /\
     match bind (delete_at (mseq_vals (c_mpeaks c)) arg) (fun p' =>
              bind (delete_at (mseq_vals (c_matlas c)) arg) (fun w' => Ok (p', w'))) with
        | Raise e => (c, Raise e)
        | Ok (p', w') => (set_c_matlas (MArr w') (set_c_mpeaks (MArr p') c), Ok tt)
        end = (c', Ok tt)).
  { destruct (c_mpeaks c), (c_matlas c); try discriminate; (split; [discriminate|split; [discriminate|exact H]]). }
  destruct G as (H1 & H2 & G). destruct (bind _ _) as [[p w]|] eqn:E; [|discriminate].
  apply bind_Ok in E. destruct E as (p' & E1 & E). apply bind_Ok in E. destruct E as (w' & E2 & E).
  injection E as -> ->. exists p, w. repeat (split; auto). congruence.
Qed.

Lemma edit_fail {A} {N : Num A} (c : calib A) e err : snd (edit_step c e) = Raise err -> fst (edit_step c e) = c.
Proof.
  destruct e as [p w|k]; cbn [edit_step].
  - unfold add_pix_wave_pair. destruct (c_mpeaks c); auto. destruct (np_where _ _); auto.
    destruct (c_matlas c); auto; destruct (Nat.ltb _ _); auto; discriminate.
  - unfold remove_pix_wave_pair. destruct (c_mpeaks c), (c_matlas c); auto;
      (destruct (bind _ _) as [[p' w']|]; auto; discriminate).
Qed.

Lemma edit_step_spec {A} {N : Num A} (c : calib A) e : aligned c ->
  aligned (fst (edit_step c e)) /\
  Permutation (matched_pairs (fst (edit_step c e)) ++ removed c [e]) (matched_pairs c ++ added c [e]).
Proof.
  intros Hal. cbn [added removed]. rewrite !app_nil_r.
  destruct (snd (edit_step c e)) as [[]|err] eqn:Es.
  2: { rewrite (edit_fail _ _ _ Es). split; auto. destruct e; rewrite ?Es; reflexivity. }
  destruct Hal as (A1 & A2 & L).
  destruct e as [pix wave|arg].
  - cbn [edit_step] in *. rewrite Es.
    assert (Ha : add_pix_wave_pair c pix wave = (fst (add_pix_wave_pair c pix wave), Ok tt)) by (rewrite <- Es; apply surjective_pairing).
    destruct (add_inv _ _ _ _ Ha) as (p & k & w & Ep & _ & _ & Ew & Hk & Ec). rewrite Ec. rewrite Ep in L. cbn [mseq_vals] in L. rewrite <- Ew in L.
    unfold aligned, matched_pairs. cbn [c_mpeaks c_matlas set_c_matlas set_c_mpeaks mseq_vals].
    split; [split; [discriminate|]; split; [discriminate|rewrite !insert_length; auto]|].
    rewrite Ep, <- Ew. cbn [mseq_vals]. rewrite combine_insert by auto. rewrite app_nil_r, insert_perm.
    apply Permutation_cons_append.
  - cbn [edit_step] in *. rewrite Es.
    assert (Ha : remove_pix_wave_pair c arg = (fst (remove_pix_wave_pair c arg), Ok tt)) by (rewrite <- Es; apply surjective_pairing).
    destruct (remove_inv _ _ _ Ha) as (p & w & Ep & Ew & _ & _ & Ec). rewrite Ec.
    unfold matched_pairs in *. cbn [c_mpeaks c_matlas set_c_matlas set_c_mpeaks mseq_vals].
    unfold delete_at in Ep, Ew. rewrite <- L in Ew.
    rewrite combine_length, <- L, Nat.min_id.
    destruct (Z.ltb_spec arg (- Z.of_nat (List.length (mseq_vals (c_mpeaks c))))) as [|B1]; [discriminate|].
    destruct (Z.leb_spec (Z.of_nat (List.length (mseq_vals (c_mpeaks c)))) arg) as [|B2]; [discriminate|].
    cbn [orb] in *.
    set (k := Z.to_nat (if (arg <? 0)%Z then (arg + Z.of_nat (List.length (mseq_vals (c_mpeaks c))))%Z else arg)) in *.
    assert (Hk : (k < List.length (mseq_vals (c_mpeaks c)))%nat) by (unfold k; destruct (Z.ltb_spec arg 0); lia).
    injection Ep as <-. injection Ew as <-.
    assert (Ln : forall T (l : list T), (k < List.length l)%nat -> List.length (np_delete l k) = (List.length l - 1)%nat).
    { intros T l Hl. unfold np_delete. rewrite app_length, firstn_length, skipn_length. lia. }
    split; [split; [discriminate|]; split; [discriminate|cbn [mseq_vals c_mpeaks c_matlas set_c_matlas set_c_mpeaks]; rewrite !Ln by lia; lia]|].
    rewrite combine_delete by auto.
    destruct (nth_error (combine (mseq_vals (c_mpeaks c)) (mseq_vals (c_matlas c))) k) as [q|] eqn:Eq.
    2: { apply nth_error_None in Eq. rewrite combine_length, <- L, Nat.min_id in Eq. lia. }
    rewrite app_nil_r. rewrite <- Permutation_cons_append. apply delete_perm. auto.
Qed.

(** C74: after any history of calls, successful or not, matched peaks and matched lines
    are aligned, the pairs are the initial ones with the added ones and without the
    removed ones, and nothing else has changed; a call that raises changes nothing. *)
Lemma edits_aligned_main :
  forall (A : Type) (N : Num A) (c : calib A) (h : list (edit_op A)),
    aligned c ->
    aligned (edit_run c h) /\
    Permutation (matched_pairs (edit_run c h) ++ removed c h) (matched_pairs c ++ added c h) /\
    set_c_matlas (c_matlas c) (set_c_mpeaks (c_mpeaks c) (edit_run c h)) = c /\
    (forall e err, snd (edit_step (edit_run c h) e) = Raise err -> fst (edit_step (edit_run c h) e) = edit_run c h).
Proof.
  intros A N c h Hal.
  assert (G : aligned (edit_run c h) /\
    Permutation (matched_pairs (edit_run c h) ++ removed c h) (matched_pairs c ++ added c h) /\
    set_c_matlas (c_matlas c) (set_c_mpeaks (c_mpeaks c) (edit_run c h)) = c).
  { revert c Hal. induction h as [|e h IH]; intros c Hal.
    - cbn. split; auto. split; [auto|]. destruct c; reflexivity.
    - destruct (edit_step_spec c e Hal) as (H1 & H2). destruct (IH _ H1) as (I1 & I2 & I3).
      change (edit_run c (e :: h)) with (edit_run (fst (edit_step c e)) h). split; auto. split.
      + assert (R : removed c (e :: h) = (removed c [e] ++ removed (fst (edit_step c e)) h)%list)
          by (cbn [removed]; rewrite app_nil_r; reflexivity).
        assert (D : added c (e :: h) = (added c [e] ++ added (fst (edit_step c e)) h)%list)
          by (cbn [added]; rewrite app_nil_r; reflexivity).
        rewrite R, D. revert H2 I2. generalize (removed c [e]) as x, (added c [e]) as y. intros x y H2 I2.
        rewrite (Permutation_app_comm x), app_assoc, I2, <- app_assoc, (Permutation_app_comm _ x), app_assoc, H2.
        rewrite <- app_assoc. reflexivity.
      + assert (E : forall m n m' n' (d : calib A), set_c_matlas m (set_c_mpeaks n (set_c_matlas m' (set_c_mpeaks n' d))) =
                      set_c_matlas m (set_c_mpeaks n d)) by reflexivity.
        rewrite <- (E _ _ (c_matlas (fst (edit_step c e))) (c_mpeaks (fst (edit_step c e)))), I3.
        destruct (snd (edit_step c e)) as [[]|err] eqn:Es; [|rewrite (edit_fail _ _ _ Es); destruct c; reflexivity].
        destruct e as [pix wave|arg]; cbn [edit_step] in *.
        * assert (Ha : add_pix_wave_pair c pix wave = (fst (add_pix_wave_pair c pix wave), Ok tt)) by (rewrite <- Es; apply surjective_pairing).
          destruct (add_inv _ _ _ _ Ha) as (p & k & w & _ & _ & _ & _ & _ & Ec). rewrite Ec. destruct c; reflexivity.
        * assert (Ha : remove_pix_wave_pair c arg = (fst (remove_pix_wave_pair c arg), Ok tt)) by (rewrite <- Es; apply surjective_pairing).
          destruct (remove_inv _ _ _ Ha) as (p & w & _ & _ & _ & _ & Ec). rewrite Ec. destruct c; reflexivity. }
  destruct G as (G1 & G2 & G3). split; auto. split; auto. split; auto.
  intros e err. apply edit_fail.
Qed.

(** A history after the fit of the session: match_peaks makes the matches arrays; then a
    pair is added, one removed, and a call fails. *)
Definition c_matched : calib f64 := Eval vm_compute in fst (match_peaks o_ex no_mini c_fitted (ma_plain (fz 20) false true)).
Example matched_state_example_main :
  c_matched = fst (match_peaks o_ex no_mini c_fitted (ma_plain (fz 20) false true)).
Proof. vm_compute. reflexivity. Qed.
Example edits_example_main :
  c_mpeaks c_matched = MArr ex_peaks /\ c_matlas c_matched = MArr ex_waves /\
  let c' := edit_run c_matched [EAdd (fz 200) (fz 5000); ERemove 1; ERemove 99; EAdd (fz 50) (fz 3500)] in
  matched_pairs c' = [(fz 200, fz 5000); (fz 190, fz 4897); (fz 310, fz 6101); (fz 430, fz 7302); (fz 500, fz 7999)].
Proof. vm_compute. repeat split. Qed.

(** C75 fails for every input: a pair whose pixel exceeds the first matched peak always
    goes to the front, so that increasing peaks are not increasing afterwards; a pixel
    not above any matched peak raises IndexError; and while the matches are lists, as
    fit leaves them, every call raises TypeError. *)
Lemma add_pair_sorted_refuted_main :
  forall (A : Type) (N : Num A) (c : calib A) (pix wave : A),
    (forall p0 rest, c_mpeaks c = MArr (p0 :: rest) -> c_matlas c <> MNone -> p0 <' pix = true ->
       snd (add_pix_wave_pair c pix wave) = Ok tt /\
       c_mpeaks (fst (add_pix_wave_pair c pix wave)) = MArr (pix :: p0 :: rest)) /\
    (forall p, c_mpeaks c = MArr p -> (forall q, In q p -> q <' pix = false) ->
       add_pix_wave_pair c pix wave = (c, Raise IndexError)) /\
    (forall p, c_mpeaks c = MList p -> add_pix_wave_pair c pix wave = (c, Raise TypeError)).
Proof.
  intros A N c pix wave. split; [|split].
  - intros p0 rest Hp Hm Hlt. unfold add_pix_wave_pair. rewrite Hp.
    assert (E : exists r, np_where (fun q => q <' pix) (p0 :: rest) = 0%nat :: r).
    { unfold np_where. cbn [List.length seq combine filter snd]. rewrite Hlt. cbn. eauto. }
    destruct E as (r & ->). destruct (c_matlas c); [| |contradiction]; cbn; auto.
  - intros p Hp Hq. unfold add_pix_wave_pair. rewrite Hp, where_nil; auto.
  - intros p Hp. unfold add_pix_wave_pair. rewrite Hp. reflexivity.
Qed.

(** Reachable cases: after the fit, and after match_peaks. *)
Example add_pair_example_main :
  snd (add_pix_wave_pair c_fitted (fz 600) (fz 9001)) = Raise TypeError /\
  snd (add_pix_wave_pair c_matched (fz 50) (fz 3500)) = Raise IndexError /\
  c_mpeaks (fst (add_pix_wave_pair c_matched (fz 600) (fz 9001))) = MArr (fz 600 :: ex_peaks).
Proof. vm_compute. repeat split. Qed.

(** C75, the part that holds: if the matched peaks are in decreasing order and one of
    them is below the pixel, the pair is inserted at its place in that order. *)
Lemma add_pair_sorted_partial_main :
  forall (A : Type) (N : Num A) (O : NumOrder A) (c : calib A) (pix wave : A) p,
    c_mpeaks c = MArr p -> aligned c -> no_nan (pix :: p) ->
    StronglySorted (fun u v => v <=' u = true) p -> (exists q, In q p /\ q <' pix = true) ->
    exists c' p',
      add_pix_wave_pair c pix wave = (c', Ok tt) /\ c_mpeaks c' = MArr p' /\
      StronglySorted (fun u v => v <=' u = true) p' /\
      Permutation (matched_pairs c') ((pix, wave) :: matched_pairs c).
Proof.
  intros A N O c pix wave p Hp Hal Hnn Hs (q & Hq & Hlt).
  destruct (np_where (fun q => q <' pix) p) as [|k r] eqn:E.
  { exfalso. apply In_nth_error in Hq. destruct Hq as (i & Hi).
    assert (Hin : In i (np_where (fun q => q <' pix) p)).
    { unfold np_where. apply in_map_iff. exists (i, q). split; auto. apply filter_In. split; auto.
      apply (nth_error_In _ i). rewrite <- (Nat.add_0_l i) at 2. clear -Hi. generalize 0%nat as n.
      revert i Hi. induction p as [|a p IH]; intros [|i] Hi n; try discriminate.
      - injection Hi as ->. cbn. rewrite Nat.add_0_r. auto.
      - cbn in *. rewrite (IH _ Hi (Datatypes.S n)). f_equal. f_equal. lia. }
    rewrite E in Hin. destruct Hin. }
  destruct (where_bound _ _ _ _ E) as (qk & Hk & Hqk & Hbefore).
  pose proof Hal as (_ & Hm & L). rewrite Hp in L. cbn [mseq_vals] in L.
  assert (Hkl : (k < List.length p)%nat) by (apply nth_error_Some; congruence).
  assert (Eadd : add_pix_wave_pair c pix wave =
     (set_c_matlas (MArr (np_insert (mseq_vals (c_matlas c)) k wave)) (set_c_mpeaks (MArr (np_insert p k pix)) c), Ok tt)).
  { unfold add_pix_wave_pair. rewrite Hp, E. destruct (c_matlas c) as [w|w|]; [| |contradiction];
      cbn [mseq_vals] in *; (destruct (Nat.ltb_spec (List.length w) k); [lia|reflexivity]). }
  eexists _, _. split; [exact Eadd|]. split; [reflexivity|]. split.
  - unfold np_insert. rewrite <- (firstn_skipn k p) in Hs.
    assert (H1 : forall x, In x (firstn k p) -> pix <=' x = true).
    { intros x Hx. assert (Hx' : In x p) by (rewrite <- (firstn_skipn k p); apply in_or_app; auto).
      apply In_nth_error in Hx. destruct Hx as (j & Hj).
      assert (Hjl : (j < k)%nat).
      { assert (j < List.length (firstn k p))%nat by (apply nth_error_Some; congruence). rewrite firstn_length in H. lia. }
      assert (Hj' : nth_error p j = Some x).
      { rewrite <- (firstn_skipn k p), nth_error_app1; auto. apply nth_error_Some. congruence. }
      clear Hj. rename Hj' into Hj. specialize (Hbefore _ _ Hjl Hj). cbn in Hbefore.
      apply (ltb_false_leb x pix); auto; apply Hnn; [right; auto|left; auto]. }
    assert (H2 : forall x, In x (skipn k p) -> x <=' pix = true).
    { intros x Hx. assert (Hsk : StronglySorted (fun u v => v <=' u = true) (skipn k p)).
      { clear -Hs. induction (firstn k p); auto. inversion Hs; auto. }
      destruct (skipn k p) as [|y r'] eqn:Esk; [destruct Hx|].
      assert (y = qk).
      { assert (nth_error (skipn k p) 0 = Some qk) by (rewrite <- Hk; clear; revert p; induction k as [|k IH]; intros [|a p]; [reflexivity|destruct p; reflexivity|reflexivity|exact (IH p)]). rewrite Esk in H. cbn in H. congruence. }
      subst y. assert (qk <=' pix = true) by (apply ltb_leb_weak; auto).
      destruct Hx as [->|Hx]; auto. inversion Hsk as [|? ? _ F]; subst. rewrite Forall_forall in F. eapply leb_trans; [apply F; auto|auto]. }
    revert Hs H1 H2. generalize (firstn k p), (skipn k p). clear. intros u v Hs H1 H2.
    induction u as [|a u IH]; cbn [app] in *.
    + constructor; auto. rewrite Forall_forall. auto.
    + inversion Hs as [|? ? S F]; subst. constructor.
      * apply IH; auto. intros x Hx. apply H1. right; auto.
      * rewrite Forall_forall in *. intros x Hx. apply in_app_or in Hx. destruct Hx as [Hx|[<-|Hx]].
        -- apply F. apply in_or_app; auto. -- apply H1. left; auto. -- apply F. apply in_or_app; auto.
  - unfold matched_pairs. cbn [c_mpeaks c_matlas set_c_matlas set_c_mpeaks mseq_vals].
    rewrite Hp. cbn [mseq_vals]. rewrite combine_insert by auto. apply insert_perm.
Qed.

(** The hypotheses are met: decreasing peaks. *)
Example add_pair_sorted_example_main :
  let c := set_c_matlas (MArr (rev ex_waves)) (set_c_mpeaks (MArr (rev ex_peaks)) c_matched) in
  c_mpeaks (fst (add_pix_wave_pair c (fz 200) (fz 5000))) = MArr [fz 500; fz 430; fz 310; fz 200; fz 190; fz 100] /\
  c_matlas (fst (add_pix_wave_pair c (fz 200) (fz 5000))) = MArr [fz 7999; fz 7302; fz 6101; fz 5000; fz 4897; fz 4002].
Proof. vm_compute. repeat split. Qed.

(* ------------------------------------------------------------------ *)
(** ** manual_refit *)

Lemma denormalise_length {A} {N : Num A} (sx sy : A) d p : List.length (denormalise sx sy d p) = List.length p.
Proof. unfold denormalise. rewrite map_length, combine_length, seq_length. lia. Qed.

(** C76: with different lengths the call raises and nothing changes; a call that succeeds
    stores what it returns, changes nothing else, and the residuals are line minus fitted
    value for each pair. *)
Lemma manual_refit_validates_main :
  forall (A : Type) (N : Num A) (o : oracle A) (c : calib A) (a : refit_args A),
    let mp := given_or (rf_peaks a) (c_mpeaks c) in
    let ma := given_or (rf_atlas a) (c_matlas c) in
    let x := mseq_vals mp in
    let y := mseq_vals ma in
    (List.length x <> List.length y -> fst (manual_refit o c a) = c /\ exists e, snd (manual_refit o c a) = Raise e) /\
    (forall c' co mp' ma' rms r, manual_refit o c a = (c', Ok (co, mp', ma', rms, r)) ->
       exists k, c_kind c = Some k /\ mp' = mp /\ ma' = ma /\ List.length x = List.length y /\ x <> [] /\
         r = map (fun q => snd q -' eval_kind k (fst q) co) (combine x y) /\ rms = root_mean_square r /\
         c' = set_c_rms (Some rms) (set_c_residuals (Some r) (set_c_matlas ma (set_c_mpeaks mp (set_c_coeff (Some co) c))))).
Proof.
  intros A N o c a mp ma x y.
  assert (Em : match rf_peaks a with MNone => c_mpeaks c | m => m end = mp) by (unfold mp, given_or; destruct (rf_peaks a); reflexivity).
  assert (Ea : match rf_atlas a with MNone => c_matlas c | m => m end = ma) by (unfold ma, given_or; destruct (rf_atlas a); reflexivity).
  assert (Emin : forall f : A -> A, minus y (map f x) = map (fun q => snd q -' f (fst q)) (combine x y)).
  { intros f. unfold minus. clearbody x y. clear. revert y. induction x as [|u x IH]; intros [|w y]; auto. cbn. rewrite IH. auto. }
  unfold manual_refit. rewrite Em, Ea. clearbody mp ma. clear Em Ea. cbv zeta.
  split.
  - intros Hl. destruct (refit_start c a) as [[x0 d]|e]; [|cbn; eauto].
    assert (E : Nat.eqb (List.length x) (List.length y) = false) by (apply Nat.eqb_neq; auto).
    unfold x, y in E. destruct mp as [p|p|], ma as [w|w|]; try (cbn; eauto; fail); cbn [mseq_vals] in *; rewrite E; cbn; eauto.
  - intros c' co mp' ma' rms r H. destruct (refit_start c a) as [[x0 d]|e]; [|discriminate].
    assert (G : (if negb (Nat.eqb (List.length x) (List.length y) && negb (Nat.eqb (List.length x) 0) && (0 <? d)%Z && (d <=? Z.of_nat (List.length x) - 1)%Z)
            then (c, Raise AssertionError) else
            match robust_polyfit (o_ls o) x y (Z.to_nat d) x0 with
            | Raise e => (c, Raise e)
            | Ok co =>
                let c1 := set_c_matlas ma (set_c_mpeaks mp (set_c_coeff (Some co) c)) in
                match polyvals_of (c_kind c) x co with
                | Raise e => (c1, Raise e)
                | Ok vs =>
                    let r := minus y vs in
                    (set_c_rms (Some (nan_rms r)) (set_c_residuals (Some r) c1), Ok (co, mp, ma, nan_rms r, r))
                end
            end) = (c', Ok (co, mp', ma', rms, r))).
    { destruct mp, ma; try discriminate; exact H. }
    clear H. destruct (Nat.eqb_spec (List.length x) (List.length y)) as [L|]; [|discriminate].
    destruct (Nat.eqb_spec (List.length x) 0) as [|Hn]; [discriminate|]. cbn [andb negb] in G.
    destruct (negb _); [discriminate|]. destruct (robust_polyfit _ _ _ _ _) as [co'|]; [|discriminate].
    cbv zeta in G. destruct (polyvals_of _ _ _) as [vs|] eqn:Ev; [|discriminate].
    apply polyvals_Ok in Ev. destruct Ev as (k & Ek & Ev).
    assert (Eco : co = co') by congruence. subst co'. exists k.
    split; auto. split; [congruence|]. split; [congruence|]. split; auto.
    split; [intros K; rewrite K in Hn; auto|].
    assert (Er : r = minus y vs) by congruence.
    split; [rewrite Er, Ev; apply (Emin (fun p => eval_kind k p co))|].
    assert (Erm : rms = nan_rms r) by congruence. split; [exact Erm|].
    rewrite Erm, Er. congruence.
Qed.

(** C76, the rms over exact numbers: for finite residuals it is the square root of their
    mean square. *)
Lemma nan_rms_Fin (ds : list R) : ds <> [] ->
  nan_rms (map Fin ds) = Fin (sqrt (fold_right Rplus 0 (map (fun d => d * d) ds) / INR (List.length ds)))%R.
Proof.
  intros Hd. unfold nan_rms, np_nansum. rewrite !map_map.
  assert (E : map (fun x => if nisnan (Fin x *' Fin x) then nZ 0 else Fin x *' Fin x) ds = map Fin (map (fun d => d * d)%R ds)).
  { rewrite map_map. reflexivity. }
  rewrite E, np_sum_Fin_R, map_length, nnat_Fin.
  assert (Hp : (0 < INR (List.length ds))%R) by (apply lt_0_INR; destruct ds; [contradiction|cbn; lia]).
  assert (Hs : (0 <= fold_right Rplus 0 (map (fun d => d * d) ds))%R).
  { clear. induction ds as [|d ds IH]; cbn; [lra|]. pose proof (Rle_0_sqr d) as K. unfold Rsqr in K. lra. }
  change (ndiv (Fin ?a) (Fin ?b)) with (if Reqb b 0 then (if Reqb a 0 then NaN else Inf (Rltb a 0)) else Fin (a / b)).
  destruct (Reqb_spec (INR (List.length ds)) 0) as [K|K]; [lra|].
  change (nsqrt (Fin ?a)) with (if Rltb a 0 then NaN else Fin (sqrt a)).
  match goal with |- context [Rltb ?a 0] => destruct (Rltb_spec a 0) as [Q|Q]; [|reflexivity]; exfalso;
    assert (0 <= a)%R by (apply Rmult_le_pos; auto; left; apply Rinv_0_lt_compat; auto); lra end.
Qed.
Lemma manual_refit_rms_main :
  forall (o : oracle xr) (c : calib xr) (a : refit_args xr) c' co mp ma rms ds,
    manual_refit o c a = (c', Ok (co, mp, ma, rms, map Fin ds)) ->
    rms = Fin (sqrt (fold_right Rplus 0 (map (fun d => d * d) ds) / INR (List.length ds)))%R.
Proof.
  intros o c a c' co mp ma rms ds H.
  destruct (manual_refit_validates_main _ _ o c a) as (_ & K). destruct (K _ _ _ _ _ _ H) as (k & _ & -> & -> & L & Hn & Er & -> & _).
  apply nan_rms_Fin. intros E. subst ds. cbn [map] in Er. symmetry in Er. apply map_eq_nil in Er.
  apply (f_equal (@List.length _)) in Er. rewrite combine_length, <- L, Nat.min_id in Er.
  apply Hn. destruct (mseq_vals (given_or (rf_peaks a) (c_mpeaks c))); [auto|discriminate].
Qed.

(** A refit of the session: one of the matched pairs is removed, then a line is fitted
    to the other four; and a call with different lengths. *)
Definition refit_line : refit_args f64 := mkRF MNone MNone (Some 1%Z) MNone.
Example manual_refit_example_main :
  match manual_refit o_ex (edit_run c_matched [ERemove 4]) refit_line return Prop with
  | (c', Ok (co, mp, ma, rms, r)) =>
      mp = MArr [fz 100; fz 190; fz 310; fz 430] /\ List.length r = 4%nat /\ rms <' fz 50 = true
  | _ => False
  end /\
  snd (manual_refit o_ex c_matched (mkRF (MList [fz 1; fz 2]) (MList [fz 1]) (Some 1%Z) MNone)) = Raise AssertionError.
Proof. vm_compute. repeat split. Qed.

(** C93, the part that holds: once fit has set the fit type, a manual_refit that raises
    leaves the calibrator as it was (for an optimiser that returns as many coefficients
    as it is given). *)
Lemma manual_refit_atomic_partial_main :
  forall (A : Type) (N : Num A) (o : oracle A) (c : calib A) (a : refit_args A) e,
    c_kind c <> None ->
    (forall x y d p q, o_ls o x y d p = Ok q -> List.length q = List.length p) ->
    snd (manual_refit o c a) = Raise e -> fst (manual_refit o c a) = c.
Proof.
  intros A N o c a e Hk Hls. unfold manual_refit. cbv zeta.
  destruct (refit_start c a) as [[x0 d]|]; [|auto].
  destruct (match rf_peaks a with MNone => c_mpeaks c | m => m end) as [p|p|]; auto;
    destruct (match rf_atlas a with MNone => c_matlas c | m => m end) as [w|w|]; auto; cbn [mseq_vals];
    (destruct (negb _) eqn:En; [auto|]; destruct (robust_polyfit _ _ _ _ _) as [co|] eqn:Er; [|auto];
     destruct (c_kind c) as [k|]; [|contradiction]; rewrite polyvals_map; [discriminate|];
     intros ->; unfold robust_polyfit in Er; destruct (normalise_input _ _) as [xn yn];
     apply bind_Ok in Er; destruct Er as (p0 & _ & Er);
     destruct (Nat.eqb_spec (List.length p0) (Z.to_nat d + 1)) as [L|]; [|discriminate]; cbn [negb] in Er;
     apply bind_Ok in Er; destruct Er as (q & Hq & Er); apply Hls in Hq;
     assert (Eq : rev (denormalise (np_std p) (np_std w) (Z.to_nat d) q) = []) by congruence;
     apply (f_equal (@List.length _)) in Eq; rewrite rev_length, denormalise_length in Eq; cbn in Eq; lia).
Qed.

(** C93 fails before the first fit: manual_refit raises AttributeError after replacing
    the stored coefficients and matches. *)
Lemma manual_refit_atomic_refuted_main :
  forall (A : Type) (N : Num A) (o : oracle A) (c : calib A) x y d co,
    c_kind c = None -> List.length x = List.length y -> (0 < d)%Z -> (d <= Z.of_nat (List.length x) - 1)%Z ->
    robust_polyfit (o_ls o) x y (Z.to_nat d) None = Ok co -> co <> [] ->
    let r := manual_refit o c (mkRF (MList x) (MList y) (Some d) MNone) in
    snd r = Raise AttributeError /\
    c_coeff (fst r) = Some co /\ c_mpeaks (fst r) = MList x /\ c_matlas (fst r) = MList y.
Proof.
  intros A N o c x y d co Hk L H1 H2 Hr Hne. unfold manual_refit. cbn [rf_peaks rf_atlas refit_start rf_x0 rf_deg mseq_vals].
  rewrite L, Nat.eqb_refl. rewrite L in H2. destruct (Nat.eqb_spec (List.length y) 0) as [E|_]; [rewrite E in H2; cbn in H2; lia|].
  destruct (Z.ltb_spec 0 d); [|lia]. destruct (Z.leb_spec d (Z.of_nat (List.length y) - 1)); [|lia]. cbn [andb negb].
  rewrite Hr, Hk. destruct x as [|u x]; cbn; auto.
Qed.
Example manual_refit_atomic_example_main :
  c_kind c_session = None /\ c_coeff c_session = None /\
  exists co, robust_polyfit (o_ls o_ex) ex_peaks ex_waves 1 None = Ok co /\ co <> [].
Proof. vm_compute. repeat split. eexists. split; [reflexivity|discriminate]. Qed.

(** C92, the part that holds, over exact numbers: for fit type "poly", or degree at most
    1, a refit whose optimiser interpolates the normalised data exactly leaves residuals
    that are all zero. *)
Lemma refit_exact_partial_main :
  forall (o : oracle xr) (c : calib xr) (x y : list R) (d : nat) sx sy c' co mp ma rms r,
    c_kind c = Some FitPoly \/ (c_kind c <> None /\ (d <= 1)%nat) ->
    np_std (map Fin x) = Fin sx -> np_std (map Fin y) = Fin sy -> sx <> 0%R -> sy <> 0%R ->
    (forall start found,
       o_ls o (map Fin (map (fun v => v / sx)%R x)) (map Fin (map (fun v => v / sy)%R y)) d start = Ok found ->
       exists q, found = map Fin q /\ List.length q = (d + 1)%nat /\
         forall xi yi, In (xi, yi) (combine x y) -> basis_sum powB (rev q) (xi / sx) = (yi / sy)%R) ->
    manual_refit o c (mkRF (MArr (map Fin x)) (MArr (map Fin y)) (Some (Z.of_nat d)) MNone) = (c', Ok (co, mp, ma, rms, r)) ->
    forall z, In z r -> z = Fin 0.
Proof.
  intros o c x y d sx sy c' co mp ma rms r Hk Hsx Hsy Nx Ny Hopt H z Hz.
  assert (Hc : exists cc, robust_polyfit (o_ls o) (map Fin x) (map Fin y) d None = Ok cc).
  { pose proof H as H'. unfold manual_refit in H'. cbn [rf_peaks rf_atlas refit_start rf_x0 rf_deg mseq_vals] in H'.
    destruct (negb _); [discriminate|]. rewrite Nat2Z.id in H'. destruct (robust_polyfit _ _ _ _ _) as [cc|]; [eauto|discriminate]. }
  destruct Hc as (cc & Hc).
  destruct (robust_polyfit_inv _ _ _ _ _ _ _ _ Hsx Hsy Nx Ny Hc) as (start & found & Hst & Hsl & Hls0).
  destruct (Hopt _ _ Hls0) as (q & -> & Hql & Hexact). pose proof Hls0 as Hls.
  destruct (robust_polyfit_denorm (o_ls o) x y d None sx sy start q Hsx Hsy Nx Ny Hst Hsl Hls Hql) as (cs & Hr & Hcl & _ & Hint).
  specialize (Hint Hexact).
  destruct (manual_refit_validates_main _ _ o c (mkRF (MArr (map Fin x)) (MArr (map Fin y)) (Some (Z.of_nat d)) MNone)) as (_ & K).
  destruct (K _ _ _ _ _ _ H) as (k & Ek & _ & _ & _ & _ & Er & _ & Ec). clear K. cbn [given_or rf_peaks rf_atlas mseq_vals] in Er.
  assert (Eco : co = map Fin cs).
  { unfold manual_refit in H. cbn [rf_peaks rf_atlas refit_start rf_x0 rf_deg mseq_vals] in H.
    destruct (negb _); [discriminate|]. rewrite Nat2Z.id, Hr, Ek in H. destruct (polyvals_of _ _ _); [|discriminate]. cbv zeta in H. congruence. }
  rewrite Er in Hz. apply in_map_iff in Hz. destruct Hz as ([u w] & <- & Hin). cbn [fst snd].
  assert (Hin' : exists u' w', u = Fin u' /\ w = Fin w' /\ In (u', w') (combine x y)).
  { clear -Hin. revert y Hin. induction x as [|a x IH]; intros [|b y] Hin; try (destruct Hin; fail).
    cbn in Hin. destruct Hin as [E|Hin]; [injection E as <- <-; exists a, b; cbn; auto|].
    destruct (IH _ Hin) as (u' & w' & E1 & E2 & E3). exists u', w'. cbn. auto. }
  destruct Hin' as (u' & w' & -> & -> & Hin'). rewrite Eco.
  rewrite (eval_kind_low k cs u').
  2: { destruct Hk as [Hk|(_ & Hd)]; [left; congruence|right; lia]. }
  rewrite (Hint _ _ Hin'). change (Fin (w' - w') = Fin 0). f_equal. lra.
Qed.

(** C92 fails in binary64 for fit type "legendre": six points exactly on u*u, whose
    coefficients (0, 0, 1) are found and stored, get residuals above 30. *)
Definition parabola : list f64 := map fz [0; 2; 4; 6; 8; 10]%Z.
Definition o_parabola : oracle f64 :=
  mkO (o_argsort o_ex) (o_random o_ex) (o_polyfit o_ex)
    (fun _ _ _ _ => Ok [np_std parabola *' np_std parabola /' np_std (map (fun u => u *' u) parabola); fz 0; fz 0])
    (o_sample o_ex) (o_pick o_ex) (o_spline o_ex) false.
Lemma refit_exact_refuted_main :
  match manual_refit o_parabola (set_c_kind (Some FitLegendre) c_fitted)
          (mkRF (MArr parabola) (MArr (map (fun u => u *' u) parabola)) (Some 2%Z) MNone) with
  | (_, Ok (co, _, _, _, r)) =>
      match co with
      | [c0; c1; c2] => c0 ==' fz 0 = true /\ c1 ==' fz 0 = true /\ nabs (c2 -' fz 1) <' fd 1 (-9) = true
      | _ => False
      end /\
      exists z, nth_error r 5 = Some z /\ fz 30 <' nabs z = true
  | _ => False
  end.
Proof. vm_compute. repeat split. eexists. repeat split. Qed.

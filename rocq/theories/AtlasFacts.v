(** * AtlasFacts: lemmas about the model of atlas.py. *)

From Coq Require Import ZArith Bool List String Lia Arith Sorted.
From Verif Require Import Num Py Np NpFacts Util SpecUtil UtilFacts Atlas SpecAtlas.
Import ListNotations.

(** ** The removal loop *)
Section Remove.
  Context {T : Type} (f : T -> bool).

  Fixpoint survivors (skip : bool) (l : list T) : list T :=
    match l with
    | [] => []
    | x :: r => if skip then x :: survivors false r
                else if f x then survivors true r else x :: survivors false r
    end.

  (** Mask of kept positions. *)
  Fixpoint kept (skip : bool) (l : list T) : list bool :=
    match l with
    | [] => []
    | x :: r => if skip then true :: kept false r
                else if f x then false :: kept true r else true :: kept false r
    end.

  Lemma kept_length skip l : List.length (kept skip l) = List.length l.
  Proof.
    revert skip; induction l as [|x r IH]; intros skip; cbn; auto.
    destruct skip; [|destruct (f x)]; cbn; rewrite IH; auto.
  Qed.

  Lemma survivors_kept skip l : survivors skip l = mask_select (kept skip l) l.
  Proof.
    revert skip; induction l as [|x r IH]; intros skip; cbn; [reflexivity|].
    destruct skip; [|destruct (f x)]; rewrite mask_select_cons, IH; reflexivity.
  Qed.

  (** number of in-range elements directly before the current position *)
  Fixpoint run_at (r : nat) (l : list T) (i : nat) : nat :=
    match l, i with
    | x :: t, S k => run_at (if f x then S r else 0) t k
    | _, _ => r
    end.

  (* skip = true means: odd number of in-range elements before *)
  Lemma kept_spec l : forall r i x,
    nth_error l i = Some x ->
    nth_error (kept (Nat.odd r) l) i = Some (negb (f x && Nat.even (run_at r l i))).
  Proof.
    induction l as [|y t IH]; intros r i x Hx; [destruct i; discriminate|].
    destruct i as [|i].
    - injection Hx as ->. cbn [kept run_at]. rewrite <- Nat.negb_odd.
      destruct (Nat.odd r); cbn; [rewrite andb_false_r|]; auto.
      destruct (f x); cbn; reflexivity.
    - cbn [nth_error] in Hx. cbn [kept run_at].
      destruct (Nat.odd r) eqn:E.
      + cbn [nth_error]. destruct (f y) eqn:F.
        * replace false with (Nat.odd (S r)) by (rewrite Nat.odd_succ, <- Nat.negb_odd, E; auto).
          rewrite (IH (S r) i x Hx). reflexivity.
        * change false with (Nat.odd 0) at 1. apply IH; auto.
      + destruct (f y) eqn:F; cbn [nth_error].
        * replace true with (Nat.odd (S r)) by (rewrite Nat.odd_succ, <- Nat.negb_odd, E; auto).
          rewrite (IH (S r) i x Hx). reflexivity.
        * change false with (Nat.odd 0) at 1. apply IH; auto.
  Qed.

  (** run_at really is the length of the maximal in-range run before i. *)
  Lemma run_at_spec l : forall r i, (i <= List.length l)%nat ->
    exists k, run_at r l i = (if Nat.eqb k i then r + k else k)%nat /\ (k <= i)%nat /\
      (forall j, (i - k <= j < i)%nat -> exists y, nth_error l j = Some y /\ f y = true) /\
      (k = i \/ exists y, nth_error l (i - k - 1) = Some y /\ f y = false).
  Proof.
    induction l as [|y t IH]; intros r i Hi.
    - exists 0%nat. cbn in Hi. assert (i = 0)%nat by lia. subst. cbn.
      split; [lia|]. split; [lia|]. split; [intros; lia|auto].
    - destruct i as [|i].
      + exists 0%nat. cbn. split; [lia|]. split; [lia|]. split; [intros; lia|auto].
      + cbn in Hi. cbn [run_at].
        destruct (IH (if f y then S r else 0)%nat i ltac:(lia)) as (k & E & Hk & Hall & Hend).
        destruct (Nat.eqb_spec k i) as [Hki|Hne]; [subst k|].
        * destruct (f y) eqn:F.
          -- exists (S i). rewrite Nat.eqb_refl. split; [lia|]. split; [lia|]. split; [|auto].
             intros j Hj. destruct j as [|j]; [exists y; auto|]. cbn. apply Hall. lia.
          -- exists i. rewrite (proj2 (Nat.eqb_neq i (S i))) by lia.
             split; [lia|]. split; [lia|]. split.
             ++ intros j Hj. destruct j as [|j]; [lia|]. cbn. apply Hall. lia.
             ++ right. exists y. replace (S i - i - 1)%nat with 0%nat by lia. auto.
        * exists k. rewrite (proj2 (Nat.eqb_neq k (S i))) by lia.
          split; [exact E|]. split; [lia|]. split.
          -- intros j Hj. destruct j as [|j]; [lia|]. cbn. apply Hall. lia.
          -- right. destruct Hend as [Hend|(z & Hz & Fz)]; [lia|].
             exists z. split; auto. replace (S i - k - 1)%nat with (S (i - k - 1)) by lia. auto.
  Qed.

  Lemma run_unique l i k k' :
    (k <= i)%nat -> (k' <= i)%nat ->
    (forall j, (i - k <= j < i)%nat -> exists y, nth_error l j = Some y /\ f y = true) ->
    (forall j, (i - k' <= j < i)%nat -> exists y, nth_error l j = Some y /\ f y = true) ->
    (k = i \/ exists y, nth_error l (i - k - 1) = Some y /\ f y = false) ->
    (k' = i \/ exists y, nth_error l (i - k' - 1) = Some y /\ f y = false) -> k = k'.
  Proof.
    intros Hk Hk' H H' E E'. destruct (lt_eq_lt_dec k k') as [[L|]|L]; auto; exfalso.
    - destruct E as [E|(y & Hy & Fy)]; [lia|].
      destruct (H' (i - k - 1)%nat ltac:(lia)) as (z & Hz & Fz). congruence.
    - destruct E' as [E'|(y & Hy & Fy)]; [lia|].
      destruct (H (i - k' - 1)%nat ltac:(lia)) as (z & Hz & Fz). congruence.
  Qed.

  Lemma kept_struck l i : (i < List.length l)%nat ->
    (nth_error (kept false l) i = Some false <-> struck f l i).
  Proof.
    intros Hi. destruct (nth_error l i) as [x|] eqn:Hx; [|apply nth_error_None in Hx; lia].
    change false with (Nat.odd 0) at 1. rewrite (kept_spec l 0 i x Hx).
    destruct (run_at_spec l 0 i ltac:(lia)) as (k & E & Hk & Hall & Hend).
    assert (E' : run_at 0 l i = k) by (rewrite E; destruct (Nat.eqb k i); auto).
    rewrite E'. unfold struck. split.
    - intros H. injection H as H. apply negb_false_iff, andb_true_iff in H. destruct H as [H1 H2].
      split; [exists x; auto|]. exists k. split; [apply Nat.even_spec; auto|]. auto.
    - intros [(x' & Hx' & Fx) (k' & Ev & Hk' & Hall' & Hend')].
      assert (k = k') by (eapply run_unique; eauto). subst k'.
      rewrite Hx in Hx'. injection Hx' as <-. apply Nat.even_spec in Ev. rewrite Fx, Ev. auto.
  Qed.

  Lemma survivors_strike l : strike f l (survivors false l).
  Proof.
    exists (kept false l). split; [apply kept_length|]. split; [apply survivors_kept|].
    intros i Hi. apply kept_struck; auto.
  Qed.

  Lemma mask_ext (m m' : list bool) :
    List.length m = List.length m' ->
    (forall i, (i < List.length m)%nat -> nth_error m i = Some false <-> nth_error m' i = Some false) ->
    m = m'.
  Proof.
    revert m'; induction m as [|b m IH]; intros [|b' m'] L H; try discriminate; auto.
    f_equal.
    - specialize (H 0%nat ltac:(cbn; lia)). cbn in H. destruct b, b'; auto; destruct H as [H H'];
        try (specialize (H eq_refl); congruence); specialize (H' eq_refl); congruence.
    - apply IH; [cbn in L; lia|]. intros i Hi. apply (H (S i)). cbn. lia.
  Qed.

  Lemma strike_unique l l1 l2 : strike f l l1 -> strike f l l2 -> l1 = l2.
  Proof.
    intros (m & L & -> & S) (m' & L' & -> & S'). f_equal. apply mask_ext; [congruence|].
    intros i Hi. rewrite L in Hi. rewrite S, S' by auto. tauto.
  Qed.

  Definition hits (l : list T) : nat := List.length (filter f l).

  Lemma survivors_hits_half l : forall skip,
    (2 * hits (survivors skip l) <= hits l + if skip then 1 else 0)%nat.
  Proof.
    induction l as [|x r IH]; intros skip.
    - cbn. destruct skip; lia.
    - cbn [survivors]. unfold hits in *. destruct skip; cbv iota.
      + specialize (IH false); cbv iota in IH. cbn [filter]. destruct (f x); cbn [List.length] in *; lia.
      + destruct (f x) eqn:F.
        * specialize (IH true); cbv iota in IH. cbn [filter]. rewrite F. cbn [List.length] in *. lia.
        * specialize (IH false); cbv iota in IH. cbn [filter]. rewrite F. lia.
  Qed.

  (* a list without two adjacent in-range elements *)
  Lemma survivors_isolated l : forall skip,
    (forall i x y, nth_error l i = Some x -> nth_error l (S i) = Some y -> f x && f y = false) ->
    (skip = true -> match l with x :: _ => f x = false | [] => True end) ->
    forall x, In x (survivors skip l) -> f x = false.
  Proof.
    induction l as [|y r IH]; intros skip H Hs x Hx; [destruct Hx|].
    assert (H' : forall i x0 y0, nth_error r i = Some x0 -> nth_error r (S i) = Some y0 -> f x0 && f y0 = false).
    { intros i. apply (H (S i)). }
    cbn in Hx. destruct skip.
    - destruct Hx as [->|Hx]; [apply Hs; auto|]. apply (IH false); auto. discriminate.
    - destruct (f y) eqn:F.
      + apply (IH true); auto. intros _. destruct r as [|z r]; auto.
        specialize (H 0%nat y z eq_refl eq_refl). rewrite F in H. auto.
      + destruct Hx as [->|Hx]; auto. apply (IH false); auto. discriminate.
  Qed.

  Lemma survivors_adjacent l : forall skip i x y,
    nth_error l i = Some x -> nth_error l (S i) = Some y -> f x = true -> f y = true ->
    exists z, In z (survivors skip l) /\ f z = true.
  Proof.
    induction l as [|a r IH]; intros skip i x y H1 H2 Fx Fy; [destruct i; discriminate|].
    destruct i as [|i].
    - injection H1 as ->. destruct r as [|b r]; [discriminate|]. injection H2 as ->.
      cbn. destruct skip; [exists x; cbn; auto|]. rewrite Fx. exists y. cbn. auto.
    - cbn in H1. change (nth_error r (S i) = Some y) in H2. cbn [survivors].
      destruct skip.
      + destruct (IH false i x y H1 H2 Fx Fy) as (z & Hz & Fz). exists z. cbn. auto.
      + destruct (f a).
        * apply (IH true i x y); auto.
        * destruct (IH false i x y H1 H2 Fx Fy) as (z & Hz & Fz). exists z. cbn. auto.
  Qed.
End Remove.

Section RemoveLoop.
  Context {A : Type} {N : Num A}.

  Lemma remove_loop_gen (f : atlas_line A -> bool) : forall (fuel : nat) (pre : list (atlas_line A)) (skip : bool) (l : list (atlas_line A)),
    (List.length l <= fuel + (if skip then 1 else 0))%nat ->
    remove_loop fuel f (if skip then S (List.length pre) else List.length pre) (pre ++ l)
    = pre ++ survivors f skip l.
  Proof.
    induction fuel as [|k IH]; intros pre skip l Hl.
    - destruct l as [|x [|y r]]; cbn in *.
      + destruct skip; auto.
      + destruct skip; [|lia]. auto.
      + destruct skip; lia.
    - destruct skip.
      + destruct l as [|x l]; cbn [survivors].
        * cbn [remove_loop]. rewrite app_nil_r.
          rewrite (proj2 (nth_error_None pre (S (List.length pre)))) by lia. reflexivity.
        * replace (pre ++ x :: l) with ((pre ++ [x]) ++ l) by (rewrite <- app_assoc; auto).
          replace (S (List.length pre)) with (List.length (pre ++ [x])) by (rewrite app_length; cbn; lia).
          destruct l as [|y l'].
          -- cbn [remove_loop survivors]. rewrite !app_nil_r.
             rewrite (proj2 (nth_error_None _ _)) by lia. reflexivity.
          -- cbn [remove_loop survivors].
             rewrite nth_error_app2, Nat.sub_diag by lia. cbn [nth_error].
             destruct (f y) eqn:F.
             ++ unfold np_delete.
                replace (firstn (List.length (pre ++ [x])) ((pre ++ [x]) ++ y :: l')) with (pre ++ [x])
                  by (rewrite firstn_app, Nat.sub_diag, firstn_all; cbn; rewrite app_nil_r; auto).
                replace (skipn (S (List.length (pre ++ [x]))) ((pre ++ [x]) ++ y :: l')) with l'
                  by (rewrite skipn_app, skipn_all2 by lia;
                      replace (S (List.length (pre ++ [x])) - List.length (pre ++ [x]))%nat with 1%nat by lia; auto).
                rewrite (IH (pre ++ [x]) true l') by (cbn in *; lia).
                rewrite <- app_assoc. reflexivity.
             ++ replace ((pre ++ [x]) ++ y :: l') with (((pre ++ [x]) ++ [y]) ++ l') by (rewrite <- app_assoc; auto).
                replace (S (List.length (pre ++ [x]))) with (List.length ((pre ++ [x]) ++ [y]))
                  by (rewrite (app_length (pre ++ [x])); cbn; lia).
                rewrite (IH ((pre ++ [x]) ++ [y]) false l') by (cbn in *; lia).
                rewrite <- !app_assoc. reflexivity.
      + destruct l as [|y l']; cbn [survivors remove_loop].
        * rewrite app_nil_r, (proj2 (nth_error_None _ _)) by lia. reflexivity.
        * rewrite nth_error_app2, Nat.sub_diag by lia. cbn [nth_error].
          destruct (f y) eqn:F.
          -- unfold np_delete.
             replace (firstn (List.length pre) (pre ++ y :: l')) with pre
               by (rewrite firstn_app, Nat.sub_diag, firstn_all; cbn; rewrite app_nil_r; auto).
             replace (skipn (S (List.length pre)) (pre ++ y :: l')) with l'
               by (rewrite skipn_app, skipn_all2 by lia;
                   replace (S (List.length pre) - List.length pre)%nat with 1%nat by lia; auto).
             rewrite (IH pre true l') by (cbn in *; lia). reflexivity.
          -- replace (pre ++ y :: l') with ((pre ++ [y]) ++ l') by (rewrite <- app_assoc; auto).
             replace (S (List.length pre)) with (List.length (pre ++ [y])) by (rewrite app_length; cbn; lia).
             rewrite (IH (pre ++ [y]) false l') by (cbn in *; lia).
             rewrite <- !app_assoc. reflexivity.
  Qed.

  Lemma remove_loop_survivors (f : atlas_line A -> bool) fuel l :
    (List.length l <= fuel)%nat -> remove_loop fuel f 0 l = survivors f false l.
  Proof. intros H. apply (remove_loop_gen f fuel [] false l). lia. Qed.

  Lemma remove_lines (s : atlas A) w tol :
    at_lines (remove_atlas_lines_range s w tol)
    = survivors (in_removed_range w tol) false (at_lines s).
  Proof. unfold remove_atlas_lines_range. cbn. apply remove_loop_survivors. lia. Qed.
End RemoveLoop.

(** ** add_user_atlas *)
Section User.
  Context {A : Type} {N : Num A}.

  Lemma rows_ext (r1 r2 : list (row A)) :
    map (fun r => fst (fst r)) r1 = map (fun r => fst (fst r)) r2 ->
    map (fun r => snd (fst r)) r1 = map (fun r => snd (fst r)) r2 ->
    map snd r1 = map snd r2 -> r1 = r2.
  Proof.
    revert r2; induction r1 as [|[[a b] c] r1 IH]; intros [|[[a' b'] c'] r2]; cbn;
      intros H1 H2 H3; try discriminate; auto.
    injection H1 as -> H1. injection H2 as -> H2. injection H3 as -> H3.
    f_equal. apply IH; auto.
  Qed.

  Lemma supplied_unique (u : user_args A) r1 r2 : supplied u r1 -> supplied u r2 -> r1 = r2.
  Proof.
    intros (els & ws & He & Hw & L & Hne & E1 & E2 & E3) (els' & ws' & He' & Hw' & L' & _ & E1' & E2' & E3').
    assert (ws = ws') by congruence. subst ws'.
    assert (els = els').
    { destruct He as [He|(t & He & ->)], He' as [He'|(t' & He' & ->)]; congruence. }
    subst els'. apply rows_ext; [congruence|congruence|].
    destruct (ua_intensities u); congruence.
  Qed.

  Lemma user_lines_rows els (wls ints : list A) :
    List.length els = List.length wls -> List.length els = List.length ints ->
    let rows := map row_of (user_lines els wls ints) in
    map (fun r => fst (fst r)) rows = els /\ map (fun r => snd (fst r)) rows = wls /\
    map snd rows = ints.
  Proof.
    unfold user_lines. revert wls ints.
    induction els as [|e els IH]; intros [|w wls] [|i ints]; cbn; try discriminate; auto.
    intros H1 H2. destruct (IH wls ints) as (E1 & E2 & E3); try lia. cbn in *.
    rewrite E1, E2, E3. auto.
  Qed.

  Lemma vacuum_to_air_length (ws : list A) t p rh : List.length (vacuum_to_air ws t p rh) = List.length ws.
  Proof. apply map_length. Qed.

  Lemma add_user_atlas_spec (s : atlas A) (u : user_args A) :
    let (s', r) := add_user_atlas s u in
    (r = Ok tt /\ exists rows new, supplied u rows /\
       at_lines s' = at_lines s ++ new /\ map row_of new = rows /\
       (forall x, In x new -> al_src x = None) /\
       py_min (map (fun r => snd (fst r)) rows) = Ok (at_min s') /\
       py_max (map (fun r => snd (fst r)) rows) = Ok (at_max s') /\
       at_range_tol s' = at_range_tol s) \/
    (s' = s /\ (forall rows, ~ supplied u rows) /\
     ((r = Raise TypeError /\ bad_type u) \/
      (r = Raise AssertionError /\ length_mismatch u) \/
      (r = Raise ValueError /\ ua_wavelengths u = SeqList []))).
  Proof.
    unfold add_user_atlas, bad_type, length_mismatch.
    destruct (user_elements_list (ua_elements u)) as [els|e] eqn:He.
    2:{ right. split; auto. destruct (ua_elements u) as [t|[l|]] eqn:Eu; cbn in He; try discriminate.
        injection He as <-. split; [|auto].
        intros rows (els & ws & [H|(t & H & _)] & _); congruence. }
    assert (Hels : forall els', (ua_elements u = UElSeq (SeqList els') \/
       exists s, ua_elements u = UElStr s /\ els' = str_chars s) -> els' = els).
    { intros els' [H|(t & H & ->)]; rewrite H in He; cbn in He; congruence. }
    assert (Hels2 : ua_elements u = UElSeq (SeqList els) \/
       exists s, ua_elements u = UElStr s /\ els = str_chars s).
    { destruct (ua_elements u) as [t|[l|]]; cbn in He; try discriminate; injection He as <-; eauto. }
    assert (Hb1 : ua_elements u <> UElSeq SeqBad) by (intros H; rewrite H in He; discriminate).
    destruct (ua_wavelengths u) as [wls|] eqn:Hw; cbn [seq_list].
    2:{ right. split; auto. split; [|auto]. intros rows (els' & ws & _ & H & _). rewrite Hw in H; discriminate. }
    destruct (match ua_intensities u with
           | None => Ok (map (fun _ => nZ 0) wls)
           | Some a => seq_list a
           end) as [ints|e] eqn:Hi.
    2:{ right. split; auto. destruct (ua_intensities u) as [[l|]|] eqn:Eu; cbn in Hi; try discriminate.
        injection Hi as <-. split; [|auto].
        intros rows (els' & ws & _ & _ & _ & _ & _ & _ & H). rewrite Eu in H; discriminate. }
    assert (Hb3 : ua_intensities u <> Some SeqBad).
    { intros H; rewrite H in Hi; discriminate. }
    assert (Hsup : forall rows, supplied u rows -> List.length els = List.length wls /\
       List.length els = List.length ints /\ wls <> []).
    { intros rows (els' & ws & H1 & H2 & H3 & H4 & E1 & E2 & E3).
      apply Hels in H1. subst els'. rewrite Hw in H2; injection H2 as <-. split; auto. split; auto.
      apply (f_equal (@List.length _)) in E1. rewrite map_length in E1.
      destruct (ua_intensities u) as [a|].
      - subst a. injection Hi as <-. rewrite map_length. lia.
      - injection Hi as <-. rewrite map_length. lia. }
    destruct (Nat.eqb_spec (List.length els) (List.length wls)) as [L1|L1]; cbn [negb].
    2:{ right. split; auto. split; [intros rows H; apply Hsup in H; tauto|].
        right; left. split; auto. exists els, wls. auto. }
    destruct (Nat.eqb_spec (List.length els) (List.length ints)) as [L2|L2]; cbn [negb].
    2:{ right. split; auto. split; [intros rows H; apply Hsup in H; tauto|].
        right; left. split; auto. exists els, wls. split; auto. split; auto. right.
        destruct (ua_intensities u) as [[l|]|]; cbn in Hi; try discriminate; injection Hi as <-; eauto.
        exfalso. apply L2. rewrite map_length. auto. }
    set (wls' := if ua_vacuum u then vacuum_to_air wls (ua_temperature u) (ua_pressure u) (ua_rh u) else wls).
    assert (L3 : List.length wls' = List.length wls).
    { unfold wls'. destruct (ua_vacuum u); auto. apply vacuum_to_air_length. }
    destruct (py_min wls') as [mn|e] eqn:Hmn.
    2:{ destruct wls'; [|discriminate]. injection Hmn as <-.
        destruct wls; [|discriminate]. right. split; auto.
        split; [intros rows H; apply Hsup in H; tauto|]. right; right. auto. }
    destruct (py_max wls') as [mx|e] eqn:Hmx.
    2:{ destruct wls'; discriminate. }
    left. split; auto.
    destruct (user_lines_rows els wls' ints) as (E1 & E2 & E3); try congruence.
    exists (map row_of (user_lines els wls' ints)), (user_lines els wls' ints). cbn [at_lines at_min at_max at_range_tol].
    split.
    { exists els, wls. split; auto. split; auto. split; auto. split.
      { intros ->. destruct wls'; discriminate. }
      split; auto. split; auto.
      destruct (ua_intensities u) as [a|].
      - destruct a; [|discriminate]. injection Hi as ->. congruence.
      - injection Hi as <-. rewrite E3. clear. induction wls; cbn; congruence. }
    split; auto. split; auto. split.
    { unfold user_lines. intros x Hx. apply in_map_iff in Hx. destruct Hx as (p & <- & _). auto. }
    rewrite E2. auto.
  Qed.

  Lemma remove_strike (s : atlas A) w tol :
    strike (in_removed_range w tol) (at_lines s) (at_lines (remove_atlas_lines_range s w tol)).
  Proof. rewrite remove_lines. apply survivors_strike. Qed.

  Lemma survivors_map {T U} (g : T -> U) (f : U -> bool) skip l :
    map g (survivors (fun x => f (g x)) skip l) = survivors f skip (map g l).
  Proof.
    revert skip; induction l as [|x r IH]; intros skip; cbn; auto.
    destruct skip; cbn; [rewrite IH; auto|]. destruct (f (g x)); cbn; rewrite IH; auto.
  Qed.

  Lemma contents_run argsort cat lo hi tol h :
    Forall (fun o => match o with OpAdd _ => False | _ => True end) h ->
    contents h (map row_of (at_lines (atlas_run argsort cat (mkAtlas [] lo hi tol) h))).
  Proof.
    induction h as [|o h IH] using rev_ind; intros Hf; [constructor|].
    apply Forall_app in Hf. destruct Hf as [Hf Ho]. specialize (IH Hf).
    unfold atlas_run in *. rewrite fold_left_app. cbn [fold_left].
    set (s := fold_left _ h _) in *. inversion Ho as [|? ? Ho' _]; subst. destruct o; [|destruct Ho'| |]; cbn [atlas_step].
    - pose proof (add_user_atlas_spec s u) as H. destruct (add_user_atlas s u) as [s' r]. cbn [fst].
      destruct H as [(_ & rows & new & Hs & Hl & Hn & _)|(-> & Hs & _)].
      + rewrite Hl, map_app, Hn. constructor; auto.
      + apply contents_user_rejected; auto.
    - cbn [fst]. apply contents_remove with (l := map row_of (at_lines s)); auto.
      rewrite remove_lines.
      change (in_removed_range w tol0) with (fun x : atlas_line A =>
        (fun r : row A => nltb (nabs (nsub (snd (fst r)) w)) tol0) (row_of x)).
      rewrite survivors_map. apply survivors_strike.
    - cbn. eapply contents_clear; eauto.
  Qed.

  Lemma contents_unique h : forall r1 r2 : list (row A), contents h r1 -> contents h r2 -> r1 = r2.
  Proof.
    induction h as [|o h IH] using rev_ind; intros r1 r2 H1 H2.
    - inversion H1 as [|h l E|h l u r E1 E2 E|h l u E1 E2 E|h l w t l' E1 E2 E]; subst;
        try (symmetry in H; apply app_eq_nil in H; destruct H; discriminate);
        try (apply app_eq_nil in H0; destruct H0; discriminate);
        try (destruct h; discriminate).
      inversion H2 as [|h l E|h l u r E1 E2 E|h l u E1 E2 E|h l w t l' E1 E2 E]; subst; auto;
        destruct h; discriminate.
    - assert (Inv : forall r, contents (h ++ [o]) r -> exists l, contents h l /\
        match o with
        | OpClear => r = []
        | OpUser u => (exists rows, supplied u rows /\ r = l ++ rows) \/ ((forall rows, ~ supplied u rows) /\ r = l)
        | OpRemove w tol => strike (fun r : row A => nltb (nabs (nsub (snd (fst r)) w)) tol) l r
        | OpAdd _ => False
        end).
      { intros r H. remember (h ++ [o]) as hh eqn:Eh.
        destruct H as [|h' l E|h' l u rows E1 E2|h' l u E1 E2|h' l w t l' E1 E2];
          [destruct h; discriminate| | | |]; apply app_inj_tail in Eh; destruct Eh as [-> <-];
          exists l; split; auto.
        left. eauto. }
      destruct (Inv r1 H1) as (l1 & C1 & K1), (Inv r2 H2) as (l2 & C2 & K2).
      assert (l1 = l2) by (apply IH; auto). subst l2.
      destruct o.
      + destruct K1 as [(rows & S1 & ->)|(S1 & ->)], K2 as [(rows' & S2 & ->)|(S2 & ->)]; auto.
        * f_equal. eapply supplied_unique; eauto.
        * exfalso. eapply S2; eauto.
        * exfalso. eapply S1; eauto.
      + destruct K1.
      + eapply strike_unique; eauto.
      + congruence.
  Qed.
End User.

(** ** Atlas.add *)
Section Add.
  Context {A : Type} {N : Num A}.

  Lemma add_loop_spec argsort cat (a : add_args A) lo hi els : forall lines,
    exists new, fst (add_loop argsort cat a lo hi els lines) = lines ++ new /\
      (forall x, In x new -> al_src x = Some "NIST"%string) /\
      match snd (add_loop argsort cat a lo hi els lines) with
      | Ok _ => loaded argsort cat (add_load_args a lo hi) els (map row_of new)
      | Raise ex => exists before e after, els = before ++ e :: after /\
          loaded argsort cat (add_load_args a lo hi) before (map row_of new) /\
          load_calibration_lines argsort cat (add_load_args a lo hi e) = Raise ex
      end.
  Proof.
    induction els as [|e r IH]; intros lines; cbn [add_loop].
    - exists []. cbn. rewrite app_nil_r. split; auto. split; [tauto|]. constructor.
    - destruct (load_calibration_lines argsort cat (add_load_args a lo hi e)) as [rows|ex] eqn:E.
      + destruct (IH (lines ++ nist_lines rows)) as (new & H1 & H2 & H3).
        exists (nist_lines rows ++ new). rewrite H1, app_assoc. split; auto. split.
        { intros x Hx. apply in_app_or in Hx. destruct Hx as [Hx|Hx]; auto.
          apply in_map_iff in Hx. destruct Hx as (y & <- & _). auto. }
        assert (Hm : map row_of (nist_lines rows ++ new)
                     = map (fun r => (l_el r, l_wl r, l_int r)) rows ++ map row_of new).
        { rewrite map_app. f_equal. unfold nist_lines. rewrite map_map. auto. }
        destruct (snd (add_loop argsort cat a lo hi r (lines ++ nist_lines rows))) as [[]|ex].
        * rewrite Hm. constructor; auto.
        * destruct H3 as (before & e' & after & -> & Hl & He).
          exists (e :: before), e', after. split; auto. split; auto. rewrite Hm. constructor; auto.
      + exists []. cbn. rewrite app_nil_r. split; auto. split; [tauto|].
        exists [], e, r. split; auto. split; auto. constructor.
  Qed.
End Add.

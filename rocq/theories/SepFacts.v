(** * SepFacts: filter_separation and load_calibration_lines. *)

From Coq Require Import ZArith Bool List String Lia Permutation Sorted Reals Lra.
From Verif Require Import Num XReal Py Np NpFacts Util SpecUtil UtilFacts.
Import ListNotations.

Section Gen.
  Context {A : Type} {N : Num A}.
  Local Open Scope num_scope.

  Lemma np_diff_length (w : list A) : List.length (np_diff w) = (List.length w - 1)%nat.
  Proof.
    induction w as [|a [|b w] IH]; cbn in *; auto. rewrite IH. lia.
  Qed.

  Lemma np_diff_nth (w : list A) i x y :
    nth_error w i = Some x -> nth_error w (S i) = Some y -> nth_error (np_diff w) i = Some (y -' x).
  Proof.
    revert i. induction w as [|a [|b w] IH]; intros i Hx Hy.
    - destruct i; discriminate.
    - destruct i as [|[|i]]; discriminate.
    - destruct i as [|i]; cbn in Hx, Hy |- *.
      + congruence.
      + apply IH; auto.
  Qed.

  Lemma set_last_nth {T} (l : list T) v i x :
    nth_error l i = Some x ->
    nth_error (set_last l v) i = Some (if Nat.eqb (S i) (List.length l) then v else x).
  Proof.
    destruct l as [|a l]; [destruct i; discriminate|]. intros H.
    assert (Hi : (i < List.length (a :: l))%nat) by (apply nth_error_Some; congruence).
    unfold set_last.
    assert (E : a :: l = removelast (a :: l) ++ [last (a :: l) v]) by (apply app_removelast_last; discriminate).
    assert (EL : List.length (a :: l) = S (List.length (removelast (a :: l)))).
    { rewrite E at 1. rewrite app_length. cbn. lia. }
    destruct (Nat.eqb_spec (S i) (List.length (a :: l))) as [En|En].
    - rewrite nth_error_app2 by lia. replace (i - _)%nat with 0%nat by lia. reflexivity.
    - rewrite nth_error_app1 by lia. rewrite E in H. rewrite nth_error_app1 in H by lia. auto.
  Qed.

  Lemma set_last_length {T} (l : list T) v : List.length (set_last l v) = List.length l.
  Proof.
    destruct l as [|a l]; auto. unfold set_last. rewrite app_length. cbn [List.length].
    assert (E : a :: l = removelast (a :: l) ++ [last (a :: l) v]) by (apply app_removelast_last; discriminate).
    apply (f_equal (@List.length T)) in E. rewrite app_length in E. cbn [List.length] in E. lia.
  Qed.
  Lemma set_first_length {T} (l : list T) v : List.length (set_first l v) = List.length l.
  Proof. destruct l; auto. Qed.
  Lemma set_first_nth {T} (l : list T) v i x :
    nth_error l i = Some x -> nth_error (set_first l v) i = Some (match i with O => v | _ => x end).
  Proof. destruct l as [|a l]; destruct i; cbn; try discriminate; auto. Qed.

  (** The distance that decides about line i (for a list of at least two). *)
  Definition dist_at (w : list A) (i : nat) (d : A) : Prop :=
    exists x, nth_error w i = Some x /\
    if Nat.eqb (S i) (List.length w)
    then exists p, nth_error w (i - 1) = Some p /\ d = x -' p
    else if Nat.eqb i 0
    then exists q, nth_error w 1 = Some q /\ d = q -' x
    else exists p q, nth_error w (i - 1) = Some p /\ nth_error w (S i) = Some q /\
                     d = np_minimum (q -' x) (x -' p).

  Lemma last_nth_error {T} (l : list T) d : l <> [] -> nth_error l (List.length l - 1) = Some (last l d).
  Proof.
    intros H. rewrite (app_removelast_last d H) at 1.
    assert (E : List.length l = S (List.length (removelast l))).
    { rewrite (app_removelast_last d H) at 1. rewrite app_length. cbn. lia. }
    rewrite nth_error_app2 by lia. replace (_ - _ - _)%nat with 0%nat by lia. reflexivity.
  Qed.

  Lemma filter_separation_dist (w : list A) sep :
    (2 <= List.length w)%nat ->
    exists m, filter_separation w sep = Ok m /\ List.length m = List.length w /\
      forall i, (i < List.length w)%nat ->
        exists d, dist_at w i d /\ nth_error m i = Some (sep <=' nabs d).
  Proof.
    intros Hlen. destruct w as [|a w]; [cbn in Hlen; lia|].
    set (W := a :: w) in *. unfold filter_separation, W at 1. fold W.
    set (d := np_diff W). set (left := nZ 0 :: d). set (right := d ++ [nZ 0]).
    set (D0 := map (fun p => np_minimum (fst p) (snd p)) (combine right left)).
    assert (Ld : List.length d = (List.length W - 1)%nat) by apply np_diff_length.
    assert (Ll : List.length left = List.length W) by (unfold left; cbn [List.length]; lia).
    assert (Lr : List.length right = List.length W) by (unfold right; rewrite app_length; cbn [List.length]; lia).
    assert (LD : List.length D0 = List.length W).
    { unfold D0. rewrite map_length, combine_length. lia. }
    eexists. split; [reflexivity|]. rewrite map_length, set_last_length, set_first_length, LD.
    split; [reflexivity|]. intros i Hi.
    assert (HW : forall j, (j < List.length W)%nat -> exists x, nth_error W j = Some x).
    { intros j Hj. destruct (nth_error W j) eqn:E; eauto. apply nth_error_None in E. lia. }
    assert (Hright : forall j x y, nth_error W j = Some x -> nth_error W (S j) = Some y ->
                     nth_error right j = Some (y -' x)).
    { intros j x y H1 H2. unfold right. assert (S j < List.length W)%nat by (apply nth_error_Some; congruence).
      rewrite nth_error_app1 by lia. apply np_diff_nth; auto. }
    assert (Hleft : forall j x y, nth_error W j = Some x -> nth_error W (S j) = Some y ->
                     nth_error left (S j) = Some (y -' x)).
    { intros j x y H1 H2. unfold left. change (nth_error d j = Some (y -' x)). apply np_diff_nth; auto. }
    destruct (HW i Hi) as [x Hx].
    assert (HD0 : exists v, nth_error D0 i = Some v /\
                   forall r l, nth_error right i = Some r -> nth_error left i = Some l -> v = np_minimum r l).
    { destruct (nth_error right i) as [r|] eqn:Er; [|apply nth_error_None in Er; lia].
      destruct (nth_error left i) as [l|] eqn:El; [|apply nth_error_None in El; lia].
      exists (np_minimum r l). split; [|congruence]. unfold D0. rewrite nth_error_map.
      rewrite (proj2 (nth_error_combine right left i r l)) by auto. reflexivity. }
    destruct HD0 as (v & Hv & Hv').
    rewrite nth_error_map.
    rewrite (set_last_nth (set_first D0 (hd (nZ 0) right)) _ i _ (set_first_nth D0 _ i v Hv)).
    rewrite set_first_length, LD. cbn [option_map].
    unfold dist_at.
    destruct (Nat.eqb_spec (S i) (List.length W)) as [E|E].
    - destruct (HW (i - 1)%nat ltac:(lia)) as [p Hp]. exists (x -' p). split.
      + exists x. split; auto. eauto.
      + repeat f_equal. assert (Hl : nth_error left (List.length left - 1) = Some (last left (nZ 0))).
        { apply last_nth_error. discriminate. }
        rewrite Ll in Hl. replace (List.length W - 1)%nat with (S (i - 1)) in Hl by lia.
        rewrite (Hleft (i - 1)%nat p x Hp) in Hl by (replace (S (i - 1)) with i by lia; auto).
        congruence.
    - destruct i as [|i].
      + destruct (HW 1%nat ltac:(lia)) as [q Hq]. exists (q -' x). split.
        * exists x. split; auto. cbn [Nat.eqb]. eauto.
        * repeat f_equal. pose proof (Hright 0%nat x q Hx Hq) as Hr. destruct right; [discriminate|].
          cbn in Hr |- *. congruence.
      + destruct (HW (S (S i)) ltac:(lia)) as [q Hq]. destruct (HW i ltac:(lia)) as [p Hp].
        exists (np_minimum (q -' x) (x -' p)). split.
        * exists x. split; auto. cbn [Nat.eqb]. exists p, q. replace (S i - 1)%nat with i by lia. auto.
        * repeat f_equal. apply Hv'; auto.
  Qed.
End Gen.

(** ** Over the reals *)

Local Open Scope R_scope.

Lemma np_minimum_Fin a b : np_minimum (Fin a) (Fin b) = Fin (Rmin a b).
Proof.
  unfold np_minimum, Rmin. cbn. rewrite orb_false_r. unfold Rleb. destruct (Rle_dec a b); reflexivity.
Qed.

Lemma nth_error_map_Fin rs i x :
  nth_error (map Fin rs) i = Some x -> exists r, nth_error rs i = Some r /\ x = Fin r.
Proof. rewrite nth_error_map. destruct (nth_error rs i); cbn; [|discriminate]. intros H; injection H as <-. eauto. Qed.

Lemma Rleb_true a b : Rleb a b = true <-> a <= b.
Proof. destruct (Rleb_spec a b); intuition congruence. Qed.
Lemma Rltb_true a b : Rltb a b = true <-> a < b.
Proof. destruct (Rltb_spec a b); intuition congruence. Qed.
Lemma Reqb_true a b : Reqb a b = true <-> a = b.
Proof. destruct (Reqb_spec a b); intuition congruence. Qed.
Lemma Rleb_false a b : Rleb a b = false <-> b < a.
Proof. destruct (Rleb_spec a b); intuition (try congruence; try lra). Qed.
Lemma Rltb_false a b : Rltb a b = false <-> b <= a.
Proof. destruct (Rltb_spec a b); intuition (try congruence; try lra). Qed.

Lemma filter_separation_real (rs : list R) (s : R) :
  (2 <= List.length rs)%nat -> StronglySorted Rle rs ->
  exists m, filter_separation (map Fin rs) (Fin s) = Ok m /\ List.length m = List.length rs /\
    (forall i w, nth_error rs i = Some w ->
       (nth_error m i = Some true <->
        forall j v, (j = S i \/ i = S j)%nat -> nth_error rs j = Some v -> s <= Rabs (v - w))) /\
    (forall i j w v, i <> j -> nth_error m i = Some true -> nth_error m j = Some true ->
       nth_error rs i = Some w -> nth_error rs j = Some v -> s <= Rabs (v - w)).
Proof.
  intros Hlen HS.
  destruct (filter_separation_dist (map Fin rs) (Fin s)) as (m & Hm & Hl & Hd).
  { rewrite map_length; auto. }
  rewrite map_length in Hl, Hd.
  assert (Hle : forall i j w v, (i < j)%nat -> nth_error rs i = Some w -> nth_error rs j = Some v -> w <= v).
  { intros. eapply (SS_nth_error Rle); eauto. }
  assert (Char : forall i w, nth_error rs i = Some w ->
       (nth_error m i = Some true <->
        forall j v, (j = S i \/ i = S j)%nat -> nth_error rs j = Some v -> s <= Rabs (v - w))).
  { intros i w Hw. assert (Hi : (i < List.length rs)%nat) by (apply nth_error_Some; congruence).
    destruct (Hd i Hi) as (d & (x & Hx & Hdd) & Hmi). rewrite map_length in Hdd.
    apply nth_error_map_Fin in Hx. destruct Hx as (w' & Hw' & ->).
    assert (w' = w) by congruence. subst w'. rewrite Hmi.
    destruct (Nat.eqb_spec (S i) (List.length rs)) as [E|E].
    - destruct Hdd as (p & Hp & ->). apply nth_error_map_Fin in Hp. destruct Hp as (p' & Hp & ->).
      cbn. pose proof (Hle (i-1)%nat i p' w ltac:(lia) Hp Hw) as L.
      split.
      + intros H. assert (H' : Rleb s (Rabs (w + - p')) = true) by congruence.
        apply Rleb_true in H'. intros j v [->| ->] Hv.
        * assert (S i < List.length rs)%nat by (apply nth_error_Some; congruence). lia.
        * replace (S j - 1)%nat with j in Hp by lia. assert (v = p') by congruence. subst.
          rewrite Rabs_minus_sym. exact H'.
      + intros H. f_equal. apply Rleb_true. change (w + - p') with (w - p'); rewrite Rabs_minus_sym. apply (H (i - 1)%nat); auto. lia.
    - destruct (Nat.eqb_spec i 0) as [E0|E0].
      + subst i. destruct Hdd as (q & Hq & ->). apply nth_error_map_Fin in Hq. destruct Hq as (q' & Hq & ->).
        cbn. split.
        * intros H. assert (H' : Rleb s (Rabs (q' + - w)) = true) by congruence.
          apply Rleb_true in H'. intros j v [->|Hj] Hv; [|lia].
          assert (v = q') by congruence. subst. exact H'.
        * intros H. f_equal. apply Rleb_true. apply (H 1%nat); auto.
      + destruct Hdd as (p & q & Hp & Hq & ->).
        apply nth_error_map_Fin in Hp. destruct Hp as (p' & Hp & ->).
        apply nth_error_map_Fin in Hq. destruct Hq as (q' & Hq & ->).
        cbn [nsub XRnum xsub xopp xadd]. rewrite np_minimum_Fin. cbn.
        pose proof (Hle (i-1)%nat i p' w ltac:(lia) Hp Hw) as L1.
        pose proof (Hle i (S i) w q' ltac:(lia) Hw Hq) as L2.
        assert (Hmin : 0 <= Rmin (q' + - w) (w + - p')) by (apply Rmin_glb; lra).
        rewrite (Rabs_pos_eq _ Hmin).
        split.
        * intros H. assert (H' : Rleb s (Rmin (q' + - w) (w + - p')) = true) by congruence.
          apply Rleb_true in H'. intros j v [->| ->] Hv.
          { assert (v = q') by congruence. subst. rewrite Rabs_pos_eq by lra.
            pose proof (Rmin_l (q' + - w) (w + - p')). lra. }
          { replace (S j - 1)%nat with j in Hp by lia. assert (v = p') by congruence. subst.
            rewrite Rabs_minus_sym, Rabs_pos_eq by lra.
            pose proof (Rmin_r (q' + - w) (w + - p')). lra. }
        * intros H. f_equal. apply Rleb_true. apply Rmin_glb.
          { specialize (H (S i) q' (or_introl eq_refl) Hq). rewrite Rabs_pos_eq in H by lra. lra. }
          { specialize (H (i - 1)%nat p' ltac:(lia) Hp). rewrite Rabs_minus_sym, Rabs_pos_eq in H by lra. lra. } }
  exists m. split; auto. split; auto. split; auto.
  (* pairwise *)
  assert (P : forall i j w v, (i < j)%nat -> nth_error m i = Some true ->
       nth_error rs i = Some w -> nth_error rs j = Some v -> s <= v - w).
  { intros i j w v Hij Hmi Hw Hv.
    assert (Hj : (j < List.length rs)%nat) by (apply nth_error_Some; congruence).
    destruct (nth_error rs (S i)) as [u|] eqn:Hu; [|apply nth_error_None in Hu; lia].
    pose proof (proj1 (Char i w Hw) Hmi (S i) u (or_introl eq_refl) Hu) as H1.
    pose proof (Hle i (S i) w u ltac:(lia) Hw Hu) as L1.
    rewrite Rabs_pos_eq in H1 by lra.
    destruct (Nat.eq_dec j (S i)) as [->|Hne].
    - assert (u = v) by congruence. subst. lra.
    - pose proof (Hle (S i) j u v ltac:(lia) Hu Hv). lra. }
  intros i j w v Hne Hi Hj Hw Hv.
  destruct (Nat.lt_trichotomy i j) as [L|[L|L]]; [|tauto|].
  - pose proof (P i j w v L Hi Hw Hv). pose proof (Hle i j w v L Hw Hv).
    rewrite Rabs_pos_eq; lra.
  - pose proof (P j i v w L Hj Hv Hw). pose proof (Hle j i v w L Hv Hw).
    rewrite Rabs_minus_sym, Rabs_pos_eq; lra.
Qed.

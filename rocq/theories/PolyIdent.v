(** * PolyIdent: a real polynomial with more roots than its degree is zero. *)

From Coq Require Import List Reals Lia Lra FinFun.
From Verif Require Import SpecPoly.
Import ListNotations.
Local Open Scope R_scope.

Lemma basis_cons a p u : basis_sum powB (a :: p) u = a + u * basis_sum powB p u.
Proof.
  unfold basis_sum. cbn [length seq combine map fold_right fst snd]. unfold powB at 1. cbn [pow].
  assert (G : forall l s, fold_right Rplus 0 (map (fun q => snd q * powB (fst q) u) (combine (seq (S s) (length l)) l))
    = u * fold_right Rplus 0 (map (fun q => snd q * powB (fst q) u) (combine (seq s (length l)) l))).
  { induction l as [|b l IH]; intros s; cbn [length seq combine map fold_right fst snd]; [ring|].
    rewrite IH. unfold powB. cbn [pow]. ring. }
  rewrite G. ring.
Qed.

Lemma poly_add p q k : (length q <= length p)%nat ->
  exists s, length s = length p /\ forall u, basis_sum powB s u = basis_sum powB p u + k * basis_sum powB q u.
Proof.
  revert q. induction p as [|a p IH]; intros q L.
  - destruct q; [|cbn in L; lia]. exists []. split; auto. intros u. unfold basis_sum. cbn. ring.
  - destruct q as [|b q].
    + exists (a :: p). split; auto. intros u. unfold basis_sum at 3. cbn [length seq combine map fold_right]. ring.
    + destruct (IH q) as (s & Ls & Hs); [cbn in L; lia|]. exists (a + k * b :: s). split; [cbn; lia|].
      intros u. rewrite !basis_cons, Hs. ring.
Qed.

Lemma poly_factor p r : exists q, length q = (length p - 1)%nat /\
  forall u, basis_sum powB p u - basis_sum powB p r = (u - r) * basis_sum powB q u.
Proof.
  induction p as [|a p IH].
  - exists []. split; auto. intros u. unfold basis_sum. cbn. ring.
  - destruct IH as (q & Lq & Hq). destruct (poly_add p q r) as (s & Ls & Hs); [lia|].
    exists s. split; [cbn; lia|]. intros u. rewrite !basis_cons, Hs. specialize (Hq u).
    replace (basis_sum powB p u) with (basis_sum powB p r + (u - r) * basis_sum powB q u) by lra. ring.
Qed.

Lemma poly_roots n : forall p rs, length p = n -> length rs = n -> NoDup rs ->
  (forall r, In r rs -> basis_sum powB p r = 0) -> forall u, basis_sum powB p u = 0.
Proof.
  induction n as [|n IH]; intros p rs Lp Lr Hn Hz u.
  - destruct p; [|discriminate]. reflexivity.
  - destruct rs as [|r rs]; [discriminate|]. inversion Hn as [|? ? Hr Hn']; subst.
    destruct (poly_factor p r) as (q & Lq & Hq).
    assert (Q : forall v, basis_sum powB q v = 0).
    { apply (IH q rs); auto; [lia|]. intros v Hv. specialize (Hq v).
      rewrite (Hz v (or_intror Hv)), (Hz r (or_introl eq_refl)) in Hq.
      assert (v - r <> 0) by (intros E; apply Hr; replace r with v by lra; auto).
      apply Rmult_eq_reg_l with (v - r); auto. lra. }
    specialize (Hq u). rewrite Q, (Hz r (or_introl eq_refl)) in Hq. lra.
Qed.

Lemma poly_zero p : (forall u, u <> 0 -> basis_sum powB p u = 0) -> forall a, In a p -> a = 0.
Proof.
  induction p as [|a p IH]; intros H b Hb; [destruct Hb|].
  assert (Z : forall u, basis_sum powB (a :: p) u = 0).
  { apply (poly_roots (S (length p)) _ (map (fun i => INR (S i)) (seq 0 (S (length p))))); auto.
    - rewrite map_length, seq_length. auto.
    - apply Injective_map_NoDup; [|apply seq_NoDup]. intros i j E. apply INR_eq in E. lia.
    - intros r Hr. apply in_map_iff in Hr. destruct Hr as (i & <- & _). apply H. apply not_0_INR. lia. }
  assert (A0 : a = 0).
  { specialize (Z 0). rewrite basis_cons in Z. lra. }
  destruct Hb as [<-|Hb]; auto. apply IH; auto. intros u Hu. specialize (Z u). rewrite basis_cons, A0 in Z.
  apply Rmult_eq_reg_l with u; auto. lra.
Qed.

(** Two coefficient lists of the same length that agree at as many points are equal. *)
Lemma poly_ident p q rs : length p = length q -> (length p <= length rs)%nat -> NoDup rs ->
  (forall r, In r rs -> basis_sum powB p r = basis_sum powB q r) -> p = q.
Proof.
  intros L Lr Hn H.
  assert (G : exists d, length d = length p /\ (forall u, basis_sum powB d u = basis_sum powB p u + (-1) * basis_sum powB q u) /\
    ((forall a, In a d -> a = 0) -> p = q)).
  { clear Lr Hn H. revert q L. induction p as [|a p IH]; intros [|b q] L; cbn in L; try discriminate.
    - exists []. split; auto. split; [intros; unfold basis_sum; cbn; ring|auto].
    - destruct (IH q) as (d & Ld & Hd & Z); [lia|]. exists (a + (-1) * b :: d). split; [cbn; lia|]. split.
      + intros u. rewrite !basis_cons, Hd. ring.
      + intros A. f_equal; [|apply Z; intros; apply A; right; auto].
        specialize (A _ (or_introl eq_refl)). lra. }
  destruct G as (d & Ld & Hd & Z). apply Z. apply poly_zero. intros u _.
  apply (poly_roots (length d) d (firstn (length d) rs)); auto.
  - rewrite firstn_length. lia.
  - rewrite <- (firstn_skipn (length d) rs) in Hn.
    clear - Hn. revert Hn. generalize (firstn (length d) rs) (skipn (length d) rs). intros l r. induction l as [|x l IH]; intros H; [constructor|].
    inversion H as [|? ? H1 H2]; subst. constructor; auto. intros Hx. apply H1. apply in_or_app. auto.
  - intros r Hr. rewrite Hd, (H r); [ring|].
    rewrite <- (firstn_skipn (length d) rs). apply in_or_app. auto.
Qed.

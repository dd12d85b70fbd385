(** * PolyFacts: evaluation and fitting of polynomials over the reals. *)

From Coq Require Import ZArith Bool List Lia Reals Lra.
From Verif Require Import Num XReal Py Np NpFacts Util Models PolyEval SpecPoly.
Import ListNotations.
Local Open Scope R_scope.

(** ** Sums *)

(** The same sum for a list given highest coefficient first. *)
Fixpoint rsum (B : nat -> R -> R) (l : list R) (x : R) : R :=
  match l with [] => 0 | c :: r => c * B (length r) x + rsum B r x end.

Lemma fold_right_Rplus_app l1 l2 :
  fold_right Rplus 0 (l1 ++ l2) = fold_right Rplus 0 l1 + fold_right Rplus 0 l2.
Proof. induction l1; cbn; [lra|]. rewrite IHl1. lra. Qed.

Lemma combine_app_same {T U} (l1 l1' : list T) (l2 l2' : list U) :
  length l1 = length l2 -> combine (l1 ++ l1') (l2 ++ l2') = combine l1 l2 ++ combine l1' l2'.
Proof. revert l2. induction l1; intros [|b l2]; cbn; try discriminate; auto. intros. f_equal. auto. Qed.

Lemma basis_sum_snoc B c a x : basis_sum B (c ++ [a]) x = basis_sum B c x + a * B (length c) x.
Proof.
  unfold basis_sum. rewrite app_length. cbn [length]. rewrite Nat.add_1_r, seq_S.
  rewrite combine_app_same by (rewrite seq_length; auto).
  rewrite map_app, fold_right_Rplus_app. cbn. lra.
Qed.

Lemma rsum_rev B c x : rsum B (rev c) x = basis_sum B c x.
Proof.
  induction c as [|a c IH] using rev_ind; [reflexivity|].
  rewrite rev_app_distr. cbn. rewrite IH, rev_length, basis_sum_snoc. lra.
Qed.

Lemma rsum_basis B l x : rsum B l x = basis_sum B (rev l) x.
Proof. rewrite <- rsum_rev, rev_involutive. reflexivity. Qed.

(** ** Horner *)

Lemma horner_fold rest x acc :
  fold_left (fun c0 ci => nadd ci (nmul c0 (Fin x))) (map Fin rest) (Fin acc) =
  Fin (acc * x ^ length rest + rsum powB rest x).
Proof.
  revert acc. induction rest as [|c r IH]; intros acc; cbn [fold_left map].
  - cbn. f_equal. lra.
  - cbn [nadd nmul XRnum xadd xmul]. rewrite IH. cbn. f_equal. unfold powB. ring.
Qed.

Lemma polyval_real c x : polyval (Fin x) (map Fin c) = Fin (basis_sum powB c x).
Proof.
  unfold polyval. rewrite <- map_rev, <- rsum_rev. destruct (rev c) as [|cn rest]; cbn [map].
  - rewrite nZ_Fin. reflexivity.
  - rewrite nZ_Fin. cbn [nadd nmul XRnum xadd xmul]. rewrite horner_fold. cbn. f_equal. unfold powB. lra.
Qed.

(** ** Clenshaw *)

Lemma chebB_rec k x : chebB (S (S k)) x = 2 * x * chebB (S k) x - chebB k x.
Proof.
  unfold chebB. cbn [chebPair]. destruct (chebPair k x) as [p q]. cbn. reflexivity.
Qed.

Lemma cheb_loop_real x rest : forall c0 c1,
  exists d0 d1, cheb_loop (Fin (2 * x)) (Fin c0) (Fin c1) (map Fin rest) = (Fin d0, Fin d1) /\
    d0 + d1 * x = c0 * chebB (length rest) x + c1 * chebB (S (length rest)) x + rsum chebB rest x.
Proof.
  induction rest as [|c r IH]; intros c0 c1; cbn [cheb_loop map].
  - exists c0, c1. split; auto. cbn. unfold chebB. cbn. lra.
  - cbn [nadd nmul nsub XRnum xadd xmul xsub xopp].
    destruct (IH (c + - c1) (c0 + c1 * (2 * x))) as (d0 & d1 & E & Ev).
    exists d0, d1. split; auto. rewrite Ev. cbn [length rsum]. rewrite (chebB_rec (length r)). ring.
Qed.

Lemma chebval_real c x : chebval (Fin x) (map Fin c) = Fin (basis_sum chebB c x).
Proof.
  unfold chebval. rewrite <- map_rev, <- rsum_rev. destruct (rev c) as [|cn [|cn1 rest]]; cbn [map].
  - rewrite nZ_Fin. reflexivity.
  - rewrite nZ_Fin. cbn. unfold chebB. cbn. f_equal. lra.
  - rewrite nZ_Fin. cbn [nmul XRnum xmul].
    destruct (cheb_loop_real x rest cn1 cn) as (d0 & d1 & E & Ev). rewrite E.
    cbn [nadd nmul XRnum xadd xmul]. f_equal. rewrite Ev. cbn. lra.
Qed.

Lemma legB_rec k x :
  legB (S (S k)) x = ((2 * INR (S k) + 1) * x * legB (S k) x - INR (S k) * legB k x) / INR (S (S k)).
Proof.
  unfold legB. cbn [legPair]. destruct (legPair k x) as [p q]. cbn [fst]. reflexivity.
Qed.

Lemma INR_S_neq n : INR (S n) <> 0.
Proof. apply not_0_INR. lia. Qed.

Lemma leg_loop_real x rest : forall c0 c1,
  exists d0 d1, leg_loop (Fin x) (length rest + 2) (Fin c0) (Fin c1) (map Fin rest) = (Fin d0, Fin d1) /\
    d0 + d1 * x = c0 * legB (length rest) x + c1 * legB (S (length rest)) x + rsum legB rest x.
Proof.
  induction rest as [|c r IH]; intros c0 c1; cbn [leg_loop map].
  - exists c0, c1. split; auto. cbn. unfold legB. cbn. lra.
  - cbn [length]. replace (S (length r) + 2 - 1)%nat with (length r + 2)%nat by lia.
    rewrite !nnat_Fin.
    set (k := length r) in *.
    replace (k + 2 - 1)%nat with (S k) by lia. replace (2 * (k + 2) - 1)%nat with (2 * S k + 1)%nat by lia.
    cbn [nadd nmul nsub ndiv XRnum xadd xmul xsub xopp xdiv].
    assert (Hk : INR (k + 2) <> 0) by (apply not_0_INR; lia).
    destruct (Reqb_spec (INR (k + 2)) 0) as [F|_]; [tauto|].
    cbn [xadd xopp].
    destruct (IH (c + - (c1 * INR (S k) / INR (k + 2))) (c0 + c1 * x * INR (2 * S k + 1) / INR (k + 2)))
      as (d0 & d1 & E & Ev).
    exists d0, d1. split; [exact E|]. rewrite Ev. fold k. cbn [length rsum]. fold k.
    rewrite (legB_rec k). replace (S (S k)) with (k + 2)%nat in * by lia.
    rewrite (plus_INR (2 * S k) 1), mult_INR. change (INR 2) with 2. change (INR 1) with 1. field. exact Hk.
Qed.

Lemma legval_real c x : legval (Fin x) (map Fin c) = Fin (basis_sum legB c x).
Proof.
  unfold legval. rewrite map_length, <- map_rev, <- rsum_rev.
  assert (L : length c = length (rev c)) by (rewrite rev_length; auto). rewrite L.
  destruct (rev c) as [|cn [|cn1 rest]]; cbn [map].
  - rewrite nZ_Fin. reflexivity.
  - rewrite nZ_Fin. cbn. unfold legB. cbn. f_equal. lra.
  - replace (length (cn :: cn1 :: rest)) with (length rest + 2)%nat by (cbn; lia).
    destruct (leg_loop_real x rest cn1 cn) as (d0 & d1 & E & Ev). rewrite E.
    cbn [nadd nmul XRnum xadd xmul]. f_equal. rewrite Ev. cbn [rsum length]. lra.
Qed.

(** ** polynomial() *)

Lemma npow_real x i : npow (Fin x) i = Fin (x ^ i).
Proof.
  induction i as [|[|i] IH].
  - cbn [npow]. rewrite nZ_Fin. cbn. auto.
  - cbn. f_equal. lra.
  - change (npow (Fin x) (S (S i))) with (nmul (npow (Fin x) (S i)) (Fin x)). rewrite IH.
    cbn. f_equal. ring.
Qed.

Lemma nth_map_Fin a k : nth k (map Fin a) (nZ 0) = Fin (nth k a 0).
Proof. rewrite nZ_Fin. apply (map_nth Fin). Qed.

Lemma poly_at_fold a d x n t :
  (n <= d)%nat ->
  fold_left (fun t i => nadd t (nmul (nth (d - i) (map Fin a) (nZ 0)) (npow (Fin x) i))) (seq 1 n) (Fin t)
  = Fin (t + fold_right Rplus 0 (map (fun i => nth (d - i) a 0 * x ^ i) (seq 1 n))).
Proof.
  intros Hn. clear Hn. generalize 1%nat as s. revert t. induction n as [|n IH]; intros t s; cbn [seq fold_left].
  - cbn. f_equal. lra.
  - rewrite nth_map_Fin, npow_real. cbn [nadd nmul XRnum xadd xmul]. rewrite IH. cbn. f_equal. lra.
Qed.

(** value of highest-first coefficients *)
Lemma poly_at_real a d x :
  length a = (d + 1)%nat -> poly_at (map Fin a) d (Fin x) = Fin (basis_sum powB (rev a) x).
Proof.
  intros L. unfold poly_at.
  assert (Hl : last (map Fin a) (nZ 0) = Fin (nth d a 0)).
  { rewrite nZ_Fin. destruct a as [|b a'] using rev_ind; [cbn in L; lia|].
    rewrite map_app. cbn [map]. rewrite last_last. rewrite app_length in L. cbn in L.
    rewrite app_nth2 by lia. replace (d - length a')%nat with 0%nat by lia. reflexivity. }
  rewrite Hl, poly_at_fold by auto. f_equal.
  rewrite <- rsum_basis. revert a L Hl. induction d as [|d IH]; intros a L Hl.
  - destruct a as [|a0 [|? ?]]; cbn in L; try lia. cbn. unfold powB. cbn. lra.
  - destruct a as [|a0 a]; [cbn in L; lia|]. assert (La : length a = (d + 1)%nat) by (cbn in L; lia).
    rewrite seq_S, map_app, fold_right_Rplus_app. cbn [rsum].
    rewrite <- (IH a La).
    2:{ rewrite nZ_Fin. destruct a as [|b a'] using rev_ind; [cbn in La; lia|].
        rewrite map_app. cbn [map]. rewrite last_last. rewrite app_length in La. cbn in La.
        rewrite app_nth2 by lia. replace (d - length a')%nat with 0%nat by lia. reflexivity. }
    assert (E : map (fun i => nth (S d - i) (a0 :: a) 0 * x ^ i) (seq 1 d) =
                map (fun i => nth (d - i) a 0 * x ^ i) (seq 1 d)).
    { apply map_ext_in. intros i Hi. apply in_seq in Hi.
      replace (S d - i)%nat with (S (d - i)) by lia. reflexivity. }
    rewrite E, La. cbn [map fold_right]. replace (S d - (1 + d))%nat with 0%nat by lia. cbn [nth].
    replace (d + 1)%nat with (1 + d)%nat by lia. unfold powB. lra.
Qed.

(** ** robust_polyfit *)

(** All entries finite. *)
Lemma denormalise_real sx sy d p :
  sx <> 0 -> length p = (d + 1)%nat ->
  denormalise (Fin sx) (Fin sy) d (map Fin p) =
  map Fin (map (fun q => snd q * sy / sx ^ (d - fst q)) (combine (seq 0 (length p)) p)).
Proof.
  intros Hx L. unfold denormalise. rewrite map_length.
  rewrite map_map.
  assert (G : forall s l, (s + length l = d + 1)%nat ->
     map (fun q => let v := nmul (snd q) (Fin sy) in
                   if Nat.ltb (fst q) d then ndiv v (npow (Fin sx) (d - fst q)) else v)
         (combine (seq s (length l)) (map Fin l)) =
     map (fun q => Fin (snd q * sy / sx ^ (d - fst q))) (combine (seq s (length l)) l)).
  { intros s l. revert s. induction l as [|c l IH]; intros s Hs; cbn [length seq map combine]; auto.
    cbn [length] in Hs. f_equal; [|apply IH; lia]. cbn [fst snd nmul XRnum xmul].
    assert (Hp : sx ^ (d - s) <> 0) by (apply pow_nonzero; auto).
    destruct (Nat.ltb_spec s d).
    - rewrite npow_real. cbn [ndiv XRnum xdiv]. destruct (Reqb_spec (sx ^ (d - s)) 0); [tauto|reflexivity].
    - replace (d - s)%nat with 0%nat by lia. cbn. f_equal. field. }
  apply G. cbn. auto.
Qed.

Lemma denorm_value sx sy d p x :
  sx <> 0 -> length p = (d + 1)%nat ->
  basis_sum powB (rev (map (fun q => snd q * sy / sx ^ (d - fst q)) (combine (seq 0 (length p)) p))) x
  = sy * basis_sum powB (rev p) (x / sx).
Proof.
  intros Hx L. rewrite <- !rsum_basis.
  assert (G : forall l s, (s + length l = d + 1)%nat ->
     rsum powB (map (fun q => snd q * sy / sx ^ (d - fst q)) (combine (seq s (length l)) l)) x
     = sy * rsum powB l (x / sx)).
  { induction l as [|c l IH]; intros s Hs; cbn [length seq map combine rsum]; [lra|].
    cbn [length] in Hs. rewrite IH by lia. cbn [fst snd].
    rewrite map_length, combine_length, seq_length, Nat.min_id.
    replace (d - s)%nat with (length l) by lia. unfold powB.
    assert (sx ^ length l <> 0) by (apply pow_nonzero; auto).
    unfold Rdiv at 3. rewrite Rpow_mult_distr, pow_inv. field. auto. }
  apply G. cbn. auto.
Qed.

(** ** derivative *)

Lemma derivative_real p :
  derivative (map Fin p) = map Fin (map (fun q => INR (fst q) * snd q) (combine (seq 1 (length p - 1)) (tl p))).
Proof.
  unfold derivative. rewrite map_length, map_map.
  destruct p as [|a p]; [reflexivity|]. cbn [length tl map]. replace (S (length p) - 1)%nat with (length p) by lia.
  generalize 1%nat as s. induction p as [|b p IH]; intros s; cbn [length seq map combine]; auto.
  f_equal; [|apply IH]. cbn [fst snd]. rewrite nnat_Fin. reflexivity.
Qed.

Definition dcoef (p : list R) : list R :=
  map (fun q => INR (fst q) * snd q) (combine (seq 1 (length p - 1)) (tl p)).

Lemma dcoef_snoc p a : p <> [] -> dcoef (p ++ [a]) = dcoef p ++ [INR (length p) * a].
Proof.
  destruct p as [|b p]; [tauto|]. intros _. unfold dcoef. cbn [app tl length]. rewrite app_length.
  cbn [length]. replace (S (length p + 1) - 1)%nat with (S (length p)) by lia.
  replace (S (length p) - 1)%nat with (length p) by lia.
  rewrite seq_S, combine_app_same by (rewrite seq_length; auto).
  rewrite map_app. reflexivity.
Qed.

Lemma dcoef_length p : length (dcoef p) = (length p - 1)%nat.
Proof.
  unfold dcoef. rewrite map_length, combine_length, seq_length. destruct p; cbn; lia.
Qed.

Lemma derivable_poly p x :
  derivable_pt_lim (fun t => basis_sum powB p t) x (basis_sum powB (dcoef p) x).
Proof.
  induction p as [|a p IH] using rev_ind.
  - cbn. apply derivable_pt_lim_const.
  - destruct p as [|b p].
    + cbn. unfold powB. cbn.
      replace 0 with (0 * 1 + 0) at 3 by lra.
      apply (derivable_pt_lim_ext (fun _ => a)); [intros; lra|].
      replace (0 * 1 + 0) with 0 by lra. apply derivable_pt_lim_const.
    + set (P := b :: p) in *. rewrite dcoef_snoc by discriminate.
      rewrite basis_sum_snoc, dcoef_length.
      apply (derivable_pt_lim_ext (fun t => basis_sum powB P t + a * t ^ length P)).
      { intros t. rewrite basis_sum_snoc. reflexivity. }
      apply (derivable_pt_lim_plus (fun t => basis_sum powB P t) (fun t => a * t ^ length P)); auto.
      replace (INR (length P) * a * powB (length P - 1) x)
        with (a * (INR (length P) * x ^ pred (length P))).
      2:{ unfold powB. replace (length P - 1)%nat with (pred (length P)) by lia. ring. }
      apply (derivable_pt_lim_scal (fun t => t ^ length P)). apply derivable_pt_lim_pow.
Qed.

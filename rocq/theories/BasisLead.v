(** * BasisLead: the leading coefficients of the Legendre and Chebyshev bases. *)

From Coq Require Import List Reals Lra Lia.
From Verif Require Import SpecPoly PolyFacts PolyIdent.
Import ListNotations.
Local Open Scope R_scope.

Fixpoint padd (p q : list R) : list R :=
  match p, q with
  | [], _ => q
  | _, [] => p
  | a :: p', b :: q' => (a + b) :: padd p' q'
  end.

Lemma basis_nil B u : basis_sum B [] u = 0.
Proof. reflexivity. Qed.

Lemma padd_value p q u : basis_sum powB (padd p q) u = basis_sum powB p u + basis_sum powB q u.
Proof.
  revert q. induction p as [|a p IH]; intros [|b q]; cbn [padd]; rewrite ?basis_nil; try lra.
  rewrite !basis_cons, IH. lra.
Qed.

Lemma padd_length p q : (length q <= length p)%nat -> length (padd p q) = length p.
Proof. revert q. induction p as [|a p IH]; intros [|b q] H; cbn in *; try lia. rewrite IH; lia. Qed.

Lemma padd_last p q : (length q < length p)%nat -> last (padd p q) 0 = last p 0.
Proof.
  revert q. induction p as [|a p IH]; intros [|b q] H; cbn [padd length] in *; try lia; auto.
  assert (K : (length q < length p)%nat) by lia. specialize (IH q K).
  destruct p as [|a' p]; [cbn in K; lia|]. destruct (padd (a' :: p) q) as [|z zs] eqn:E.
  - exfalso. pose proof (padd_length (a' :: p) q). rewrite E in H0. cbn in H0. cbn in K. lia.
  - change (last (a + b :: z :: zs) 0) with (last (z :: zs) 0).
    change (last (a :: a' :: p) 0) with (last (a' :: p) 0). exact IH.
Qed.

Lemma scale_value k p u : basis_sum powB (map (Rmult k) p) u = k * basis_sum powB p u.
Proof. induction p as [|a p IH]; cbn [map]; [rewrite !basis_nil; lra|]. rewrite !basis_cons, IH. lra. Qed.

Lemma scale_last k p : last (map (Rmult k) p) 0 = k * last p 0.
Proof.
  induction p as [|a p IH]; [cbn; lra|]. destruct p as [|b p]; [reflexivity|].
  change (last (map (Rmult k) (a :: b :: p)) 0) with (last (map (Rmult k) (b :: p)) 0).
  rewrite IH. reflexivity.
Qed.

Section Family.
  Variables (B : nat -> R -> R) (a b : nat -> R).
  Hypothesis B0 : forall u, B 0 u = 1.
  Hypothesis B1 : forall u, B 1 u = u.
  Hypothesis Brec : forall n u, B (S (S n)) u = a n * (u * B (S n) u) - b n * B n u.
  Hypothesis Ha : forall n, 1 < a n.

  Lemma family_coeffs n :
    exists t, (forall u, B n u = basis_sum powB t u) /\ length t = S n /\ 1 <= last t 0 /\
      ((2 <= n)%nat -> 1 < last t 0).
  Proof.
    enough (G : (exists t, (forall u, B n u = basis_sum powB t u) /\ length t = S n /\ 1 <= last t 0 /\
                  ((2 <= n)%nat -> 1 < last t 0)) /\
                (exists t, (forall u, B (S n) u = basis_sum powB t u) /\ length t = S (S n) /\ 1 <= last t 0 /\
                  ((2 <= S n)%nat -> 1 < last t 0))) by apply G.
    induction n as [|n [I1 I2]].
    - split.
      + exists [1]. split; [intros u; rewrite B0, basis_cons, basis_nil; lra|]. split; [reflexivity|]. split; [cbn; lra|lia].
      + exists [0; 1]. split; [intros u; rewrite B1, !basis_cons, basis_nil; lra|]. split; [reflexivity|]. split; [cbn; lra|lia].
    - split; [exact I2|]. destruct I1 as (t0 & V0 & L0 & _), I2 as (t1 & V1 & L1 & P1 & _).
      set (p := map (Rmult (a n)) (0 :: t1)). set (q := map (Rmult (- b n)) t0).
      exists (padd p q).
      assert (Lp : length p = S (S (S n))) by (unfold p; rewrite map_length; cbn; lia).
      assert (Lq : length q = S n) by (unfold q; rewrite map_length; lia).
      assert (E : last (padd p q) 0 = a n * last t1 0).
      { rewrite padd_last by lia. unfold p. rewrite scale_last. f_equal.
        destruct t1 as [|x t1]; [cbn in L1; lia|reflexivity]. }
      pose proof (Ha n) as Hn.
      split; [|split; [|split]].
      + intros u. rewrite Brec, padd_value. unfold p, q. rewrite !scale_value, basis_cons, V0, V1. lra.
      + rewrite padd_length; lia.
      + rewrite E. nra.
      + intros _. rewrite E. nra.
  Qed.

  Lemma family_sum c :
    exists c', (forall u, basis_sum B c u = basis_sum powB c' u) /\ length c' = length c /\
      ((3 <= length c)%nat -> exists k, 1 < k /\ last c' 0 = k * last c 0).
  Proof.
    induction c as [|x c IH] using rev_ind.
    - exists []. split; [reflexivity|]. split; [reflexivity|]. cbn; lia.
    - destruct IH as (c' & V & L & _).
      destruct (family_coeffs (length c)) as (t & Vt & Lt & _ & Pt).
      exists (padd (map (Rmult x) t) c').
      assert (Ls : length (map (Rmult x) t) = S (length c)) by (rewrite map_length; lia).
      split; [|split].
      + intros u. rewrite basis_sum_snoc, padd_value, scale_value, V, Vt. lra.
      + rewrite padd_length, app_length; cbn; lia.
      + rewrite app_length. cbn [length]. intros H. exists (last t 0). split; [apply Pt; lia|].
        rewrite padd_last by lia. rewrite scale_last, last_last. lra.
  Qed.

  (** From degree two on, the same coefficients read in this basis and as a power
      series agree at no more points than the degree. *)
  Lemma family_differs c rs :
    (3 <= length c)%nat -> last c 0 <> 0 -> NoDup rs -> (length c <= length rs)%nat ->
    exists r, In r rs /\ basis_sum B c r <> basis_sum powB c r.
  Proof.
    intros Hc Hl Hn Hr. destruct (family_sum c) as (c' & V & L & K). destruct (K Hc) as (k & Hk & E).
    destruct (Exists_dec (fun r => basis_sum B c r <> basis_sum powB c r) rs) as [D|D].
    - intros r. destruct (Req_EM_T (basis_sum B c r) (basis_sum powB c r)); [right; auto|left; auto].
    - apply Exists_exists in D. exact D.
    - exfalso. assert (Ec : c' = c).
      { apply (poly_ident c' c rs); auto; [lia|]. intros r Hin. rewrite <- V.
        destruct (Req_EM_T (basis_sum B c r) (basis_sum powB c r)) as [Q|Q]; [exact Q|].
        exfalso. apply D. apply Exists_exists. eauto. }
      subst c'. assert ((k - 1) * last c 0 = 0) by lra. apply Rmult_integral in H. destruct H; lra.
  Qed.
End Family.

Lemma cheb_differs c rs :
  (3 <= length c)%nat -> last c 0 <> 0 -> NoDup rs -> (length c <= length rs)%nat ->
  exists r, In r rs /\ basis_sum chebB c r <> basis_sum powB c r.
Proof.
  apply (family_differs chebB (fun _ => 2) (fun _ => 1)); auto.
  - intros n u. rewrite chebB_rec. lra.
  - intros _. lra.
Qed.

Lemma leg_differs c rs :
  (3 <= length c)%nat -> last c 0 <> 0 -> NoDup rs -> (length c <= length rs)%nat ->
  exists r, In r rs /\ basis_sum legB c r <> basis_sum powB c r.
Proof.
  apply (family_differs legB (fun n => (2 * INR (S n) + 1) / INR (S (S n))) (fun n => INR (S n) / INR (S (S n)))); auto.
  - intros n u. rewrite legB_rec. field. apply INR_S_neq.
  - intros n. apply (Rmult_lt_reg_r (INR (S (S n)))); [apply lt_0_INR; lia|].
    unfold Rdiv. rewrite Rmult_assoc, Rinv_l by apply INR_S_neq. rewrite !S_INR. pose proof (pos_INR n). lra.
Qed.

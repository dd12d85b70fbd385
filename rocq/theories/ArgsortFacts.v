(** * ArgsortFacts: an executable argsort that meets the contract (for examples
    and counterexamples). *)

From Coq Require Import ZArith Bool List Lia Permutation Sorted.
From Verif Require Import Num Py Np NpFacts.
Import ListNotations.

Section Argsort.
  Context {A : Type} {N : Num A}.
  Local Open Scope num_scope.

  (** A stable argsort. *)
  Definition argsort_stable (l : list A) : list nat :=
    map snd (sort_by fst (combine l (seq 0 (length l)))).

  Context {O : NumOrder A}.

  Lemma np_lt_irrefl (a : A) : np_lt a a = false.
  Proof.
    unfold np_lt. rewrite ltb_irrefl. destruct (nisnan a); reflexivity.
  Qed.

  Lemma np_le_trans (a b c : A) : np_lt b a = false -> np_lt c b = false -> np_lt c a = false.
  Proof.
    unfold np_lt. intros H1 H2.
    apply orb_false_iff in H1, H2. destruct H1 as [L1 N1], H2 as [L2 N2].
    apply orb_false_iff.
    destruct (nisnan a) eqn:Ea, (nisnan b) eqn:Eb, (nisnan c) eqn:Ec; cbn in *; try discriminate;
      split; auto.
    all: destruct (c <' a) eqn:E; auto.
    all: try (apply ltb_nan in E; destruct E; congruence).
    assert (E1 : a <=' b = true) by (apply ltb_false_leb; auto).
    assert (E2 : b <=' c = true) by (apply ltb_false_leb; auto).
    apply ltb_leb in E. destruct E as [_ E]. rewrite (leb_trans _ _ _ E1 E2) in E. discriminate.
  Qed.

  Lemma np_lt_asym (a b : A) : np_lt a b = true -> np_lt b a = false.
  Proof.
    intros H. destruct (np_lt b a) eqn:E; auto. exfalso. unfold np_lt in *.
    apply orb_true_iff in H, E. destruct H as [H|H], E as [E|E].
    - apply ltb_leb in H, E. destruct H, E. congruence.
    - apply ltb_nan in H. apply andb_true_iff in E. destruct H, E. congruence.
    - apply ltb_nan in E. apply andb_true_iff in H. destruct H, E. congruence.
    - apply andb_true_iff in H, E. destruct H as [H1 H2], E as [E1 E2].
      rewrite E1 in H2. discriminate.
  Qed.

  Lemma sort_by_np {T} (key : T -> A) l :
    StronglySorted (fun p q => np_lt (key q) (key p) = false) (sort_by key l).
  Proof.
    induction l as [|x l IH]; [constructor|]. rewrite sort_by_cons.
    revert IH. generalize (sort_by key l) as s. clear l. intros s IH.
    induction s as [|y s IHs]; cbn [ins_by].
    - constructor; constructor.
    - inversion IH as [|? ? Hs Hf]; subst. destruct (np_lt (key y) (key x)) eqn:E.
      + constructor; auto. apply Forall_forall. intros z Hz.
        apply (Permutation_in _ (ins_by_perm key x s)) in Hz. destruct Hz as [<-|Hz].
        * apply np_lt_asym; auto.
        * rewrite Forall_forall in Hf. auto.
      + constructor; auto. constructor; auto.
        apply Forall_forall. intros z Hz. rewrite Forall_forall in Hf.
        eapply np_le_trans; [exact E|]. auto.
  Qed.

  Lemma map_snd_combine_seq {T} (l : list T) k : map snd (combine l (seq k (length l))) = seq k (length l).
  Proof. revert k. induction l; intros; cbn; auto. f_equal. auto. Qed.

  Lemma argsort_stable_ok (l : list A) : is_argsort l (argsort_stable l).
  Proof.
    unfold is_argsort, argsort_stable. split.
    - rewrite <- (map_snd_combine_seq l 0) at 2. apply Permutation_map. apply sort_by_perm.
    - apply SS_map. eapply SS_impl; [|apply (sort_by_np fst)].
      intros [x i] [y j] Hi Hj H. cbn in *. intros x' y' Hx Hy.
      apply sort_by_In in Hi, Hj. apply combine_seq_In in Hi, Hj.
      rewrite Nat.sub_0_r in *. destruct Hi as [_ Hi], Hj as [_ Hj].
      replace x' with x by congruence. replace y' with y by congruence. exact H.
  Qed.
End Argsort.

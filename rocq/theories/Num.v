(** * Num: the operations on floating point numbers used by rascal.

    The python code computes with IEEE doubles (numpy float64 / python float).
    The model is generic in a type [A] with the operations below.  The class
    carries NO laws: laws are separate ([NumOrder]) and are proved for the
    instances in F64.v (IEEE binary64) and XReal.v (exact reals with infinities
    and NaN). *)

From Coq Require Import ZArith Bool List Lia.
Import ListNotations.

(** Models: the arithmetic available to all of /repo/src/rascal/*.py (python
    float / numpy.float64 operators).  [nlit m e] is the decimal literal
    m * 10^e of the source text. *)
Class Num (A : Type) : Type := {
  nlit : Z -> Z -> A;
  nadd : A -> A -> A;
  nsub : A -> A -> A;
  nmul : A -> A -> A;
  ndiv : A -> A -> A;
  nopp : A -> A;
  nabs : A -> A;
  nsqrt : A -> A;
  nexp : A -> A;
  nleb : A -> A -> bool;      (* python  x <= y *)
  nltb : A -> A -> bool;      (* python  x <  y *)
  neqb : A -> A -> bool;      (* python  x == y *)
  nisnan : A -> bool;         (* np.isnan *)
  nisfinite : A -> bool;      (* np.isfinite *)
  ntrunc : A -> option Z;     (* int(x); None for inf/nan, where int() raises *)
  ninf : A                    (* np.inf *)
}.

Declare Scope num_scope.
Delimit Scope num_scope with num.
Infix "+'" := nadd (at level 34, left associativity) : num_scope.
Infix "-'" := nsub (at level 34, left associativity) : num_scope.
Infix "*'" := nmul (at level 32, left associativity) : num_scope.
Infix "/'" := ndiv (at level 32, left associativity) : num_scope.
Infix "<='" := nleb (at level 38, no associativity) : num_scope.
Infix "<'" := nltb (at level 38, no associativity) : num_scope.
Infix "=='" := neqb (at level 38, no associativity) : num_scope.

(** An integer literal / python int converted to float. *)
Definition nZ {A} {N : Num A} (z : Z) : A := nlit z 0.
(** A length or counter converted to float. *)
Definition nnat {A} {N : Num A} (n : nat) : A := nlit (Z.of_nat n) 0.

(** The comparisons are a total preorder on the values that are not NaN, and
    are all false as soon as one side is NaN. *)
Class NumOrder (A : Type) {N : Num A} : Prop := {
  leb_total : forall x y : A, nisnan x = false -> nisnan y = false ->
      nleb x y = true \/ nleb y x = true;
  leb_trans : forall x y z : A, nleb x y = true -> nleb y z = true -> nleb x z = true;
  leb_nan : forall x y : A, nleb x y = true -> nisnan x = false /\ nisnan y = false;
  ltb_leb : forall x y : A, nltb x y = true <->
      nleb x y = true /\ nleb y x = false;
  eqb_leb : forall x y : A, neqb x y = true <->
      nleb x y = true /\ nleb y x = true;
  finite_nan : forall x : A, nisfinite x = true -> nisnan x = false
}.

Section OrderFacts.
  Context {A : Type} {N : Num A} {O : NumOrder A}.
  Local Open Scope num_scope.

  Lemma leb_refl (x : A) : nisnan x = false -> x <=' x = true.
  Proof. intros H. destruct (leb_total x x H H); auto. Qed.

  Lemma leb_false_ltb (x y : A) :
    nisnan x = false -> nisnan y = false -> x <=' y = false -> y <' x = true.
  Proof.
    intros Hx Hy H. apply ltb_leb.
    destruct (leb_total x y Hx Hy) as [E|E]; [congruence|auto].
  Qed.

  Lemma ltb_false_leb (x y : A) :
    nisnan x = false -> nisnan y = false -> x <' y = false -> y <=' x = true.
  Proof.
    intros Hx Hy H. destruct (y <=' x) eqn:E; auto.
    apply leb_false_ltb in E; auto. congruence.
  Qed.

  Lemma ltb_leb_weak (x y : A) : x <' y = true -> x <=' y = true.
  Proof. intros H; apply ltb_leb in H; tauto. Qed.

  Lemma ltb_nan (x y : A) : x <' y = true -> nisnan x = false /\ nisnan y = false.
  Proof. intros H; apply ltb_leb in H; destruct H as [H _]; apply leb_nan in H; auto. Qed.

  Lemma ltb_irrefl (x : A) : x <' x = false.
  Proof. destruct (x <' x) eqn:E; auto. apply ltb_leb in E. destruct E; congruence. Qed.

  Lemma ltb_trans (x y z : A) : x <' y = true -> y <' z = true -> x <' z = true.
  Proof.
    intros H1 H2. apply ltb_leb in H1. apply ltb_leb in H2. apply ltb_leb.
    destruct H1 as [H1 H1'], H2 as [H2 H2']. split.
    - eapply leb_trans; eauto.
    - destruct (z <=' x) eqn:E; auto. rewrite (leb_trans y z x H2 E) in H1'. congruence.
  Qed.

  Lemma leb_ltb_trans (x y z : A) : x <=' y = true -> y <' z = true -> x <' z = true.
  Proof.
    intros H1 H2. apply ltb_leb in H2. apply ltb_leb. destruct H2 as [H2 H2']. split.
    - eapply leb_trans; eauto.
    - destruct (z <=' x) eqn:E; auto. rewrite (leb_trans z x y E H1) in H2'. congruence.
  Qed.

  Lemma ltb_leb_trans (x y z : A) : x <' y = true -> y <=' z = true -> x <' z = true.
  Proof.
    intros H1 H2. apply ltb_leb in H1. apply ltb_leb. destruct H1 as [H1 H1']. split.
    - eapply leb_trans; eauto.
    - destruct (z <=' x) eqn:E; auto. rewrite (leb_trans y z x H2 E) in H1'. congruence.
  Qed.

  Lemma ltb_neqb (x y : A) : x <' y = true -> x ==' y = false.
  Proof.
    intros H. destruct (x ==' y) eqn:E; auto.
    apply ltb_leb in H. apply eqb_leb in E. destruct H, E. congruence.
  Qed.

  Lemma eqb_refl (x : A) : nisnan x = false -> x ==' x = true.
  Proof. intros H. apply eqb_leb. split; apply leb_refl; auto. Qed.

  Lemma eqb_sym (x y : A) : (x ==' y) = (y ==' x).
  Proof.
    destruct (x ==' y) eqn:E, (y ==' x) eqn:F; auto.
    - apply eqb_leb in E. assert (y ==' x = true) by (apply eqb_leb; tauto). congruence.
    - apply eqb_leb in F. assert (x ==' y = true) by (apply eqb_leb; tauto). congruence.
  Qed.

  Lemma eqb_trans (x y z : A) : x ==' y = true -> y ==' z = true -> x ==' z = true.
  Proof.
    intros H1 H2. apply eqb_leb in H1. apply eqb_leb in H2. apply eqb_leb.
    destruct H1, H2; split; eapply leb_trans; eauto.
  Qed.

  Lemma eqb_nan (x y : A) : x ==' y = true -> nisnan x = false /\ nisnan y = false.
  Proof. intros H. apply eqb_leb in H. destruct H as [H _]. apply leb_nan in H. auto. Qed.

  Lemma leb_cases (x y : A) : x <=' y = true -> x <' y = true \/ x ==' y = true.
  Proof.
    intros H. destruct (y <=' x) eqn:E.
    - right. apply eqb_leb; auto.
    - left. apply ltb_leb; auto.
  Qed.

  Lemma trichotomy (x y : A) : nisnan x = false -> nisnan y = false ->
    x <' y = true \/ x ==' y = true \/ y <' x = true.
  Proof.
    intros Hx Hy. destruct (leb_total x y Hx Hy) as [H|H]; apply leb_cases in H.
    - tauto.
    - destruct H; auto. rewrite eqb_sym in H. auto.
  Qed.

  Lemma leb_negb_ltb (x y : A) : nisnan x = false -> nisnan y = false ->
    (x <=' y) = negb (y <' x).
  Proof.
    intros Hx Hy. destruct (x <=' y) eqn:E, (y <' x) eqn:F; auto.
    - apply ltb_leb in F. destruct F; congruence.
    - apply leb_false_ltb in E; auto. congruence.
  Qed.
End OrderFacts.

(** * F64: IEEE-754 binary64 numbers as an instance of [Num].

    Uses the executable specification of the standard library
    ([Coq.Floats.SpecFloat], precision 53, emax 1024, round to nearest even).
    No primitive floats and no axioms.  The exponential is a parameter. *)

From Coq Require Import ZArith Bool List Lia.
From Coq Require Import Floats.SpecFloat.
From Verif Require Import Num.

Definition f64 : Type := spec_float.

Definition f64_ofZ (z : Z) : f64 := binary_normalize 53 1024 z 0 false.

(** Decimal literal m * 10^e.  For e < 0 this is the correctly rounded quotient
    of two exactly represented integers for the literals that occur in the code
    (|m| < 2^53, -22 <= e). *)
Definition f64_lit (m e : Z) : f64 :=
  if (0 <=? e)%Z then f64_ofZ (m * 10 ^ e)
  else SFdiv 53 1024 (f64_ofZ m) (f64_ofZ (10 ^ (- e))).

Definition f64_isnan (x : f64) : bool :=
  match x with S754_nan => true | _ => false end.
Definition f64_isfinite (x : f64) : bool :=
  match x with S754_nan | S754_infinity _ => false | _ => true end.
Definition f64_trunc (x : f64) : option Z :=
  match x with
  | S754_nan | S754_infinity _ => None
  | S754_zero _ => Some 0%Z
  | S754_finite s m e =>
      let a := match e with
               | Z0 => Zpos m
               | Zpos _ => (Zpos m * 2 ^ e)%Z
               | Zneg _ => (Zpos m / 2 ^ (- e))%Z
               end in
      Some (if s then (- a)%Z else a)
  end.

(** The instance, for an arbitrary implementation of exp. *)
Definition F64num (fexp : f64 -> f64) : Num f64 := {|
  nlit := f64_lit;
  nadd := SFadd 53 1024;
  nsub := SFsub 53 1024;
  nmul := SFmul 53 1024;
  ndiv := SFdiv 53 1024;
  nopp := SFopp;
  nabs := SFabs;
  nsqrt := SFsqrt 53 1024;
  nexp := fexp;
  nleb := SFleb;
  nltb := SFltb;
  neqb := SFeqb;
  nisnan := f64_isnan;
  nisfinite := f64_isfinite;
  ntrunc := f64_trunc;
  ninf := S754_infinity false
|}.

(** Order: a lexicographic key in Z*Z*Z. *)
Definition f64_key (x : f64) : Z * Z * Z :=
  match x with
  | S754_nan => (0, 0, 0)
  | S754_infinity true => (-2, 0, 0)
  | S754_infinity false => (2, 0, 0)
  | S754_zero _ => (0, 0, 0)
  | S754_finite true m e => (-1, - e, Zneg m)
  | S754_finite false m e => (1, e, Zpos m)
  end%Z.

Definition lex (a b : Z * Z * Z) : comparison :=
  let '(a1, a2, a3) := a in
  let '(b1, b2, b3) := b in
  match Z.compare a1 b1 with
  | Eq => match Z.compare a2 b2 with Eq => Z.compare a3 b3 | c => c end
  | c => c
  end.

Lemma SFcompare_key x y :
  f64_isnan x = false -> f64_isnan y = false ->
  SFcompare x y = Some (lex (f64_key x) (f64_key y)).
Proof.
  intros Hx Hy.
  destruct x as [s1|s1| |s1 m1 e1], y as [s2|s2| |s2 m2 e2]; try discriminate;
    try destruct s1; try destruct s2; try reflexivity; unfold SFcompare, lex, f64_key;
    cbn [Z.compare].
  - rewrite Z.compare_opp, (Z.compare_antisym e1 e2).
    destruct (Z.compare e1 e2); reflexivity.
Qed.

Lemma SFcompare_nan_l y : SFcompare S754_nan y = None.
Proof. destruct y; reflexivity. Qed.
Lemma SFcompare_nan_r x : SFcompare x S754_nan = None.
Proof. destruct x as [s|s| |s m e]; try destruct s; reflexivity. Qed.

Lemma lex_le_trans a b c : lex a b <> Gt -> lex b c <> Gt -> lex a c <> Gt.
Proof.
  destruct a as [[a1 a2] a3], b as [[b1 b2] b3], c as [[c1 c2] c3]. unfold lex.
  repeat match goal with |- context[Z.compare ?x ?y] => destruct (Z.compare_spec x y) end;
    intros; subst; try congruence; try lia.
Qed.

Lemma lex_antisym a b : lex b a = CompOpp (lex a b).
Proof.
  destruct a as [[a1 a2] a3], b as [[b1 b2] b3]. unfold lex.
  rewrite (Z.compare_antisym a1 b1), (Z.compare_antisym a2 b2), (Z.compare_antisym a3 b3).
  destruct (Z.compare a1 b1), (Z.compare a2 b2), (Z.compare a3 b3); reflexivity.
Qed.

#[global] Instance F64order (fexp : f64 -> f64) : @NumOrder f64 (F64num fexp).
Proof.
  assert (K : forall x y, SFcompare x y = if f64_isnan x || f64_isnan y then None
                          else Some (lex (f64_key x) (f64_key y))).
  { intros x y. destruct (f64_isnan x) eqn:Hx.
    { destruct x; try discriminate. apply SFcompare_nan_l. }
    destruct (f64_isnan y) eqn:Hy.
    { destruct y; try discriminate. apply SFcompare_nan_r. }
    apply SFcompare_key; auto. }
  constructor; cbn; unfold SFleb, SFltb, SFeqb.
  - intros x y Hx Hy. rewrite !K, Hx, Hy. cbn.
    rewrite (lex_antisym (f64_key x) (f64_key y)).
    destruct (lex (f64_key x) (f64_key y)); cbn; auto.
  - intros x y z. rewrite !K.
    destruct (f64_isnan x), (f64_isnan y), (f64_isnan z); cbn; try discriminate.
    intros H1 H2. generalize (lex_le_trans (f64_key x) (f64_key y) (f64_key z)).
    destruct (lex (f64_key x) (f64_key y)), (lex (f64_key y) (f64_key z)),
      (lex (f64_key x) (f64_key z)); auto; intros H; exfalso; apply H; congruence.
  - intros x y. rewrite K. destruct (f64_isnan x), (f64_isnan y); cbn; auto; discriminate.
  - intros x y. rewrite !K. destruct (f64_isnan x), (f64_isnan y); cbn;
      try (split; [discriminate | intros [? ?]; discriminate]).
    rewrite (lex_antisym (f64_key x) (f64_key y)).
    destruct (lex (f64_key x) (f64_key y)); cbn; intuition congruence.
  - intros x y. rewrite !K. destruct (f64_isnan x), (f64_isnan y); cbn;
      try (split; [discriminate | intros [? ?]; discriminate]).
    rewrite (lex_antisym (f64_key x) (f64_key y)).
    destruct (lex (f64_key x) (f64_key y)); cbn; intuition congruence.
  - intros x. destruct x; cbn; congruence.
Qed.

(** Instance used in computed examples: exp is not needed there and is replaced
    by the constant 1. *)
#[global] Instance F64c : Num f64 := F64num (fun _ => f64_ofZ 1).

(** Short names for literals in examples. *)
Definition fz (z : Z) : f64 := f64_ofZ z.
Definition fd (m e : Z) : f64 := f64_lit m e.

(** * XReal: exact real numbers with IEEE special values as an instance of [Num].

    Idealisation of binary64 without rounding and overflow; division by zero,
    infinities and NaN follow IEEE-754 (one zero instead of two: x/0 has the sign
    of x). *)

From Coq Require Import ZArith Bool List Lia Reals Lra.
From Verif Require Import Num.

Inductive xr : Type := Fin (r : R) | Inf (neg : bool) | NaN.

Definition Rleb (a b : R) : bool := if Rle_dec a b then true else false.
Definition Rltb (a b : R) : bool := if Rlt_dec a b then true else false.
Definition Reqb (a b : R) : bool := if Req_EM_T a b then true else false.

Lemma Rleb_spec a b : Bool.reflect (a <= b)%R (Rleb a b).
Proof. unfold Rleb. destruct (Rle_dec a b); constructor; auto. Qed.
Lemma Rltb_spec a b : Bool.reflect (a < b)%R (Rltb a b).
Proof. unfold Rltb. destruct (Rlt_dec a b); constructor; auto. Qed.
Lemma Reqb_spec a b : Bool.reflect (a = b)%R (Reqb a b).
Proof. unfold Reqb. destruct (Req_EM_T a b); constructor; auto. Qed.

Definition xneg (x : xr) : bool :=
  match x with Fin r => Rltb r 0 | Inf s => s | NaN => false end.

Definition xopp (x : xr) : xr :=
  match x with Fin r => Fin (- r) | Inf s => Inf (negb s) | NaN => NaN end.
Definition xadd (x y : xr) : xr :=
  match x, y with
  | NaN, _ | _, NaN => NaN
  | Fin a, Fin b => Fin (a + b)
  | Fin _, Inf s => Inf s
  | Inf s, Fin _ => Inf s
  | Inf s, Inf t => if Bool.eqb s t then Inf s else NaN
  end.
Definition xsub (x y : xr) : xr := xadd x (xopp y).
Definition xmul (x y : xr) : xr :=
  match x, y with
  | NaN, _ | _, NaN => NaN
  | Fin a, Fin b => Fin (a * b)
  | Fin a, Inf s => if Reqb a 0 then NaN else Inf (xorb (Rltb a 0) s)
  | Inf s, Fin a => if Reqb a 0 then NaN else Inf (xorb (Rltb a 0) s)
  | Inf s, Inf t => Inf (xorb s t)
  end.
Definition xdiv (x y : xr) : xr :=
  match x, y with
  | NaN, _ | _, NaN => NaN
  | Fin a, Fin b => if Reqb b 0 then (if Reqb a 0 then NaN else Inf (Rltb a 0))
                    else Fin (a / b)
  | Fin _, Inf _ => Fin 0
  | Inf s, Fin b => Inf (xorb s (Rltb b 0))
  | Inf _, Inf _ => NaN
  end.
Definition xabs (x : xr) : xr :=
  match x with Fin r => Fin (Rabs r) | Inf _ => Inf false | NaN => NaN end.
Definition xsqrt (x : xr) : xr :=
  match x with
  | Fin r => if Rltb r 0 then NaN else Fin (sqrt r)
  | Inf false => Inf false
  | _ => NaN
  end.
Definition xexp (x : xr) : xr :=
  match x with
  | Fin r => Fin (exp r) | Inf false => Inf false | Inf true => Fin 0 | NaN => NaN
  end.
Definition xleb (x y : xr) : bool :=
  match x, y with
  | NaN, _ | _, NaN => false
  | Fin a, Fin b => Rleb a b
  | Inf true, _ => true
  | _, Inf false => true
  | _, _ => false
  end.
Definition xltb (x y : xr) : bool :=
  match x, y with
  | NaN, _ | _, NaN => false
  | Fin a, Fin b => Rltb a b
  | Inf true, Inf true => false
  | Inf true, _ => true
  | Inf false, Inf false => false
  | _, Inf false => true
  | _, _ => false
  end.
Definition xeqb (x y : xr) : bool :=
  match x, y with
  | Fin a, Fin b => Reqb a b
  | Inf s, Inf t => Bool.eqb s t
  | _, _ => false
  end.
Definition xisnan (x : xr) : bool := match x with NaN => true | _ => false end.
Definition xisfinite (x : xr) : bool := match x with Fin _ => true | _ => false end.
Definition xtrunc (x : xr) : option Z :=
  match x with
  | Fin r => Some (if Rltb r 0 then (- Int_part (- r))%Z else Int_part r)
  | _ => None
  end.
(** m * 10^e *)
Definition Rlit (m e : Z) : R := (IZR m * powerRZ 10 e)%R.

#[global] Instance XRnum : Num xr := {|
  nlit m e := Fin (Rlit m e);
  nadd := xadd; nsub := xsub; nmul := xmul; ndiv := xdiv; nopp := xopp;
  nabs := xabs; nsqrt := xsqrt; nexp := xexp;
  nleb := xleb; nltb := xltb; neqb := xeqb;
  nisnan := xisnan; nisfinite := xisfinite; ntrunc := xtrunc; ninf := Inf false
|}.

Ltac xr_cases :=
  repeat match goal with
  | |- context[Rleb ?a ?b] => destruct (Rleb_spec a b)
  | |- context[Rltb ?a ?b] => destruct (Rltb_spec a b)
  | |- context[Reqb ?a ?b] => destruct (Reqb_spec a b)
  | H : context[Rleb ?a ?b] |- _ => destruct (Rleb_spec a b)
  | H : context[Rltb ?a ?b] |- _ => destruct (Rltb_spec a b)
  | H : context[Reqb ?a ?b] |- _ => destruct (Reqb_spec a b)
  end.

#[global] Instance XRorder : NumOrder xr.
Proof.
  constructor; cbn.
  - intros [a|s|] [b|t|]; cbn; try discriminate; intros _ _; try destruct s; try destruct t; auto.
    xr_cases; auto; lra.
  - intros [a|s|] [b|t|] [c|u|]; cbn; try discriminate; try destruct s; try destruct t;
      try destruct u; cbn; auto; xr_cases; auto; try discriminate; lra.
  - intros [a|s|] [b|t|]; cbn; try destruct s; try destruct t; intros H; try discriminate H; auto.
  - intros [a|s|] [b|t|]; cbn; try destruct s; try destruct t; cbn;
      xr_cases; intuition (try congruence; try lra).
  - intros [a|s|] [b|t|]; cbn; try destruct s; try destruct t; cbn;
      xr_cases; intuition (try congruence; try lra).
  - intros [a|s|]; cbn; congruence.
Qed.

Lemma Rlit_0 m : Rlit m 0 = IZR m.
Proof. unfold Rlit. cbn. lra. Qed.

Lemma nZ_Fin z : (nZ z : xr) = Fin (IZR z).
Proof. unfold nZ. cbn. rewrite Rlit_0. reflexivity. Qed.
Lemma nnat_Fin n : (nnat n : xr) = Fin (INR n).
Proof. unfold nnat. cbn. rewrite Rlit_0, INR_IZR_INZ. reflexivity. Qed.

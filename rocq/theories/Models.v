(** * Models: model of /repo/src/rascal/models.py. *)

From Coq Require Import ZArith Bool List Lia.
From Verif Require Import Num Py Np.
Import ListNotations.
Local Open Scope num_scope.

Section Models.
  Context {A : Type} {N : Num A}.

  (** x ** i for a non-negative integer i. *)
  Fixpoint npow (x : A) (i : nat) : A :=
    match i with O => nZ 1 | S O => x | S k => npow x k *' x end.

  (** models.py:19-25: the inner function poly(x) of [polynomial]. *)
  Definition poly_at (a : list A) (degree : nat) (x : A) : A :=
    fold_left (fun t i => t +' nth (degree - i) a (nZ 0) *' npow x i) (seq 1 degree)
              (last a (nZ 0)).

  (** models.py:10-27 polynomial(a, degree): asserts the number of coefficients
      and returns the function. *)
  Definition polynomial (a : list A) (degree : nat) : res (A -> A) :=
    if Nat.eqb (length a) (degree + 1) then Ok (poly_at a degree) else Raise AssertionError.

  (** models.py:30-54 poly_cost_function. *)
  Definition poly_cost_function (a x y : list A) (degree : nat) : res (list A) :=
    bind (polynomial a degree) (fun f =>
    Ok (map (fun p => snd p -' f (fst p)) (combine x y))).

  (** ndarray.std(): population standard deviation. *)
  Definition np_std (l : list A) : A :=
    let m := np_mean l in
    nsqrt (np_mean (map (fun v => nabs (v -' m) *' nabs (v -' m)) l)).

  (** models.py:57-67 normalise_input. *)
  Definition normalise_input (x y : list A) : list A * list A :=
    (map (fun v => v /' np_std x) x, map (fun v => v /' np_std y) y).

  (** models.py:98-106: the starting point of the optimiser.  For a supplied x0
      the entries 0..degree-1 are multiplied by std(x)**i, then all are divided
      by std(y). *)
  Definition robust_init (x y : list A) (degree : nat) (x0 : option (list A)) : res (list A) :=
    match x0 with
    | Some p =>
        if Nat.ltb (length p) degree then Raise IndexError else
        Ok (map (fun q => (if Nat.ltb (fst q) degree
                           then snd q *' npow (np_std x) (fst q) else snd q) /' np_std y)
                (combine (seq 0 (length p)) p))
    | None => Ok (map (fun _ => nZ 1) (seq 0 (degree + 1)))
    end.

  (** models.py:115-121: undo the normalisation of the optimiser's result
      (highest power first). *)
  Definition denormalise (sx sy : A) (degree : nat) (p : list A) : list A :=
    map (fun q => let v := snd q *' sy in
                  if Nat.ltb (fst q) degree then v /' npow sx (degree - fst q) else v)
        (combine (seq 0 (length p)) p).

  (** scipy.optimize.least_squares on the normalised data: (x_n, y_n, degree,
      start) to the optimum, or an exception. *)
  Definition optimiser : Type := list A -> list A -> nat -> list A -> res (list A).

  (** models.py:70-123 robust_polyfit.  least_squares evaluates the cost function
      at the start, so a start of the wrong length raises AssertionError. *)
  Definition robust_polyfit (ls : optimiser) (x y : list A) (degree : nat)
      (x0 : option (list A)) : res (list A) :=
    let (xn, yn) := normalise_input x y in
    bind (robust_init x y degree x0) (fun p_init =>
    if negb (Nat.eqb (length p_init) (degree + 1)) then Raise AssertionError else
    bind (ls xn yn degree p_init) (fun p =>
    Ok (rev (denormalise (np_std x) (np_std y) degree p)))).
End Models.

Arguments optimiser A : clear implicits.

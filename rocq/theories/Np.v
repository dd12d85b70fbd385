(** * Np: the numpy (and built-in) primitives used by rascal.

    These definitions model numpy's documented behaviour; they are part of the
    trusted base.  Each comment names the calls in /repo that use it. *)

From Coq Require Import ZArith Bool List Lia Permutation Sorted.
From Verif Require Import Num Py.
Import ListNotations.

Section Np.
  Context {A : Type} {N : Num A}.
  Local Open Scope num_scope.

  (** Order used by np.sort / np.unique: NaN sorts last.
      Used at util.py:183, calibrator.py:435,465,471,593. *)
  Definition np_lt (a b : A) : bool := a <' b || (nisnan b && negb (nisnan a)).

  Fixpoint ins_by {T} (key : T -> A) (x : T) (l : list T) : list T :=
    match l with
    | [] => [x]
    | y :: r => if np_lt (key y) (key x) then y :: ins_by key x r else x :: l
    end.

  (** Stable sort by a key (np.argsort(kind="mergesort"), which np.unique uses
      when return_index is requested). *)
  Definition sort_by {T} (key : T -> A) (l : list T) : list T :=
    fold_right (ins_by key) [] l.

  (** np.sort.  calibrator.py:465,810. *)
  Definition np_sort (l : list A) : list A := sort_by (fun x => x) l.

  (** Drop every element equal to its predecessor: aux[1:] != aux[:-1]. *)
  Fixpoint dedup_from {T} (key : T -> A) (prev : T) (l : list T) : list T :=
    match l with
    | [] => []
    | x :: r => if key x ==' key prev then dedup_from key x r
                else x :: dedup_from key x r
    end.
  Definition dedup_by {T} (key : T -> A) (l : list T) : list T :=
    match l with [] => [] | x :: r => x :: dedup_from key x r end.

  (** np.unique(l).  calibrator.py:197,205,435,448,455,465,471. *)
  Definition np_unique (l : list A) : list A := dedup_by (fun x => x) (np_sort l).

  (** np.unique(l, return_index=True)[1]: position of the first occurrence of
      each distinct value, in increasing order of value.  util.py:183. *)
  Definition np_unique_index (l : list A) : list nat :=
    map snd (dedup_by fst (sort_by fst (combine l (seq 0 (length l))))).

  (** l[mask] for a boolean mask of the same length. *)
  Definition mask_select {T} (m : list bool) (l : list T) : list T :=
    map snd (filter fst (combine m l)).

  (** l[idx] for in-range positions (out-of-range positions do not occur where
      this is used; they are dropped here). *)
  Definition gather {T} (l : list T) (idx : list nat) : list T :=
    flat_map (fun i => match nth_error l i with Some x => [x] | None => [] end) idx.

  (** np.minimum / np.maximum of two numbers (NaN propagates).  util.py:221. *)
  Definition np_minimum (a b : A) : A := if a <=' b || nisnan a then a else b.
  Definition np_maximum (a b : A) : A := if b <=' a || nisnan a then a else b.

  (** np.min / np.max of an array; ValueError on the empty array.  *)
  Definition np_amin (l : list A) : res A :=
    match l with [] => Raise ValueError | x :: r => Ok (fold_left np_minimum r x) end.
  Definition np_amax (l : list A) : res A :=
    match l with [] => Raise ValueError | x :: r => Ok (fold_left np_maximum r x) end.
  (** np.ptp.  calibrator.py:590,591,1099-1117 *)
  Definition np_ptp (l : list A) : res A :=
    bind (np_amax l) (fun hi => bind (np_amin l) (fun lo => Ok (hi -' lo))).

  (** Built-in min / max of a python list.  atlas.py:274,275. *)
  Definition py_min (l : list A) : res A :=
    match l with
    | [] => Raise ValueError
    | x :: r => Ok (fold_left (fun m y => if y <' m then y else m) r x)
    end.
  Definition py_max (l : list A) : res A :=
    match l with
    | [] => Raise ValueError
    | x :: r => Ok (fold_left (fun m y => if m <' y then y else m) r x)
    end.

  (** np.argmin: position of the first NaN if there is one, else of the first
      minimum; None stands for the ValueError on an empty array.
      calibrator.py:347,366,794. *)
  Fixpoint argmin_from (i best : nat) (m : A) (l : list A) : nat :=
    if nisnan m then best else
    match l with
    | [] => best
    | x :: r => if m <=' x then argmin_from (S i) best m r
                else argmin_from (S i) i x r
    end.
  Definition np_argmin (l : list A) : option nat :=
    match l with [] => None | x :: r => Some (argmin_from 1 0 x r) end.

  (** np.sum / built-in sum: left-to-right (numpy sums pairwise, which differs
      by rounding only). *)
  Definition np_sum (l : list A) : A := fold_left nadd l (nZ 0).
  (** np.mean *)
  Definition np_mean (l : list A) : A := np_sum l /' nnat (length l).

  (** np.diff *)
  Fixpoint np_diff (l : list A) : list A :=
    match l with
    | x :: ((y :: _) as r) => (y -' x) :: np_diff r
    | _ => []
    end.

  (** np.linspace(a, b, n).  houghtransform.py:78 and the bin edges of
      np.histogram(2d). *)
  Definition np_linspace (a b : A) (n : nat) : list A :=
    match n with
    | O => []
    | S O => [nZ 0 *' (b -' a) +' a]
    | S k => let step := (b -' a) /' nnat k in
             map (fun i => nnat i *' step +' a) (seq 0 k) ++ [b]
    end.

  (** np.searchsorted(edges, v, side="right"/"left") on increasing edges. *)
  Fixpoint count_while (f : A -> bool) (l : list A) : nat :=
    match l with
    | [] => 0
    | x :: r => if f x then S (count_while f r) else 0
    end.
  Definition searchsorted_right (edges : list A) (v : A) : nat :=
    count_while (fun e => e <=' v) edges.
  Definition searchsorted_left (edges : list A) (v : A) : nat :=
    count_while (fun e => e <' v) edges.

  (** Integer part rounded up, for np.arange. *)
  Definition nceil (x : A) : option Z :=
    match ntrunc x with
    | Some z => Some (if nZ z <' x then (z + 1)%Z else z)
    | None => None
    end.
  (** np.arange(a, b, 1).  calibrator.py:595. *)
  Definition np_arange1 (a b : A) : list A :=
    match nceil (b -' a) with
    | Some z => let d := (a +' nZ 1) -' a in
                map (fun i => a +' nnat i *' d) (seq 0 (Z.to_nat z))
    | None => []
    end.

  (** np.all(np.diff(v) > 0) *)
  Definition all_positive (l : list A) : bool := forallb (fun d => nZ 0 <' d) l.
End Np.

(** np.insert(l, k, v) and np.delete(l, k) at a valid position. *)
Definition np_insert {T} (l : list T) (k : nat) (v : T) : list T :=
  firstn k l ++ v :: skipn k l.
Definition np_delete {T} (l : list T) (k : nat) : list T :=
  firstn k l ++ skipn (S k) l.

(** Positions at which a predicate holds (np.where / np.argwhere of a mask). *)
Definition np_where {T} (f : T -> bool) (l : list T) : list nat :=
  map fst (filter (fun p => f (snd p)) (combine (seq 0 (length l)) l)).

(** Contract of np.argsort (quicksort / introsort, not stable): some permutation
    of the positions that puts the keys in non-decreasing order, NaN last. *)
Definition is_argsort {A} {N : Num A} (l : list A) (p : list nat) : Prop :=
  Permutation p (seq 0 (length l)) /\
  StronglySorted
    (fun i j => forall x y, nth_error l i = Some x -> nth_error l j = Some y ->
                            np_lt y x = false) p.

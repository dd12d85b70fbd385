(** * SynthRefs: a SyntheticSpectrum refers to the caller's list of coefficients.

    synthetic.py:26 and models.py:10-27 keep the list object itself, not a copy; the
    degree is the number of coefficients minus one at the time of set_model
    (synthetic.py:39). *)

From Coq Require Import ZArith Bool List Lia.
From Verif Require Import Num Py Np Models Synthetic.
Import ListNotations.
Local Open Scope num_scope.

Section SynthRefs.
  Context {A : Type} {N : Num A}.

  (** The caller's lists (by position) and the attributes: the limits, the list behind
      self.coefficients (None: no such attribute), and the list and degree behind
      self.model. *)
  Record srefs : Type := mkSR {
    sr_heap : list (list A);
    sr_min : A; sr_max : A;
    sr_coef : option nat;
    sr_model : option (nat * nat)
  }.

  Definition sr_list (s : srefs) (r : nat) : list A := nth r (sr_heap s) [].

  (** Replaces the list at position r. *)
  Fixpoint set_at (r : nat) (v : list A) (h : list (list A)) : list (list A) :=
    match h, r with
    | [], _ => []
    | _ :: t, O => v :: t
    | x :: t, S k => x :: set_at k v t
    end.

  (** What happens: the caller makes a list; the caller changes a list in place;
      set_model (synthetic.py:33-43) with a list of the caller. *)
  Inductive sref_op : Type :=
  | RNew (l : list A)
  | RChange (r : nat) (f : list A -> list A)
  | RModel (r : nat).

  Definition sref_step (s : srefs) (o : sref_op) : srefs :=
    match o with
    | RNew l => mkSR (sr_heap s ++ [l]) (sr_min s) (sr_max s) (sr_coef s) (sr_model s)
    | RChange r f => mkSR (set_at r (f (sr_list s r)) (sr_heap s)) (sr_min s) (sr_max s) (sr_coef s) (sr_model s)
    | RModel r => mkSR (sr_heap s) (sr_min s) (sr_max s) (sr_coef s) (Some (r, (List.length (sr_list s r) - 1)%nat))
    end.
  Definition sref_run (s : srefs) (h : list sref_op) : srefs := fold_left sref_step h s.

  (** synthetic.py:7-31 __init__ with list r of the caller; the limits must be floats in
      order (synthetic.py:22). *)
  Definition sref_init (h : list (list A)) (lo hi : A) (r : nat) : res srefs :=
    if lo <' hi then Ok (mkSR h lo hi (Some r) (Some (r, (List.length (nth r h []) - 1)%nat)))
    else Raise RuntimeError.

  (** self.model(x) now, models.py:19-25: reads the list as it is now with the degree of
      then.  The indices read are -1 and degree - 1, ..., 0. *)
  Definition model_now (s : srefs) (x : A) : res A :=
    match sr_model s with
    | None => Raise TypeError
    | Some (r, d) =>
        let a := sr_list s r in
        if Nat.eqb (List.length a) 0 then Raise IndexError
        else if Nat.ltb (List.length a) d then Raise IndexError
        else Ok (poly_at a d x)
    end.

  (** get_pixels now, synthetic.py:94-118; [inv] is pynverse.inversefunc. *)
  Definition pixels_now (inv : (A -> res A) -> list A -> res (list A)) (s : srefs) (w : list A)
    : res (list A * list A) :=
    let w := filter (fun x => sr_min s <' x) w in
    let w := filter (fun x => x <' sr_max s) w in
    let coef (i : nat) : res A :=
      match sr_coef s with
      | None => Raise AttributeError
      | Some r => match nth_error (sr_list s r) i with Some v => Ok v | None => Raise IndexError end
      end in
    bind (match sr_model s with
          | Some (_, 0%nat) => bind (coef 0%nat) (fun c0 => Ok (map (fun _ => c0 *' nZ 1) w))
          | Some (_, 1%nat) => bind (coef 0%nat) (fun c0 => bind (coef 1%nat) (fun c1 =>
                                 Ok (map (fun x => (x -' c0) /' c1) w)))
          | _ => inv (model_now s) w
          end) (fun px => Ok (px, w)).
End SynthRefs.

Arguments srefs A : clear implicits.
Arguments sref_op A : clear implicits.

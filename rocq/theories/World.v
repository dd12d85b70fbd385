(** * World: several Calibrators and the Atlas objects they refer to.

    In Calib.v an atlas is a value held by the calibrator.  In python
    [self.atlas] is a reference, and [set_atlas] (calibrator.py:1399-1423) stores
    the caller's object without a copy; here the objects are explicit. *)

From Coq Require Import ZArith Bool List String.
From Verif Require Import Num Py Np Util Atlas Hough Calib SpecCalib.
Import ListNotations.

Section World.
  Context {A : Type} {N : Num A}.

  Fixpoint put_nth {T} (l : list T) (n : nat) (v : T) : list T :=
    match l, n with
    | [], _ => []
    | _ :: r, O => v :: r
    | x :: r, S k => x :: put_nth r k v
    end.

  (** The Atlas objects by address, and each Calibrator with the address of its
      atlas (calibrator.py:51 self.atlas; None at first). *)
  Record world : Type := mkW { w_heap : list (atlas A); w_cals : list (calib A * option nat) }.

  (** The calibrator as its methods see it: with the atlas behind the reference. *)
  Definition view (w : world) (i : nat) : option (calib A) :=
    match nth_error (w_cals w) i with
    | None => None
    | Some (c, None) => Some (set_c_atlas None c)
    | Some (c, Some r) => Some (set_c_atlas (nth_error (w_heap w) r) c)
    end.

  (** Calls: a method of calibrator i other than set_atlas; set_atlas with an Atlas
      made for the purpose, which nobody else refers to; set_atlas with the existing
      object r; a change of object r by its owner (atlas.py:30-353). *)
  Inductive world_op : Type :=
  | WCall (i : nat) (o : cal_op A)
  | WSetOwn (i : nat) (a : atlas A) (cand_tol : A) (constrain : bool)
  | WSetShared (i r : nat) (cand_tol : A) (constrain : bool)
  | WAtlas (r : nat) (f : atlas A -> atlas A).

  (** Methods change the Atlas object in place; one that finds no atlas may create it
      (calibrator.py:1300-1313, 1381-1382). *)
  Definition store (w : world) (i : nat) (r : option nat) (c : calib A) : world :=
    match r, c_atlas c with
    | Some r, Some a => mkW (put_nth (w_heap w) r a) (put_nth (w_cals w) i (c, Some r))
    | None, Some a => mkW (w_heap w ++ [a])%list (put_nth (w_cals w) i (c, Some (List.length (w_heap w))))
    | r, None => mkW (w_heap w) (put_nth (w_cals w) i (c, r))
    end.

  Definition world_step (e : env A) (w : world) (o : world_op) : world * option (res unit) :=
    match o with
    | WCall i (OSetAtlas _ _ _) => (w, None)
    | WCall i o =>
        match view w i, nth_error (w_cals w) i with
        | Some c, Some (_, r) => let (c', x) := cal_step e c o in (store w i r c', Some x)
        | _, _ => (w, None)
        end
    | WSetOwn i a ct k =>
        match view w i with
        | Some c => let (c', x) := cal_step e c (OSetAtlas a ct k) in (store w i None c', Some x)
        | None => (w, None)
        end
    | WSetShared i r ct k =>
        match view w i, nth_error (w_heap w) r with
        | Some c, Some a => let (c', x) := cal_step e c (OSetAtlas a ct k) in (store w i (Some r) c', Some x)
        | _, _ => (w, None)
        end
    | WAtlas r f =>
        match nth_error (w_heap w) r with
        | Some a => (mkW (put_nth (w_heap w) r (f a)) (w_cals w), None)
        | None => (w, None)
        end
    end.

  Definition world_run (e : env A) (w : world) (h : list world_op) : world :=
    fold_left (fun w o => fst (world_step e w o)) h w.

  (** The calls among [h] that are addressed to calibrator i, as calls to a calibrator
      that has the world to itself. *)
  Definition addressed (i : nat) (o : world_op) : list (cal_op A) :=
    match o with
    | WCall j (OSetAtlas _ _ _) => []
    | WCall j o => if Nat.eqb i j then [o] else []
    | WSetOwn j a ct k => if Nat.eqb i j then [OSetAtlas a ct k] else []
    | _ => []
    end.

  (** Calls that share no Atlas object. *)
  Definition unshared (o : world_op) : bool :=
    match o with WCall _ _ | WSetOwn _ _ _ _ => true | _ => false end.

  (** Different calibrators refer to different, existing Atlas objects. *)
  Definition separate (w : world) : Prop :=
    (forall i c r, nth_error (w_cals w) i = Some (c, Some r) -> r < List.length (w_heap w)) /\
    (forall i j c d r, nth_error (w_cals w) i = Some (c, Some r) -> nth_error (w_cals w) j = Some (d, Some r) -> i = j).
End World.
Arguments world A : clear implicits.
Arguments world_op A : clear implicits.

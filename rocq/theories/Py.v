(** * Py: python values that the model needs: exceptions, results, small list
    helpers.  (Models python itself, not a file of /repo.) *)

From Coq Require Import ZArith Bool List String Ascii Lia.
Import ListNotations.

(** The exception classes raised by the code or by numpy on its behalf. *)
Inductive exn : Type :=
| ValueError | TypeError | IndexError | KeyError | AssertionError
| AttributeError | ZeroDivisionError | UnboundLocalError | FileNotFoundError
| LinAlgError | RuntimeError | OverflowError.

Inductive res (T : Type) : Type :=
| Ok (x : T)
| Raise (e : exn).
Arguments Ok {T} x.
Arguments Raise {T} e.

Definition bind {T U} (r : res T) (f : T -> res U) : res U :=
  match r with Ok x => f x | Raise e => Raise e end.

Declare Scope py_scope.
Delimit Scope py_scope with py.
Notation "x <- e1 ;; e2" := (bind e1 (fun x => e2))
  (at level 61, e1 at next level, right associativity) : py_scope.
Notation "'check' b 'else' e ;; k" := (if b then k else Raise e)
  (at level 61, b at next level, e at next level, right associativity) : py_scope.

Definition is_ok {T} (r : res T) : bool := match r with Ok _ => true | _ => false end.

(** Python's [x or default] on optional arguments: [None] keeps [d]. *)
Definition oget {T} (d : T) (o : option T) : T := match o with Some x => x | None => d end.

(** Membership of a string in a list of strings ([s in l]). *)
Definition str_in (s : string) (l : list string) : bool := existsb (String.eqb s) l.

(** str.lower() on ASCII. *)
Definition lower_ascii (c : ascii) : ascii :=
  let n := nat_of_ascii c in
  if (Nat.leb 65 n && Nat.leb n 90)%bool then ascii_of_nat (n + 32) else c.
Fixpoint str_lower (s : string) : string :=
  match s with
  | EmptyString => EmptyString
  | String c r => String (lower_ascii c) (str_lower r)
  end.

(** list(s) of a str: one-character strings. *)
Fixpoint str_chars (s : string) : list string :=
  match s with
  | EmptyString => []
  | String c r => String c EmptyString :: str_chars r
  end.

(** s.split("+"): cut at every '+' (an empty string gives [""]). *)
Fixpoint split_plus (s : string) : list string :=
  match s with
  | EmptyString => [EmptyString]
  | String c r =>
      if Ascii.eqb c "+"%char then EmptyString :: split_plus r
      else match split_plus r with
           | [] => [String c EmptyString]
           | h :: t => String c h :: t
           end
  end.

(** s[-k:] *)
Definition str_last (k : nat) (s : string) : string :=
  let n := String.length s in
  if Nat.leb n k then s else String.substring (n - k) k s.

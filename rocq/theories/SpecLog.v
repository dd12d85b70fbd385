(** * SpecLog: the level last asked for, and programs that leave a logger alone. *)

From Coq Require Import Bool List String Ascii Arith.
From Verif Require Import Py Log.
Import ListNotations.
Local Open Scope string_scope.
Local Open Scope list_scope.

(** The logger and level an operation asks for, given how many calibrators there are. *)
Definition asks (n : nat) (p : log_op) : option (string * nat) :=
  match p with
  | LNew => Some ("Calibrator", 30)
  | LSet i name level =>
      if Nat.ltb i n then
        match level_number (or_default level "warning") with
        | Ok v => Some (or_default name "Calibrator", v)
        | Raise _ => None
        end
      else None
  | LHandler _ => None
  end.
Definition grow (n : nat) (p : log_op) : nat := match p with LNew => S n | _ => n end.

(** The level last asked for by any calibrator for the logger [name], [v] if none was. *)
Fixpoint last_asked (n : nat) (name : string) (v : nat) (h : list log_op) : nat :=
  match h with
  | [] => v
  | p :: r =>
      last_asked (grow n p) name
        (match asks n p with Some (m, u) => if String.eqb m name then u else v | None => v end) r
  end.

(** The operation does not concern the logger [name] or calibrator [i]. *)
Definition leaves (i : nat) (name : string) (p : log_op) : Prop :=
  match p with
  | LNew => name <> "Calibrator"
  | LSet j n _ => j <> i /\ or_default n "Calibrator" <> name
  | LHandler n => n <> name
  end.

(** No handler of the program's own. *)
Definition no_handlers (h : list log_op) : Prop := forall n, ~ In (LHandler n) h.

(** The names of the levels, with their numbers; two strings that differ at most in the case
    of letters. *)
Definition level_names : list (string * nat) :=
  [("critical", 50); ("fatal", 50); ("error", 40); ("warning", 30); ("warn", 30); ("info", 20); ("debug", 10);
   ("notset", 0)].
Definition same_letter (c d : ascii) : Prop :=
  c = d \/
  exists k, k < 26 /\
    ((nat_of_ascii c = 97 + k /\ nat_of_ascii d = 65 + k) \/ (nat_of_ascii c = 65 + k /\ nat_of_ascii d = 97 + k)).
Fixpoint same_word (s t : string) : Prop :=
  match s, t with
  | EmptyString, EmptyString => True
  | String c r, String d q => same_letter c d /\ same_word r q
  | _, _ => False
  end.

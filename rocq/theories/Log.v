(** * Log: the loggers of calibrators, /repo/src/rascal/calibrator.py:34-35, 859-908.

    python's logging keeps one logger per name for the whole program; the model of the
    program's state is the table of loggers with, for each calibrator, its attributes logger
    and log_level.  Names are taken not to contain a dot and not to be "root" (the parent of
    such a logger is the root logger). *)

From Coq Require Import Bool List String Ascii Arith Lia.
From Verif Require Import Py.
Import ListNotations.
Local Open Scope string_scope.
Local Open Scope list_scope.

(** str.upper() on ASCII. *)
Definition upper_char (c : ascii) : ascii :=
  let n := nat_of_ascii c in
  if (Nat.leb 97 n && Nat.leb n 122)%bool then ascii_of_nat (n - 32) else c.
Fixpoint upper (s : string) : string :=
  match s with EmptyString => EmptyString | String c r => String (upper_char c) (upper r) end.

(** logging.getLevelName(log_level.upper()), then setLevel: the number of the level; a name
    that is not known becomes the str "Level ...", which setLevel rejects with ValueError
    (calibrator.py:895-896). *)
Definition level_number (s : string) : res nat :=
  let u := upper s in
  if String.eqb u "CRITICAL" || String.eqb u "FATAL" then Ok 50
  else if String.eqb u "ERROR" then Ok 40
  else if String.eqb u "WARNING" || String.eqb u "WARN" then Ok 30
  else if String.eqb u "INFO" then Ok 20
  else if String.eqb u "DEBUG" then Ok 10
  else if String.eqb u "NOTSET" then Ok 0
  else Raise ValueError.

(** A logger: its level (0: not set) and the number of its handlers; every logger a
    calibrator uses has propagate = False. *)
Record logger : Type := mkLogger { lg_level : nat; lg_handlers : nat }.

(** logging.getLogger: the table of loggers; one that is asked for the first time has no
    level and no handlers. *)
Definition loggers : Type := string -> logger.
Definition no_loggers : loggers := fun _ => mkLogger 0 0.
Definition put (t : loggers) (name : string) (l : logger) : loggers :=
  fun n => if String.eqb n name then l else t n.

(** A calibrator: the name of self.logger, and self.log_level. *)
Record cal_log : Type := mkCL { cl_logger : string; cl_level : option nat }.
Record log_world : Type := mkLW { lw_loggers : loggers; lw_cals : list cal_log }.

(** calibrator.py:892-908: the first lines of set_calibrator_properties. *)
Definition start_log (t : loggers) (k : cal_log) (name level : string) : loggers * cal_log * res unit :=
  match level_number level with
  | Raise e => (t, mkCL name (cl_level k), Raise e)
  | Ok v =>
      let l := t name in
      (put t name (mkLogger v (if Nat.eqb (lg_handlers l) 0 then 1 else lg_handlers l)), mkCL name (Some v), Ok tt)
  end.

(** What a program does: creates a Calibrator (whose constructor calls
    set_calibrator_properties() with the defaults of calibrator.py:865-866), calls
    set_calibrator_properties of a calibrator with a logger name and level (None: not given),
    or adds a handler of its own to a logger. *)
Inductive log_op : Type :=
| LNew
| LSet (i : nat) (name level : option string)
| LHandler (name : string).

Definition or_default (o : option string) (d : string) : string := match o with Some s => s | None => d end.

Definition replace {T} (l : list T) (i : nat) (v : T) : list T := firstn i l ++ v :: skipn (S i) l.

Definition log_step (w : log_world) (p : log_op) : log_world :=
  match p with
  | LNew =>
      let '(t, k, _) := start_log (lw_loggers w) (mkCL "" None) "Calibrator" "warning" in
      mkLW t (lw_cals w ++ [k])
  | LSet i name level =>
      match nth_error (lw_cals w) i with
      | None => w
      | Some k =>
          let '(t, k', _) := start_log (lw_loggers w) k (or_default name "Calibrator") (or_default level "warning") in
          mkLW t (replace (lw_cals w) i k')
      end
  | LHandler name =>
      let l := lw_loggers w name in
      mkLW (put (lw_loggers w) name (mkLogger (lg_level l) (S (lg_handlers l)))) (lw_cals w)
  end.
Definition log_run (w : log_world) (h : list log_op) : log_world := fold_left log_step h w.
Definition log_start : log_world := mkLW no_loggers [].

(** How often a message of severity [sev] of calibrator [i] is written (by every handler of
    its logger, if the level allows; python's handler of last resort writes warnings when
    there is none).  [root]: the level of the root logger, which counts when none is set. *)
Definition written (root : nat) (w : log_world) (i : nat) (sev : nat) : option nat :=
  match nth_error (lw_cals w) i with
  | None => None
  | Some k =>
      let l := lw_loggers w (cl_logger k) in
      let eff := if Nat.eqb (lg_level l) 0 then root else lg_level l in
      Some (if Nat.leb eff sev
            then (if Nat.eqb (lg_handlers l) 0 then (if Nat.leb 30 sev then 1 else 0) else lg_handlers l)
            else 0)
  end.

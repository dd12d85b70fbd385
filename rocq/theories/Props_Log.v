(** * Props_Log: property theorems only.  The proofs are in Main_Log.v. *)

From Coq Require Import Bool List String Ascii Arith Lia.
From Verif Require Import Py Log SpecLog.
From Verif Require Import Main_Log.
Import ListNotations.
Local Open Scope string_scope.
Local Open Scope list_scope.

(** Whatever calibrators are created and configured, in any order and number, no message is
    written twice; and a message of a calibrator whose last configuration was accepted is
    written exactly once if the level of its logger allows it, and not at all otherwise. *)
Theorem log_once :
  forall (root : nat) (h : list log_op),
    no_handlers h ->
    (forall i sev n, written root (log_run log_start h) i sev = Some n -> n <= 1) /\
    (forall i name level v, i < List.length (lw_cals (log_run log_start h)) ->
       level_number (or_default level "warning") = Ok v -> v <> 0 ->
       forall sev, written root (log_run log_start (h ++ [LSet i name level])) i sev = Some (if Nat.leb v sev then 1 else 0)).
Proof. exact log_once_main. Qed.
Print Assumptions log_once.

(** The level of a logger is the one last asked for under its name, by whichever calibrator. *)
Theorem log_level_last :
  forall (h : list log_op) (name : string),
    lg_level (lw_loggers (log_run log_start h) name) = last_asked 0 name 0 h.
Proof. exact log_level_last_main. Qed.
Print Assumptions log_level_last.

(** A calibrator with a logger of its own: as long as no other call names this logger and
    the calibrator is not configured again, its messages are written as before. *)
Theorem log_level_kept_partial :
  forall (root : nat) (w : log_world) (i : nat) (k : cal_log) (h : list log_op),
    nth_error (lw_cals w) i = Some k -> Forall (leaves i (cl_logger k)) h ->
    forall sev, written root (log_run w h) i sev = written root w i sev.
Proof. exact log_level_kept_partial_main. Qed.
Print Assumptions log_level_kept_partial.

(** The level chosen for a calibrator does not stay.  In any program: creating another
    calibrator, or configuring the same one again for another reason, puts the level back to
    warning; and the level chosen for one calibrator applies to all that were configured with
    the same (default) logger name. *)
Theorem log_level_kept_refuted :
  forall (root : nat) (h : list log_op) (i : nat) (level : string) (v : nat),
    no_handlers h -> i < List.length (lw_cals (log_run log_start h)) -> level_number level = Ok v -> 0 < v < 30 ->
    let w := log_run log_start (h ++ [LSet i None (Some level)]) in
    written root w i v = Some 1 /\
    written root (log_step w LNew) i v = Some 0 /\
    written root (log_step w (LSet i None None)) i v = Some 0 /\
    (forall j k, nth_error (lw_cals w) j = Some k -> cl_logger k = "Calibrator" -> written root w j v = Some 1).
Proof. exact log_level_kept_refuted_main. Qed.
Print Assumptions log_level_kept_refuted.

(** A level that is not known raises ValueError, in any spelling of upper and lower case;
    the calibrator then writes to the logger asked for although it was not configured: under a
    new name its messages up to the level of the root logger go unformatted to python's handler
    of last resort. *)
Theorem log_level_rejected :
  forall (w : log_world) (i : nat) (k : cal_log) (name level : string),
    nth_error (lw_cals w) i = Some k -> level_number level = Raise ValueError ->
    snd (start_log (lw_loggers w) k name level) = Raise ValueError /\
    lw_loggers (log_step w (LSet i (Some name) (Some level))) = lw_loggers w /\
    nth_error (lw_cals (log_step w (LSet i (Some name) (Some level)))) i = Some (mkCL name (cl_level k)).
Proof. exact log_level_rejected_main. Qed.
Print Assumptions log_level_rejected.

(** A level is accepted exactly when it is one of the names of levels, in whatever case, and
    stands for that name's number; anything else raises ValueError. *)
Theorem log_level_names :
  forall (s : string),
    (forall v, level_number s = Ok v <-> exists name, In (name, v) level_names /\ same_word s name) /\
    (forall e, level_number s = Raise e <-> e = ValueError /\ forall name v, In (name, v) level_names -> ~ same_word s name).
Proof. exact log_level_names_main. Qed.
Print Assumptions log_level_names.

(** Two calibrators; the first is to write everything from debug on. *)
Example log_level_example :
  let w := log_run log_start [LNew; LNew; LSet 0 None (Some "Debug"); LSet 1 (Some "mine") (Some "error")] in
  map (written 30 w 0) [10; 20; 40] = [Some 1; Some 1; Some 1] /\
  map (written 30 w 1) [10; 20; 40] = [Some 0; Some 0; Some 1] /\
  level_number "verbose" = Raise ValueError /\
  Forall (leaves 1 "mine") [LNew; LSet 0 None None].
Proof. exact log_level_example_main. Qed.

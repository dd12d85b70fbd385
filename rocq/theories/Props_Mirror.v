(** * Props_Mirror: property theorems only.  The proofs are in Main_Mirror.v. *)

From Coq Require Import ZArith Bool List String Lia Arith.
From Verif Require Import Num F64 Py Np NpFacts Util SpecUtil ArgsortFacts.
From Verif Require Import Atlas SpecAtlas AtlasFacts Main_Atlas Hough Calib SpecCalib CalibFacts Main_Calib SpecAdd SpecMirror.
From Verif Require Import Main_Mirror.
Import ListNotations.
Local Open Scope string_scope.
Local Open Scope list_scope.
Local Open Scope num_scope.

(** C128: the limits with which Atlas.add works by default.  Only an accepted
    add_user_atlas changes them; rejected calls, Atlas.add, removals and clear do not. *)
Theorem atlas_limits_kept :
  forall (A : Type) (N : Num A) argsort (cat : catalogue A) lo hi tol (h : list (atlas_op A)),
    Forall (fun o => ~ accepted o) h ->
    let s := atlas_run argsort cat (mkAtlas [] lo hi tol) h in
    at_min s = lo /\ at_max s = hi /\ at_range_tol s = tol.
Proof. exact atlas_limits_kept_main. Qed.
Print Assumptions atlas_limits_kept.

(** C128: otherwise they are the extremes of the last accepted user list; the range
    tolerance never changes. *)
Theorem atlas_limits_last :
  forall (A : Type) (N : Num A) (O : NumOrder A) argsort (cat : catalogue A) s0 h1 u h2 rows,
    supplied u rows -> (forall r, In r rows -> nisnan (snd (fst r)) = false) ->
    Forall (fun o => ~ accepted o) h2 ->
    let s := atlas_run argsort cat s0 (h1 ++ OpUser u :: h2) in
    In (at_min s) (map (fun r => snd (fst r)) rows) /\
    In (at_max s) (map (fun r => snd (fst r)) rows) /\
    (forall r, In r rows -> at_min s <=' snd (fst r) = true /\ snd (fst r) <=' at_max s = true) /\
    at_range_tol s = at_range_tol s0.
Proof. exact atlas_limits_last_main. Qed.
Print Assumptions atlas_limits_last.

(** C128: clear empties the atlas and nothing else: a later Atlas.add loads what it would
    have appended to the uncleared atlas, with the same outcome. *)
Theorem cleared_atlas_refills :
  forall (A : Type) (N : Num A) argsort (cat : catalogue A) (s : atlas A) (a : add_args A),
    at_lines (atlas_clear s) = [] /\
    snd (atlas_add argsort cat (atlas_clear s) a) = snd (atlas_add argsort cat s a) /\
    at_lines (fst (atlas_add argsort cat s a)) =
      at_lines s ++ at_lines (fst (atlas_add argsort cat (atlas_clear s) a)).
Proof. exact cleared_atlas_refills_main. Qed.
Print Assumptions cleared_atlas_refills.

Example atlas_limits_example :
  Forall (fun o => ~ accepted o) lim_history1 /\
  supplied lim_user [("Hg", fz 40, fz 0); ("Ar", fz 20, fz 0)] /\
  (forall r : row f64, In r [("Hg", fz 40, fz 0); ("Ar", fz 20, fz 0)] -> nisnan (snd (fst r)) = false) /\
  let s := atlas_run argsort_stable no_cat (mkAtlas [] (fz 3000) (fz 5000) (fz 500)) (lim_history1 ++ OpUser lim_user :: lim_history1) in
  at_min s = fz 20 /\ at_max s = fz 40 /\ at_lines s = [].
Proof. exact atlas_limits_example_main. Qed.

(** C129: once a calibrator has an atlas, any further history of calls (accepted or not)
    leaves in it exactly what the corresponding calls on an Atlas object leave. *)
Theorem calibrator_atlas_mirror :
  forall (A : Type) (N : Num A) (e : env A) peaks spectrum c0 h1 h2 s,
    calib_init (e_hull e) peaks spectrum = Ok c0 ->
    c_atlas (cal_run e c0 h1) = Some s ->
    Forall (fun o => forall a t k, o <> OSetAtlas a t k) h2 ->
    exists ops, atlas_calls e (cal_run e c0 h1) h2 ops /\
      c_atlas (cal_run e c0 (h1 ++ h2)) = Some (atlas_run (e_argsort e) (e_cat e) s ops).
Proof. exact calibrator_atlas_mirror_main. Qed.
Print Assumptions calibrator_atlas_mirror.

(** C129: set_atlas, in any state and whether or not it succeeds, starts anew with the
    atlas it is given. *)
Theorem set_atlas_history :
  forall (A : Type) (N : Num A) (e : env A) peaks spectrum c0 h1 a t k h2,
    calib_init (e_hull e) peaks spectrum = Ok c0 ->
    Forall (fun o => forall a t k, o <> OSetAtlas a t k) h2 ->
    exists ops, atlas_calls e (cal_run e c0 (h1 ++ [OSetAtlas a t k])) h2 ops /\
      c_atlas (cal_run e c0 (h1 ++ OSetAtlas a t k :: h2)) = Some (atlas_run (e_argsort e) (e_cat e) a ops).
Proof. exact set_atlas_history_main. Qed.
Print Assumptions set_atlas_history.

(** C129: a new calibrator that is given lines by add_user_atlas only lists, after any
    history, exactly the rows the history supplied and did not remove (the
    specification [contents] of C35). *)
Theorem calibrator_lines_history :
  forall (A : Type) (N : Num A) (e : env A) peaks spectrum c0 h,
    calib_init (e_hull e) peaks spectrum = Ok c0 ->
    Forall (fun o => match o with OSetAtlas _ _ _ | OAddAtlas _ _ _ => False | _ => True end) h ->
    contents (flat_map own_lines_call h) (map row_of (lines_of (cal_run e c0 h))).
Proof. exact calibrator_lines_history_main. Qed.
Print Assumptions calibrator_lines_history.

Example calibrator_atlas_example :
  Forall (fun o => match o with OSetAtlas _ _ _ | OAddAtlas _ _ _ => False | _ => True end) mirror_history /\
  match calib_init all_inside [fz 10; fz 20] None return Prop with
  | Ok c0 => map row_of (lines_of (cal_run env0 c0 mirror_history)) = [("Hg", fz 40, fz 0); ("Xe", fz 90, fz 0)] /\
      exists s, c_atlas (cal_run env0 c0 (firstn 2 mirror_history)) = Some s
  | Raise _ => False
  end.
Proof. exact calibrator_atlas_example_main. Qed.

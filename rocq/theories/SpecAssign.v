(** * SpecAssign: what a call of match_peaks, manual_refit, add_pix_wave_pair or
    remove_pix_wave_pair may change, and its states when it is interrupted. *)

From Coq Require Import ZArith Bool List.
From Verif Require Import Num Py Np Util Models Atlas Hough PolyEval Calib Cand Ransac MatchPeaks SpecMatch AssignSteps.
Import ListNotations.

(** The calls. *)
Inductive result_call (A : Type) : Type :=
| CMatch (a : match_args A) | CRefit (a : refit_args A) | CEdit (e : @edit_op A).
Arguments CMatch {A}. Arguments CRefit {A}. Arguments CEdit {A}.

(** The state a call leaves behind. *)
Definition call_state {A : Type} {N : Num A} (o : oracle A) (mini : minimiser A) (c : calib A) (k : result_call A) : calib A :=
  match k with
  | CMatch a => fst (match_peaks o mini c a)
  | CRefit a => fst (manual_refit o c a)
  | CEdit e => fst (edit_step c e)
  end.

(** Its assignments, and the calibrator when it is interrupted after the first n. *)
Definition call_steps {A : Type} {N : Num A} (o : oracle A) (mini : minimiser A) (c : calib A) (k : result_call A)
  : list (assign A) :=
  match k with
  | CMatch a => match_steps o mini c a
  | CRefit a => refit_steps o c a
  | CEdit (EAdd p w) => add_steps c p w
  | CEdit (ERemove i) => remove_steps c i
  end.
Definition stopped {A : Type} {N : Num A} (o : oracle A) (mini : minimiser A) (c : calib A) (k : result_call A) (n : nat)
  : calib A := do_assigns (firstn n (call_steps o mini c k)) c.

(** Everything but the solution: the data, the atlas, the settings, the candidate pairs,
    the search space, the kind and degree of polynomial. *)
Definition all_but_solution_kept {A : Type} (c d : calib A) : Prop :=
  c_peaks d = c_peaks c /\ c_spectrum d = c_spectrum c /\ c_atlas d = c_atlas c /\ c_known d = c_known c /\
  c_gp d = c_gp c /\ c_hp d = c_hp c /\ c_rp d = c_rp c /\ c_cand_tol d = c_cand_tol c /\
  c_constrain d = c_constrain c /\ c_pairs d = c_pairs c /\ c_ht d = c_ht c /\ c_lines d = c_lines c /\
  c_points d = c_points c /\ c_kind d = c_kind c /\ c_deg d = c_deg c /\ c_resid d = c_resid c.

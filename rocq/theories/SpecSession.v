(** * SpecSession: sessions of all calls of a Calibrator. *)

From Coq Require Import ZArith Bool List.
From Verif Require Import Num Py Np Util Models Atlas Hough PolyEval Calib SpecCalib Cand Ransac Fit SpecFit MatchPeaks SpecMatch Plot.
Import ListNotations.

Section Spec.
  Context {A : Type} {N : Num A}.

  (** A call: one that configures the calibrator; fit, match_peaks and manual_refit, with
      what the libraries and the random generator do during that call; the editing of the
      matched pairs; plot_fit.  (plot_arc, plot_search_space, listings and saving do not
      change the calibrator.) *)
  Inductive call : Type :=
  | Configure (op : cal_op A)
  | Fit (o : oracle A) (fuel : nat) (a : fit_args A)
  | MatchPeaks (o : oracle A) (mini : minimiser A) (a : match_args A)
  | Edit (op : edit_op A)
  | Refit (o : oracle A) (a : refit_args A)
  | PlotFit (a : plot_fit_args A).

  Definition done {T} (r : res T) : res unit := match r with Ok _ => Ok tt | Raise e => Raise e end.

  (** The calibrator after the call, and whether it raised; None if fit did not end. *)
  Definition call_step (e : env A) (c : calib A) (k : call) : option (calib A * res unit) :=
    match k with
    | Configure op => Some (cal_step e c op)
    | Fit o fuel a => match fit o fuel c a with Some (c', r) => Some (c', done r) | None => None end
    | MatchPeaks o mini a => let (c', r) := match_peaks o mini c a in Some (c', done r)
    | Edit op => Some (edit_step c op)
    | Refit o a => let (c', r) := manual_refit o c a in Some (c', done r)
    | PlotFit a => let '(c', _, r) := plot_fit c a in Some (c', done r)
    end.

  (** The calibrator after a session whose exceptions the caller catches. *)
  Fixpoint session_run (e : env A) (c : calib A) (ks : list call) : option (calib A) :=
    match ks with
    | [] => Some c
    | k :: r => match call_step e c k with Some (c', _) => session_run e c' r | None => None end
    end.

  (** No selected call of the session raises. *)
  Fixpoint none_raises (sel : call -> bool) (e : env A) (c : calib A) (ks : list call) : Prop :=
    match ks with
    | [] => True
    | k :: r =>
        match call_step e c k with
        | Some (c', v) => (sel k = true -> v = Ok tt) /\ none_raises sel e c' r
        | None => True
        end
    end.
  Definition is_match (k : call) : bool := match k with MatchPeaks _ _ _ => true | _ => false end.

  (** The calls that configure the calibrator. *)
  Fixpoint configuration (ks : list call) : list (cal_op A) :=
    match ks with
    | [] => []
    | Configure op :: r => op :: configuration r
    | _ :: r => configuration r
    end.

  (** Equal but for the Hough transform, the results, sample_size and minimum_matches; the
      values of the spectrum may differ. *)
  Definition same_settings (c d : calib A) : Prop :=
    c_peaks d = c_peaks c /\ c_atlas d = c_atlas c /\ c_known d = c_known c /\ c_gp d = c_gp c /\ c_hp d = c_hp c /\
    c_cand_tol d = c_cand_tol c /\ c_constrain d = c_constrain c /\ c_pairs d = c_pairs c /\ same_ransac c d /\
    option_map (@length A) (c_spectrum d) = option_map (@length A) (c_spectrum c).
End Spec.
Arguments call A : clear implicits.

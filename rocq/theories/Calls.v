(** * Calls: the trial fits made during Calibrator.fit, in the order they are made.
    These are the calls of numpy's polynomial.fit, legendre.fit or chebyshev.fit at
    calibrator.py:572-577, which are visible from outside; nothing in the code depends
    on them being recorded. *)

From Coq Require Import ZArith Bool List.
From Verif Require Import Num Py Np PolyEval Calib Cand Ransac Fit.
Import ListNotations.
Local Open Scope num_scope.

Section Calls.
  Context {A : Type} {N : Num A}.

  (** calibrator.py:382-752: the data of the trial fits of one search, also if it ends
      with an exception or (fuel) has not ended yet. *)
  Definition solve_calls (o : oracle A) (fuel : nat) (c : calib A) (deg max_tries : nat) (coeff : option (list A))
      (ctol : A) (brute : bool) : list (list A * list A) :=
    match ransac_candidates o c ctol with
    | Raise _ => []
    | Ok _ =>
        let c1 := set_c_deg (Some deg) c in
        match ransac_xy o c1 ctol with
        | Raise _ => []
        | Ok (x, y) =>
            if Nat.leb (List.length (np_unique x)) deg then [] else
            match r_sample (c_rp c1) with
            | None => []
            | Some size =>
                match ransac_setup o c1 x y deg size max_tries coeff brute with
                | Raise _ => []
                | Ok (f, samples, s0) =>
                    match run_samples o fuel f s0 samples with
                    | Done s | Fail s _ | Out s => rev (s_log s)
                    end
                end
            end
        end
    end.

  (** calibrator.py:1552-1715: the data of the trial fits made by fit. *)
  Definition fit_calls (o : oracle A) (fuel : nat) (c : calib A) (a : fit_args A) : list (list A * list A) :=
    match fa_coeff a with
    | Some [] => []
    | _ =>
        match fit_begin c a with
        | (_, Raise _) => []
        | (c1, Ok _) =>
            match fit_prepare o c1 a with
            | (_, Raise _) => []
            | (c2, Ok _) =>
                solve_calls o fuel c2 (degree_used a) (fa_tries a) (c_coeff c2) (fa_ctol a) (fa_brute a)
            end
        end
    end.

  (** calibrator.py:426-464, 1610-1683: the candidates fit searches among, i.e. the
      attributes candidate_peak and candidate_arc after the call (without the close
      lines, if filter_close is set); None if it raises before. *)
  Definition fit_candidates (o : oracle A) (c : calib A) (a : fit_args A) : option (list A * list A) :=
    match fit_begin c a with
    | (_, Raise _) => None
    | (c1, Ok _) =>
        match fit_prepare o c1 a with
        | (_, Raise _) => None
        | (c2, Ok _) => match ransac_xy o c2 (fa_ctol a) with Ok q => Some q | Raise _ => None end
        end
    end.
End Calls.

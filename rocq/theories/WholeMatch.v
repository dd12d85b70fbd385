(** * WholeMatch: match_peaks with its coefficients in an integer array, for instance
    np.array([3000, 2]).  fit_coeff.copy() (calibrator.py:782, 1795) is then an integer
    array too, and an element assigned to loses its decimals. *)

From Coq Require Import ZArith Bool List Lia.
From Verif Require Import Num Py Np Util Models Atlas Hough PolyEval Calib Cand Ransac Fit MatchPeaks Whole.
Import ListNotations.
Local Open Scope num_scope.

Section WholeMatch.
  Context {A : Type} {N : Num A}.

  (** calibrator.py:786-787, 1812-1813: fit_new[i] += d on an integer array. *)
  Fixpoint add_delta_ints (fit : list Z) (delta : list A) : res (list Z) :=
    match delta, fit with
    | [], _ => Ok fit
    | _ :: _, [] => Raise IndexError
    | d :: ds, f :: fs =>
        bind (cut (nZ f +' d)) (fun z => bind (add_delta_ints fs ds) (fun r => Ok (z :: r)))
    end.

  (** calibrator.py:754-820 _adjust_polyfit: after the loop of 786-787 it does what it does
      for floats (polyval takes integers as floats). *)
  Definition adjust_ints (c : calib A) (delta : list A) (fit : list Z) (tol min_frac : A) : res A :=
    match c_atlas c with
    | None => Raise AttributeError
    | Some _ => bind (add_delta_ints fit delta) (fun co => snd (adjust_polyfit c [] (map nZ co) tol min_frac))
    end.

  (** calibrator.py:1794-1821: refine.  An integer array holds no NaN. *)
  Definition refine_ints (mini : minimiser A) (c : calib A) (fit : list Z) (nd : option Z) (tol frac : A)
    : res (list Z) :=
    let n := oget (Z.of_nat (length fit) - 1)%Z nd in
    bind (mini (fun d => adjust_ints c d fit tol frac)
               (map (fun z => nZ z *' nlit 1 (-3)) (slice_to fit n))) (fun d => add_delta_ints fit d).

  (** calibrator.py:1717-1956 match_peaks(fit_coeff=<integer array>); the other arguments
      are those of [a].  The refined coefficients are stored as floats here. *)
  Definition match_peaks_ints (o : oracle A) (mini : minimiser A) (c : calib A) (fit : list Z) (a : match_args A)
    : calib A * res (match_value A) :=
    match fit with
    | [] => (c, Raise IndexError)
    | _ =>
        let deg := oget (length fit - 1)%nat (ma_deg a) in
        match (if ma_refine a
               then bind (refine_ints mini c fit (ma_ndelta a) (ma_tol a) (ma_frac a)) (fun r => Ok (Some (map nZ r)))
               else Ok None) with
        | Raise e => (c, Raise e)
        | Ok q =>
            match c_atlas c with
            | None => (c, Raise AttributeError)
            | Some at_ =>
                match bind (lines_within (c_kind c) (get_lines at_) (map nZ fit) (ma_tol a) (c_peaks c)) (fun m =>
                      bind (candidate_of (map snd m) []) (fun cand => Ok (map fst m, cand))) with
                | Raise e => (c, Raise e)
                | Ok (xs, cand) => match_store o c deg (ma_robust a) q xs cand (atlas_len at_)
                end
            end
        end
    end.
End WholeMatch.

(** * Fit: model of Calibrator.fit, /repo/src/rascal/calibrator.py:1552-1715. *)

From Coq Require Import ZArith Bool List String Lia.
From Verif Require Import Num Py Np Util Models Atlas Hough PolyEval Calib Cand Ransac.
Import ListNotations.
Local Open Scope num_scope.

Section Fit.
  Context {A : Type} {N : Num A}.

  (** The arguments of fit, calibrator.py:1552-1562, without progress; fit_type is None
      if it is none of the three names. *)
  Record fit_args : Type := mkFA {
    fa_tries : nat; fa_deg : nat; fa_coeff : option (list A); fa_ftol : A;
    fa_type : option fit_kind; fa_ctol : A; fa_brute : bool
  }.

  (** The tuple returned, calibrator.py:1707-1715. *)
  Record fit_value : Type := mkFV {
    fv_coeff : list A; fv_mpeaks : mseq A; fv_matlas : mseq A; fv_rms : A;
    fv_resid : option (list A); fv_putil : A; fv_autil : A
  }.

  (** calibrator.py:1610-1614: the degree used. *)
  Definition degree_used (a : fit_args) : nat :=
    match fa_coeff a with Some co => (List.length co - 1)%nat | None => fa_deg a end.

  (** calibrator.py:1639-1649: sample_size before the search; the comparison is with the
      argument fit_deg, not with the degree used. *)
  Definition adjusted_size (a : fit_args) (natlas size : nat) : nat :=
    let s := if Nat.ltb natlas size then natlas else size in
    if Nat.leb s (fa_deg a) then S (fa_deg a) else s.

  (** calibrator.py:1654-1669: minimum_matches before the search. *)
  Definition adjusted_matches (natlas npeaks : nat) (m : A) : A :=
    let m1 := if nnat natlas <' m then nnat natlas else m in
    if nnat npeaks <' m1 then nnat npeaks else m1.

  Definition set_matches (m : A) (c : calib A) : calib A :=
    let r := c_rp c in
    set_c_rp (mkR (r_sample r) (r_top r) (r_linear r) (r_close r) (r_tol r) (r_weighted r) (r_hweight r)
                (Some m) (r_util r) (r_fit_error r)) c.

  (** n_inliers / length: 0 is python's int, other counts are numpy integers. *)
  Definition utilisation (n len : nat) : res A :=
    if Nat.eqb n 0 && Nat.eqb len 0 then Raise ZeroDivisionError else Ok (nnat n /' nnat len).

  (** calibrator.py:1610-1637: the attributes set first; an exception for an unknown
      fit_type. *)
  Definition fit_begin (c : calib A) (a : fit_args) : calib A * res unit :=
    let c1 := set_c_coeff (fa_coeff a) (set_c_deg (Some (degree_used a)) c) in
    match fa_type a with
    | None => (c1, Raise ValueError)
    | Some k => (set_c_kind (Some k) c1, Ok tt)
    end.

  (** calibrator.py:1639-1669: adjusting sample_size and minimum_matches, the Hough
      transform in between. *)
  Definition fit_prepare (o : oracle A) (c : calib A) (a : fit_args) : calib A * res unit :=
    match c_atlas c, r_sample (c_rp c) with
    | Some at_, Some size =>
        let na := atlas_len at_ in
        let c1 := set_sample (adjusted_size a na size) c in
        match fit_hough (o_argsort o) c1 with
        | (c2, Raise e) => (c2, Raise e)
        | (c2, Ok _) =>
            match r_matches (c_rp c2) with
            | None => (c2, Raise TypeError)
            | Some m => (set_matches (adjusted_matches na (List.length (c_peaks c2)) m) c2, Ok tt)
            end
        end
    | _, _ => (c, Raise TypeError)
    end.

  (** calibrator.py:1685-1715: what is stored and returned. *)
  Definition fit_end (c : calib A) (r : rresult A) : calib A * res fit_value :=
    match c_atlas c with
    | None => (c, Raise TypeError)
    | Some at_ =>
        match utilisation (rr_inl r) (List.length (c_peaks c)) with
        | Raise e => (c, Raise e)
        | Ok pu =>
            match utilisation (rr_inl r) (atlas_len at_) with
            | Raise e => (c, Raise e)
            | Ok au =>
                match rr_p r with
                | None => (c, Raise AssertionError)
                | Some co =>
                    let c' := set_c_autil (Some au) (set_c_putil (Some pu) (set_c_resid (rr_resid r)
                                (set_c_rms (Some (rr_err r)) (set_c_coeff (Some co) c)))) in
                    (c', Ok (mkFV co (c_mpeaks c') (c_matlas c') (rr_err r) (rr_resid r) pu au))
                end
            end
        end
    end.

  (** calibrator.py:1552-1715 fit; None: out of fuel.  An empty list of coefficients
      (degree -1) is not modelled: it is answered with IndexError at once. *)
  Definition fit (o : oracle A) (fuel : nat) (c : calib A) (a : fit_args) : option (calib A * res fit_value) :=
    match fa_coeff a with
    | Some [] => Some (c, Raise IndexError)
    | _ =>
        match fit_begin c a with
        | (c1, Raise e) => Some (c1, Raise e)
        | (c1, Ok _) =>
            match fit_prepare o c1 a with
            | (c2, Raise e) => Some (c2, Raise e)
            | (c2, Ok _) =>
                match solve_ransac o fuel c2 (degree_used a) (fa_tries a) (c_coeff c2) (fa_ctol a) (fa_brute a) with
                | None => None
                | Some (c3, Raise e) => Some (c3, Raise e)
                | Some (c3, Ok r) => Some (fit_end c3 r)
                end
            end
        end
    end.
End Fit.
Arguments fit_args A : clear implicits.
Arguments fit_value A : clear implicits.

(** * MatchPeaks: model of what follows a fit: _adjust_polyfit, match_peaks, the
    editing of the matched pairs and manual_refit
    (/repo/src/rascal/calibrator.py:754-820, 1717-2124). *)

From Coq Require Import ZArith Bool List Lia.
From Verif Require Import Num Py Np Util Models Atlas Hough PolyEval Calib Cand Ransac.
Import ListNotations.
Local Open Scope num_scope.

Section MatchPeaks.
  Context {A : Type} {N : Num A}.

  (** self.polyval(x, coeff), calibrator.py:1615-1632: the attribute is missing before
      the first fit; numpy indexes coeff[-1]. *)
  Definition polyval_of (k : option fit_kind) (x : A) (co : list A) : res A :=
    match k, co with
    | None, _ => Raise AttributeError
    | Some _, [] => Raise IndexError
    | Some k, _ => Ok (eval_kind k x co)
    end.

  (** The same for a list of points. *)
  Fixpoint polyvals_of (k : option fit_kind) (xs co : list A) : res (list A) :=
    match xs with
    | [] => match k with None => Raise AttributeError | Some _ => Ok [] end
    | x :: r => bind (polyval_of k x co) (fun v => bind (polyvals_of k r co) (fun vs => Ok (v :: vs)))
    end.

  (* ---------------------------------------------------------------- *)
  (** ** _adjust_polyfit *)

  (** calibrator.py:786-787: fit_new[i] += d. *)
  Fixpoint add_delta (fit delta : list A) : res (list A) :=
    match delta, fit with
    | [], _ => Ok fit
    | _ :: _, [] => Raise IndexError
    | d :: ds, f :: fs => bind (add_delta fs ds) (fun r => Ok ((f +' d) :: r))
    end.

  (** calibrator.py:789-797: the nearest line of each peak, if nearer than tolerance. *)
  Fixpoint nearest_lines (k : option fit_kind) (lines co : list A) (tol : A) (peaks : list A)
    : res (list (A * A)) :=
    match peaks with
    | [] => Ok []
    | p :: r =>
        bind (polyval_of k p co) (fun x =>
        match np_argmin (map (fun l => nabs (l -' x)) lines) with
        | None => Raise ValueError
        | Some i =>
            bind (nearest_lines k lines co tol r) (fun rest =>
            match nth_error lines i with
            | None => Raise IndexError
            | Some l => Ok (if nabs (l -' x) <' tol then (p, l) :: rest else rest)
            end)
        end)
    end.

  (** calibrator.py:754-820 _adjust_polyfit: the caller's fit after the call, and the
      result.  The assignments go to fit_new = fit.copy() (line 782). *)
  Definition adjust_polyfit (c : calib A) (delta fit : list A) (tol min_frac : A) : list A * res A :=
    (fit,
     match c_atlas c with
     | None => Raise AttributeError
     | Some at_ =>
         bind (add_delta fit delta) (fun co =>
         bind (nearest_lines (c_kind c) (get_lines at_) co tol (c_peaks c)) (fun m =>
         let xs := map fst m in
         let ys := map snd m in
         let dof := (Z.of_nat (length m) - Z.of_nat (length co) - 1)%Z in
         if (dof <? 1)%Z then Ok ninf else
         if nnat (length m) <' nnat (length (c_peaks c)) *' min_frac then Ok ninf else
         match g_pixels (c_gp c) with
         | None => Raise ValueError
         | Some pixels =>
             bind (polyvals_of (c_kind c) (np_sort pixels) co) (fun vs =>
             if negb (all_positive (np_diff vs)) then Ok ninf else
             bind (polyvals_of (c_kind c) xs co) (fun fs =>
             Ok (np_sum (map (fun q => (fst q -' snd q) *' (fst q -' snd q)) (combine ys fs)) /' nZ dof)))
         end))
     end).

  (* ---------------------------------------------------------------- *)
  (** ** match_peaks *)

  (** scipy.optimize.minimize(f, x0, ...).x, with its options; it may raise. *)
  Definition minimiser : Type := (list A -> res A) -> list A -> res (list A).

  (** The arguments of match_peaks, calibrator.py:1717-1728; method and convergence
      belong to the minimiser; MNone: fit_coeff is not given. *)
  Record match_args : Type := mkMA {
    ma_coeff : mseq A; ma_ndelta : option Z; ma_refine : bool; ma_tol : A; ma_frac : A;
    ma_robust : bool; ma_deg : option nat
  }.

  (** The returned tuple. *)
  Record match_value : Type := mkMV {
    mv_coeff : list A; mv_peaks : mseq A; mv_atlas : mseq A; mv_rms : option A;
    mv_resid : option (list A); mv_putil : option A; mv_autil : option A
  }.

  (** l[:n] *)
  Definition slice_to {T} (l : list T) (n : Z) : list T :=
    firstn (if (n <? 0)%Z then length l - Z.to_nat (- n) else Z.to_nat n) l.

  (** calibrator.py:1829-1838: the peaks with a line within tolerance, and these
      lines. *)
  Fixpoint lines_within (k : option fit_kind) (lines co : list A) (tol : A) (peaks : list A)
    : res (list (A * list A)) :=
    match peaks with
    | [] => Ok []
    | p :: r =>
        bind (polyval_of k p co) (fun x =>
        bind (lines_within k lines co tol r) (fun rest =>
        match filter (fun l => nabs (l -' x) <' tol) lines with
        | [] => Ok rest
        | ls => Ok ((p, ls) :: rest)
        end))
    end.

  (** calibrator.py:1840-1876.  A single line extends every candidate in place.  With
      several lines, match[j] indexes a list with an array of shape (1,), which numpy
      rejects with TypeError; if all of them are in the candidate nothing happens.  So
      there is never more than one candidate. *)
  Fixpoint candidate_of (ms : list (list A)) (cand : list A) : res (list A) :=
    match ms with
    | [] => Ok cand
    | [] :: r => candidate_of r cand
    | [l] :: r => candidate_of r (cand ++ [l])
    | m :: r => if forallb (fun l => existsb (fun q => l ==' q) cand) m
                then candidate_of r cand else Raise TypeError
    end.

  (** np.nansum *)
  Definition np_nansum (l : list A) : A := np_sum (map (fun v => if nisnan v then nZ 0 else v) l).

  (** calibrator.py:1908-1910, 1940-1942, 2114-2116: the rms. *)
  Definition nan_rms (r : list A) : A :=
    nsqrt (np_nansum (map (fun v => v *' v) r) /' nnat (length r)).

  (** numpy's checks in polyfit, legfit and chebfit before the fit. *)
  Definition polyfit_of (o : oracle A) (k : option fit_kind) (xs ys : list A) (deg : nat) : res (list A) :=
    match k with
    | None => Raise AttributeError
    | Some k =>
        match xs with
        | [] => Raise TypeError
        | _ => if Nat.eqb (length xs) (length ys) then o_polyfit o k xs ys deg else Raise TypeError
        end
    end.

  (** x - y elementwise *)
  Definition minus (ys vs : list A) : list A := map (fun q => fst q -' snd q) (combine ys vs).

  (** calibrator.py:1878-1956: after the matching; [refined]: fit_coeff_new. *)
  Definition match_store (o : oracle A) (c : calib A) (deg : nat) (robust : bool)
      (refined : option (list A)) (xs cand : list A) (natlas : nat) : calib A * res match_value :=
    let c1 := set_c_residuals None (set_c_matlas MNone (set_c_mpeaks (MArr xs) c)) in
    match bind (polyfit_of o (c_kind c) xs cand deg) (fun co =>
          bind (polyvals_of (c_kind c) xs co) (fun vs => Ok (co, map nabs (minus cand vs)))) with
    | Raise e => (c1, Raise e)
    | Ok (co, resid) =>
        if negb (np_sum resid <' nlit 1 9) then (c1, Raise AssertionError) else
        let c2 := set_c_rms (Some (nan_rms resid)) (set_c_residuals (Some resid) (set_c_matlas (MArr cand) c1)) in
        if Nat.eqb (length (c_peaks c)) 0 then (c2, Raise ZeroDivisionError) else
        let pu := nnat (length xs) /' nnat (length (c_peaks c)) in
        let c3 := set_c_putil (Some pu) c2 in
        if Nat.eqb natlas 0 then (c3, Raise ZeroDivisionError) else
        let au := nnat (length cand) /' nnat natlas in
        let c4 := set_c_autil (Some au) c3 in
        if robust then
          match robust_polyfit (o_ls o) xs cand deg None with
          | Raise e => (c4, Raise e)
          | Ok co' =>
              let c5 := set_c_coeff (Some co') c4 in
              if existsb nisnan co' then
                (c5, Ok (mkMV co (MArr xs) (MArr cand) (Some (nan_rms resid)) (Some resid) (Some pu) (Some au)))
              else
                match polyvals_of (c_kind c) xs co' with
                | Raise e => (c5, Raise e)
                | Ok vs =>
                    let r := minus cand vs in
                    (set_c_rms (Some (nan_rms r)) (set_c_residuals (Some r) c5),
                     Ok (mkMV co' (MArr xs) (MArr cand) (Some (nan_rms r)) (Some r) (Some pu) (Some au)))
                end
          end
        else
          match refined with
          | None => (c4, Raise UnboundLocalError)
          | Some co' =>
              (set_c_coeff (Some co') c4,
               Ok (mkMV co' (MArr xs) (MArr cand) (Some (nan_rms resid)) (Some resid) (Some pu) (Some au)))
          end
    end.

  (** calibrator.py:1794-1821: refine.  None: there is a NaN, and the input is
      returned. *)
  Definition refine_coeff (mini : minimiser) (c : calib A) (co : mseq A) (nd : option Z) (tol frac : A)
    : res (option (list A)) :=
    match co with
    | MNone | MList _ => Raise TypeError
    | MArr l =>
        let n := oget (Z.of_nat (length l) - 1)%Z nd in
        bind (mini (fun d => snd (adjust_polyfit c d l tol frac))
                   (map (fun v => v *' nlit 1 (-3)) (slice_to l n))) (fun d =>
        bind (add_delta l d) (fun new =>
        Ok (if existsb nisnan new then None else Some new)))
    end.

  (** calibrator.py:1717-1956 match_peaks.  The stored fit_coeff is taken to be an
      ndarray (it is one after a successful fit); an empty list of coefficients is
      answered with IndexError. *)
  Definition match_peaks (o : oracle A) (mini : minimiser) (c : calib A) (a : match_args)
    : calib A * res match_value :=
    match match ma_coeff a, c_coeff c with
          | MNone, None => Raise AttributeError
          | MNone, Some l => Ok (MArr l)
          | m, _ => Ok m
          end with
    | Raise e => (c, Raise e)
    | Ok co =>
        match mseq_vals co with
        | [] => (c, Raise IndexError)
        | l =>
            let deg := oget (length l - 1)%nat (ma_deg a) in
            match (if ma_refine a
                   then bind (refine_coeff mini c co (ma_ndelta a) (ma_tol a) (ma_frac a)) (fun r => Ok (Some r))
                   else Ok None) with
            | Raise e => (c, Raise e)
            | Ok (Some None) => (c, Ok (mkMV l MNone MNone None None None None))
            | Ok q =>
                match c_atlas c with
                | None => (c, Raise AttributeError)
                | Some at_ =>
                    match bind (lines_within (c_kind c) (get_lines at_) l (ma_tol a) (c_peaks c)) (fun m =>
                          bind (candidate_of (map snd m) []) (fun cand => Ok (map fst m, cand))) with
                    | Raise e => (c, Raise e)
                    | Ok (xs, cand) =>
                        match_store o c deg (ma_robust a)
                          (match q with Some (Some new) => Some new | _ => None end) xs cand (atlas_len at_)
                    end
                end
            end
        end
    end.

  (* ---------------------------------------------------------------- *)
  (** ** Editing the matched pairs *)

  (** calibrator.py:1958-1983 get_pix_wave_pairs; None cannot be iterated. *)
  Definition get_pix_wave_pairs (c : calib A) : res (list (nat * (A * A))) :=
    match c_mpeaks c, c_matlas c with
    | MNone, _ | _, MNone => Raise TypeError
    | p, w => let l := combine (mseq_vals p) (mseq_vals w) in Ok (combine (seq 0 (length l)) l)
    end.

  (** calibrator.py:1985-2007 add_pix_wave_pair with python floats: a float cannot be
      compared with a list.  Inserting into None (matched_atlas after a match_peaks that
      raised) makes an array of objects, which is not modelled: TypeError. *)
  Definition add_pix_wave_pair (c : calib A) (pix wave : A) : calib A * res unit :=
    match c_mpeaks c with
    | MNone | MList _ => (c, Raise TypeError)
    | MArr p =>
        match np_where (fun q => q <' pix) p with
        | [] => (c, Raise IndexError)
        | k :: _ =>
            match c_matlas c with
            | MNone => (c, Raise TypeError)
            | m => if Nat.ltb (length (mseq_vals m)) k then (c, Raise IndexError)
                   else (set_c_matlas (MArr (np_insert (mseq_vals m) k wave))
                           (set_c_mpeaks (MArr (np_insert p k pix)) c), Ok tt)
            end
        end
    end.

  (** np.delete(l, arg) for an int arg. *)
  Definition delete_at {T} (l : list T) (arg : Z) : res (list T) :=
    let n := Z.of_nat (length l) in
    if ((arg <? - n) || (n <=? arg))%Z then Raise IndexError
    else Ok (np_delete l (Z.to_nat (if (arg <? 0)%Z then arg + n else arg))).

  (** calibrator.py:2009-2026 remove_pix_wave_pair; deleting from None is not modelled:
      TypeError. *)
  Definition remove_pix_wave_pair (c : calib A) (arg : Z) : calib A * res unit :=
    match c_mpeaks c, c_matlas c with
    | MNone, _ | _, MNone => (c, Raise TypeError)
    | p, w =>
        match bind (delete_at (mseq_vals p) arg) (fun p' =>
              bind (delete_at (mseq_vals w) arg) (fun w' => Ok (p', w'))) with
        | Raise e => (c, Raise e)
        | Ok (p', w') => (set_c_matlas (MArr w') (set_c_mpeaks (MArr p') c), Ok tt)
        end
    end.

  (* ---------------------------------------------------------------- *)
  (** ** manual_refit *)

  (** The arguments of manual_refit; MNone: not given; degree an int. *)
  Record refit_args : Type := mkRF {
    rf_peaks : mseq A; rf_atlas : mseq A; rf_deg : option Z; rf_x0 : mseq A
  }.

  (** calibrator.py:2081-2095: x0 and degree. *)
  Definition refit_start (c : calib A) (a : refit_args) : res (option (list A) * Z) :=
    match rf_x0 a, rf_deg a with
    | MNone, None =>
        match c_coeff c with
        | None => Raise TypeError
        | Some l => Ok (Some l, (Z.of_nat (length l) - 1)%Z)
        end
    | MList l, None => Ok (Some l, (Z.of_nat (length l) - 1)%Z)
    | MNone, Some d => Ok (None, d)
    | MList l, Some d => if Z.eqb (Z.of_nat (length l)) (d + 1) then Ok (Some l, d) else Raise AssertionError
    | MArr _, _ => Raise AssertionError
    end.

  (** calibrator.py:2028-2124 manual_refit. *)
  Definition manual_refit (o : oracle A) (c : calib A) (a : refit_args)
    : calib A * res (list A * mseq A * mseq A * A * list A) :=
    let mp := match rf_peaks a with MNone => c_mpeaks c | m => m end in
    let ma := match rf_atlas a with MNone => c_matlas c | m => m end in
    match refit_start c a with
    | Raise e => (c, Raise e)
    | Ok (x0, d) =>
        match mp, ma with
        | MNone, _ | _, MNone => (c, Raise TypeError)
        | _, _ =>
            let x := mseq_vals mp in
            let y := mseq_vals ma in
            if negb (Nat.eqb (length x) (length y) && negb (Nat.eqb (length x) 0) && (0 <? d)%Z &&
                     (d <=? Z.of_nat (length x) - 1)%Z)
            then (c, Raise AssertionError) else
            match robust_polyfit (o_ls o) x y (Z.to_nat d) x0 with
            | Raise e => (c, Raise e)
            | Ok co =>
                let c1 := set_c_matlas ma (set_c_mpeaks mp (set_c_coeff (Some co) c)) in
                match polyvals_of (c_kind c) x co with
                | Raise e => (c1, Raise e)
                | Ok vs =>
                    let r := minus y vs in
                    (set_c_rms (Some (nan_rms r)) (set_c_residuals (Some r) c1),
                     Ok (co, mp, ma, nan_rms r, r))
                end
            end
        end
    end.
End MatchPeaks.
Arguments match_args A : clear implicits.
Arguments match_value A : clear implicits.
Arguments refit_args A : clear implicits.
Arguments minimiser A : clear implicits.

(** * AssignSteps: match_peaks, manual_refit, add_pix_wave_pair and remove_pix_wave_pair
    assignment by assignment, /repo/src/rascal/calibrator.py:1717-2124.

    Each of these calls computes values and assigns them to attributes of the calibrator
    one after the other.  The lists below are these assignments in the order of the code;
    an interruption (KeyboardInterrupt, which none of the calls catches) leaves the
    calibrator after some of them.  That all of them together are the call is proved
    (assign_steps_are_the_calls). *)

From Coq Require Import ZArith Bool List Lia.
From Verif Require Import Num Py Np Util Models Atlas Hough PolyEval Calib Cand Ransac MatchPeaks.
Import ListNotations.
Local Open Scope num_scope.

Section AssignSteps.
  Context {A : Type} {N : Num A}.

  (** One assignment: self.matched_peaks = ..., self.matched_atlas, self.residuals,
      self.rms, self.peak_utilisation, self.atlas_utilisation, self.fit_coeff. *)
  Inductive assign : Type :=
  | SPeaks (v : mseq A) | SAtlas (v : mseq A) | SResiduals (v : option (list A)) | SRms (v : option A)
  | SPutil (v : option A) | SAutil (v : option A) | SCoeff (v : option (list A)).

  Definition do_assign (c : calib A) (s : assign) : calib A :=
    match s with
    | SPeaks v => set_c_mpeaks v c
    | SAtlas v => set_c_matlas v c
    | SResiduals v => set_c_residuals v c
    | SRms v => set_c_rms v c
    | SPutil v => set_c_putil v c
    | SAutil v => set_c_autil v c
    | SCoeff v => set_c_coeff v c
    end.
  Definition do_assigns (l : list assign) (c : calib A) : calib A := fold_left do_assign l c.

  (** calibrator.py:1883-1944: the assignments of match_peaks once the pairs are known; the
      arguments are those of match_store. *)
  Definition store_steps (o : oracle A) (c : calib A) (deg : nat) (robust : bool)
      (refined : option (list A)) (xs cand : list A) (natlas : nat) : list assign :=
    [SPeaks (MArr xs); SAtlas MNone; SResiduals None] ++
    match bind (polyfit_of o (c_kind c) xs cand deg) (fun co =>
          bind (polyvals_of (c_kind c) xs co) (fun vs => Ok (co, map nabs (minus cand vs)))) with
    | Raise _ => []
    | Ok (co, resid) =>
        if negb (np_sum resid <' nlit 1 9) then [] else
        [SAtlas (MArr cand); SResiduals (Some resid); SRms (Some (nan_rms resid))] ++
        if Nat.eqb (length (c_peaks c)) 0 then [] else
        SPutil (Some (nnat (length xs) /' nnat (length (c_peaks c)))) ::
        if Nat.eqb natlas 0 then [] else
        SAutil (Some (nnat (length cand) /' nnat natlas)) ::
        if robust then
          match robust_polyfit (o_ls o) xs cand deg None with
          | Raise _ => []
          | Ok co' =>
              SCoeff (Some co') ::
              if existsb nisnan co' then [] else
              match polyvals_of (c_kind c) xs co' with
              | Raise _ => []
              | Ok vs => [SResiduals (Some (minus cand vs)); SRms (Some (nan_rms (minus cand vs)))]
              end
          end
        else match refined with None => [] | Some co' => [SCoeff (Some co')] end
    end.

  (** calibrator.py:1717-1956 match_peaks: its assignments; there are none before the pairs
      are known. *)
  Definition match_steps (o : oracle A) (mini : minimiser A) (c : calib A) (a : match_args A) : list assign :=
    match match ma_coeff a, c_coeff c with
          | MNone, None => Raise AttributeError
          | MNone, Some l => Ok (MArr l)
          | m, _ => Ok m
          end with
    | Raise _ => []
    | Ok co =>
        match mseq_vals co with
        | [] => []
        | l =>
            let deg := oget (length l - 1)%nat (ma_deg a) in
            match (if ma_refine a
                   then bind (refine_coeff mini c co (ma_ndelta a) (ma_tol a) (ma_frac a)) (fun r => Ok (Some r))
                   else Ok None) with
            | Raise _ | Ok (Some None) => []
            | Ok q =>
                match c_atlas c with
                | None => []
                | Some at_ =>
                    match bind (lines_within (c_kind c) (get_lines at_) l (ma_tol a) (c_peaks c)) (fun m =>
                          bind (candidate_of (map snd m) []) (fun cand => Ok (map fst m, cand))) with
                    | Raise _ => []
                    | Ok (xs, cand) =>
                        store_steps o c deg (ma_robust a)
                          (match q with Some (Some new) => Some new | _ => None end) xs cand (atlas_len at_)
                    end
                end
            end
        end
    end.

  (** calibrator.py:2028-2124 manual_refit: its assignments (lines 2109-2116). *)
  Definition refit_steps (o : oracle A) (c : calib A) (a : refit_args A) : list assign :=
    let mp := match rf_peaks a with MNone => c_mpeaks c | m => m end in
    let ma := match rf_atlas a with MNone => c_matlas c | m => m end in
    match refit_start c a with
    | Raise _ => []
    | Ok (x0, d) =>
        match mp, ma with
        | MNone, _ | _, MNone => []
        | _, _ =>
            let x := mseq_vals mp in
            let y := mseq_vals ma in
            if negb (Nat.eqb (length x) (length y) && negb (Nat.eqb (length x) 0) && (0 <? d)%Z &&
                     (d <=? Z.of_nat (length x) - 1)%Z)
            then [] else
            match robust_polyfit (o_ls o) x y (Z.to_nat d) x0 with
            | Raise _ => []
            | Ok co =>
                [SCoeff (Some co); SPeaks mp; SAtlas ma] ++
                match polyvals_of (c_kind c) x co with
                | Raise _ => []
                | Ok vs => [SResiduals (Some (minus y vs)); SRms (Some (nan_rms (minus y vs)))]
                end
            end
        end
    end.

  (** calibrator.py:1985-2007 add_pix_wave_pair: matched_peaks, then matched_atlas. *)
  Definition add_steps (c : calib A) (pix wave : A) : list assign :=
    match add_pix_wave_pair c pix wave with
    | (c', Ok _) => [SPeaks (c_mpeaks c'); SAtlas (c_matlas c')]
    | (_, Raise _) => []
    end.
  (** calibrator.py:2009-2026 remove_pix_wave_pair: matched_peaks, then matched_atlas. *)
  Definition remove_steps (c : calib A) (arg : Z) : list assign :=
    match remove_pix_wave_pair c arg with
    | (c', Ok _) => [SPeaks (c_mpeaks c'); SAtlas (c_matlas c')]
    | (_, Raise _) => []
    end.
End AssignSteps.
Arguments assign A : clear implicits.

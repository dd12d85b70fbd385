(** * Interrupt: the moments at which Calibrator.fit can be interrupted, and the state the
    calibrator is left in, /repo/src/rascal/calibrator.py:1552-1715 with 382-752 and
    1425-1452.

    KeyboardInterrupt (Ctrl-C) can be raised between any two steps of fit; no part of fit
    catches it, so the calibrator keeps what had been assigned until then.  Each relation
    below lists the states of one stage.  An exception of fit itself is not an
    interruption.  The attributes that are not in the model (max_tries, fit_tolerance,
    brute_force, progress, the candidates) are left out, and c_kind stands for fit_type,
    polyfit and polyval together, so that a state between these three assignments is not
    told apart. *)

From Coq Require Import ZArith Bool List String Lia.
From Verif Require Import Num Py Np Util Models Atlas Hough PolyEval Calib Cand Ransac Fit.
Import ListNotations.
Local Open Scope num_scope.

Section Interrupt.
  Context {A : Type} {N : Num A}.

  (** calibrator.py:1610-1637: fit_deg, fit_coeff, fit_deg again, fit_type and the
      functions that belong to it, in this order. *)
  Definition begin_moments (c : calib A) (a : fit_args A) : list (calib A) :=
    let c1 := set_c_deg (Some (fa_deg a)) c in
    let c2 := set_c_coeff (fa_coeff a) c1 in
    let c3 := set_c_deg (Some (degree_used a)) c2 in
    [c; c1; c2; c3] ++ match fa_type a with None => [] | Some k => [set_c_kind (Some k) c3] end.

  (** calibrator.py:1639-1669, from the state c in which stage 1 left the calibrator.
      PM_transform: inside do_hough_transform (lines 1434-1450) the HoughTransform object
      is being changed in several places; it is allowed to be in any state t. *)
  Inductive prepare_moment (o : oracle A) (c : calib A) (a : fit_args A) : calib A -> Prop :=
  | PM_size1 at_ size : c_atlas c = Some at_ -> r_sample (c_rp c) = Some size ->
      prepare_moment o c a (set_sample (if Nat.ltb (atlas_len at_) size then atlas_len at_ else size) c)
  | PM_size2 at_ size : c_atlas c = Some at_ -> r_sample (c_rp c) = Some size ->
      prepare_moment o c a (set_sample (adjusted_size a (atlas_len at_) size) c)
  | PM_transform at_ size t : c_atlas c = Some at_ -> r_sample (c_rp c) = Some size ->
      c_lines c = None \/ c_points c = None ->
      prepare_moment o c a (set_c_ht t (set_sample (adjusted_size a (atlas_len at_) size) c))
  | PM_points at_ size c2 : c_atlas c = Some at_ -> r_sample (c_rp c) = Some size ->
      c_lines c = None \/ c_points c = None ->
      do_hough_transform (o_argsort o) (set_sample (adjusted_size a (atlas_len at_) size) c) false = (c2, Ok tt) ->
      prepare_moment o c a (set_c_points (c_points c2) (set_c_ht (c_ht c2)
                              (set_sample (adjusted_size a (atlas_len at_) size) c)))
  | PM_lines at_ size c2 : c_atlas c = Some at_ -> r_sample (c_rp c) = Some size ->
      fit_hough (o_argsort o) (set_sample (adjusted_size a (atlas_len at_) size) c) = (c2, Ok tt) ->
      prepare_moment o c a c2
  | PM_matches1 at_ size c2 m : c_atlas c = Some at_ -> r_sample (c_rp c) = Some size ->
      fit_hough (o_argsort o) (set_sample (adjusted_size a (atlas_len at_) size) c) = (c2, Ok tt) ->
      r_matches (c_rp c2) = Some m ->
      prepare_moment o c a (set_matches (if nnat (atlas_len at_) <' m then nnat (atlas_len at_) else m) c2)
  | PM_matches2 c2 : fit_prepare o c a = (c2, Ok tt) -> prepare_moment o c a c2.

  (** calibrator.py:443 and 472-477 (_solve_candidate_ransac), from the state c in which
      stage 2 left the calibrator: the state in which the loop over the samples begins. *)
  Definition loop_start (c : calib A) (a : fit_args A) (x : list A) (size : nat) : calib A :=
    let c1 := set_c_deg (Some (degree_used a)) c in
    if fa_brute a || Nat.leb (List.length (np_unique x)) size then set_sample (List.length (np_unique x)) c1 else c1.

  (** calibrator.py:426-738.  The loop has dealt with the samples [done]; n bounds the
      turns of the inner loop, and any n will do.  SM_peaks: a better fit was found for the
      next sample, matched_peaks has been assigned (line 708) and matched_atlas (line 709)
      has not.  SM_checks: both have been, and one of the checks that follow is about to
      raise AssertionError. *)
  Inductive search_moment (o : oracle A) (c : calib A) (a : fit_args A) : calib A -> Prop :=
  | SM_deg : search_moment o c a (set_c_deg (Some (degree_used a)) c)
  | SM_size x y size :
      ransac_xy o (set_c_deg (Some (degree_used a)) c) (fa_ctol a) = Ok (x, y) ->
      r_sample (c_rp c) = Some size -> (degree_used a < List.length (np_unique x))%nat ->
      search_moment o c a (loop_start c a x size)
  | SM_loop x y size f samples s0 n done rest s :
      ransac_xy o (set_c_deg (Some (degree_used a)) c) (fa_ctol a) = Ok (x, y) ->
      r_sample (c_rp c) = Some size -> (degree_used a < List.length (np_unique x))%nat ->
      ransac_setup o (set_c_deg (Some (degree_used a)) c) x y (degree_used a) size (fa_tries a) (c_coeff c) (fa_brute a)
        = Ok (f, samples, s0) ->
      samples = done ++ rest -> run_samples o n f s0 done = Done s ->
      search_moment o c a (set_c_matlas (s_ma s) (set_c_mpeaks (s_mp s) (loop_start c a x size)))
  | SM_peaks x y size f samples s0 n done smp rest s s' :
      ransac_xy o (set_c_deg (Some (degree_used a)) c) (fa_ctol a) = Ok (x, y) ->
      r_sample (c_rp c) = Some size -> (degree_used a < List.length (np_unique x))%nat ->
      ransac_setup o (set_c_deg (Some (degree_used a)) c) x y (degree_used a) size (fa_tries a) (c_coeff c) (fa_brute a)
        = Ok (f, samples, s0) ->
      samples = done ++ smp :: rest -> run_samples o n f s0 done = Done s ->
      (try_sample o n f s smp = Done s' \/ exists e, try_sample o n f s smp = Fail s' e) ->
      search_moment o c a (set_c_matlas (s_ma s) (set_c_mpeaks (s_mp s') (loop_start c a x size)))
  | SM_checks x y size f samples s0 n done smp rest s s' e :
      ransac_xy o (set_c_deg (Some (degree_used a)) c) (fa_ctol a) = Ok (x, y) ->
      r_sample (c_rp c) = Some size -> (degree_used a < List.length (np_unique x))%nat ->
      ransac_setup o (set_c_deg (Some (degree_used a)) c) x y (degree_used a) size (fa_tries a) (c_coeff c) (fa_brute a)
        = Ok (f, samples, s0) ->
      samples = done ++ smp :: rest -> run_samples o n f s0 done = Done s -> try_sample o n f s smp = Fail s' e ->
      search_moment o c a (set_c_matlas (s_ma s') (set_c_mpeaks (s_mp s') (loop_start c a x size))).

  (** calibrator.py:1685-1705, from the state c in which the search ended with r: the five
      assignments in their order. *)
  Definition end_moments (c : calib A) (r : rresult A) (co : list A) (pu au : A) : list (calib A) :=
    let c1 := set_c_coeff (Some co) c in
    let c2 := set_c_rms (Some (rr_err r)) c1 in
    let c3 := set_c_resid (rr_resid r) c2 in
    let c4 := set_c_putil (Some pu) c3 in
    [c; c1; c2; c3; c4; set_c_autil (Some au) c4].

  (** fit, interrupted before the search for the solution begins (line 1674). *)
  Inductive interrupted_early (o : oracle A) (c : calib A) (a : fit_args A) : calib A -> Prop :=
  | IE_begin d : In d (begin_moments c a) -> interrupted_early o c a d
  | IE_prepare c1 d : fit_begin c a = (c1, Ok tt) -> prepare_moment o c1 a d -> interrupted_early o c a d.

  (** fit, interrupted at any moment. *)
  Inductive interrupted (o : oracle A) (c : calib A) (a : fit_args A) : calib A -> Prop :=
  | I_early d : interrupted_early o c a d -> interrupted o c a d
  | I_search c1 c2 d : fit_begin c a = (c1, Ok tt) -> fit_prepare o c1 a = (c2, Ok tt) ->
      search_moment o c2 a d -> interrupted o c a d
  | I_end c1 c2 c3 n r at_ co pu au d : fit_begin c a = (c1, Ok tt) -> fit_prepare o c1 a = (c2, Ok tt) ->
      solve_ransac o n c2 (degree_used a) (fa_tries a) (c_coeff c2) (fa_ctol a) (fa_brute a) = Some (c3, Ok r) ->
      c_atlas c3 = Some at_ -> rr_p r = Some co ->
      utilisation (rr_inl r) (List.length (c_peaks c3)) = Ok pu -> utilisation (rr_inl r) (atlas_len at_) = Ok au ->
      In d (end_moments c3 r co pu au) -> interrupted o c a d.
End Interrupt.

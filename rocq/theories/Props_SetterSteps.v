(** * Props_SetterSteps: property theorems only.  The proofs are in Main_SetterSteps.v. *)

From Coq Require Import ZArith Bool List String Lia Reals Lra.
From Verif Require Import Num F64 XReal Py Np NpFacts Util Models Atlas AtlasFacts SpecAtlas Hough PolyEval Calib SpecCalib CalibFacts Main_Calib ArgsortFacts Main_Atlas SetterSteps SpecSetter.
From Verif Require Import Main_SetterSteps.
Import ListNotations.
Local Open Scope string_scope.
Local Open Scope list_scope.
Local Open Scope num_scope.

(** The assignments of each configuring call, carried out one after the other, leave the
    calibrator as the call does. *)
Theorem setting_steps_are_the_calls :
  forall (A : Type) (N : Num A) (hull : hull_test A) (c : calib A) (k : setting A),
    halted hull c k 0 = c /\
    halted hull c k (List.length (setting_steps hull c k)) = fst (setting_call hull c k).
Proof. exact setting_steps_are_the_calls_main. Qed.
Print Assumptions setting_steps_are_the_calls.

(** Wherever a configuring call is interrupted, making the same call again leaves the
    calibrator exactly as if it had not been interrupted, with the same answer or exception. *)
Theorem interrupted_setting_retry :
  forall (A : Type) (N : Num A) (hull : hull_test A) (c : calib A) (k : setting A) (n : nat),
    setting_call hull (halted hull c k n) k = setting_call hull c k.
Proof. exact interrupted_setting_retry_main. Qed.
Print Assumptions interrupted_setting_retry.

(** Until then the calibrator is in a state that no call leaves behind when it is not
    interrupted.  set_hough_properties with a new min_wavelength, interrupted after it is
    stored: the limits of the search are still those of the earlier one.  set_atlas after its
    first assignment: the new atlas with the pairs and the tolerance of the earlier one.
    set_known_pairs between its two: the new pixels with the earlier wavelengths.
    set_calibrator_properties changing the plotting library: both libraries are in use. *)
Theorem interrupted_setting_refuted :
  forall (A : Type) (N : Num A) (hull : hull_test A) (c : calib A),
    (forall v, let d := halted hull c (THough (mkHA None None None (Some v) None None None)) 4 in
       h_minw (c_hp d) = Some v /\ h_rt (c_hp d) = h_rt (c_hp c) /\
       h_min_intercept (c_hp d) = h_min_intercept (c_hp c) /\ h_max_intercept (c_hp d) = h_max_intercept (c_hp c) /\
       h_min_slope (c_hp d) = h_min_slope (c_hp c) /\ h_max_slope (c_hp d) = h_max_slope (c_hp c) /\ c_pairs d = c_pairs c) /\
    (forall at_ ct con, let d := halted hull c (TAtlas at_ ct con) 1 in
       c_atlas d = Some at_ /\ c_pairs d = c_pairs c /\ c_cand_tol d = c_cand_tol c) /\
    (forall p0 w0 p w, c_known c = Some (p0, w0) -> snd (set_known_pairs c (KList p) (KList w)) = Ok tt ->
       c_known (halted hull c (TKnown (KList p) (KList w)) 1) = Some (p, w0)) /\
    (forall v, g_num_pix (c_gp c) = Some v -> g_mpl (c_gp c) = true ->
       let d := halted hull c (TCalibrator None None (Some "plotly"%string)) 4 in
       g_library (c_gp d) = Some "plotly"%string /\ g_plotly (c_gp d) = true /\ which_plotting_library d = Some "matplotlib"%string).
Proof. exact interrupted_setting_refuted_main. Qed.
Print Assumptions interrupted_setting_refuted.

(** Lines are appended to an atlas one by one.  When Atlas.add or add_user_atlas is
    interrupted after k lines and made again, these k lines are in the atlas twice. *)
Theorem interrupted_atlas_add_refuted :
  forall (A : Type) (N : Num A) (argsort : list A -> list nat) (cat : catalogue A) (s : atlas A),
    (forall a s', atlas_add argsort cat s a = (s', Ok tt) ->
       exists new, at_lines s' = (at_lines s ++ new)%list /\
       forall k, (k <= List.length new)%nat ->
         at_lines (atlas_growing s s' k) = (at_lines s ++ firstn k new)%list /\
         (exists s'', atlas_add argsort cat (atlas_growing s s' k) a = (s'', Ok tt) /\
                      at_lines s'' = (at_lines s ++ firstn k new ++ new)%list)) /\
    (forall u s', add_user_atlas s u = (s', Ok tt) ->
       exists new, at_lines s' = (at_lines s ++ new)%list /\
       forall k, (k <= List.length new)%nat ->
         at_lines (atlas_growing s s' k) = (at_lines s ++ firstn k new)%list /\
         (exists s'', add_user_atlas (atlas_growing s s' k) u = (s'', Ok tt) /\
                      at_lines s'' = (at_lines s ++ firstn k new ++ new)%list)).
Proof. exact interrupted_atlas_add_refuted_main. Qed.
Print Assumptions interrupted_atlas_add_refuted.

(** In binary64: a new calibrator with known pairs uses matplotlib; its setters take 11, 10 and
    5 assignments, and an atlas with two lines of Xe can be interrupted after the first. *)
Example interrupted_setting_example :
  match calib_init (fun _ l => Ok (map (fun _ => true) l)) [fz 100; fz 250; fz 400] None with
  | Ok c0 =>
      let c := fst (set_known_pairs c0 (KList [fz 10]) (KList [fz 3100])) in
      c_known c = Some ([fz 10], [fz 3100]) /\ snd (set_known_pairs c (KList [fz 20]) (KList [fz 3200])) = Ok tt /\
      g_mpl (c_gp c) = true /\ g_num_pix (c_gp c) <> None /\
      List.length (setting_steps (fun _ l => Ok (map (fun _ => true) l)) c (THough no_hough_args)) = 11%nat /\
      List.length (setting_steps (fun _ l => Ok (map (fun _ => true) l)) c (TRansac no_ransac_args)) = 10%nat /\
      List.length (setting_steps (fun _ l => Ok (map (fun _ => true) l)) c (TCalibrator None None (Some "plotly"%string))) = 5%nat
  | Raise _ => False
  end /\
  let s := mkAtlas [mkAL (fz 5) "He" (fz 1) None] (fz 3000) (fz 5000) (fz 500) in
  let s' := fst (atlas_add argsort_stable tol_cat s (tol_add (ElStr "Xe") (fz 0))) in
  snd (atlas_add argsort_stable tol_cat s (tol_add (ElStr "Xe") (fz 0))) = Ok tt /\
  get_lines (atlas_growing s s' 1) = [fz 5; fz 2800] /\
  get_lines (fst (atlas_add argsort_stable tol_cat (atlas_growing s s' 1) (tol_add (ElStr "Xe") (fz 0)))) = [fz 5; fz 2800; fz 2800; fz 4000].
Proof. exact interrupted_setting_example_main. Qed.

(** * Props_Order: property theorems only.  The proofs are in Main_Order.v. *)

From Coq Require Import ZArith Bool List String Lia.
From Verif Require Import Num F64 XReal Py Np NpFacts ArgsortFacts Util Atlas Hough SpecHough Calib SpecCalib CalibFacts SpecOrder.
From Verif Require Main_Calib.
From Verif Require Import Main_Order.
Import ListNotations.
Local Open Scope num_scope.

(** Two calls neither of which changes what the other looks at can be exchanged
    anywhere in a history: the calibrator ends in the same state, each of the two
    calls has the same outcome in either order, and so do all the others. *)
Theorem configure_order_partial :
  forall (A : Type) (N : Num A) (e : env A) (c : calib A) (h1 h2 : list (cal_op A)) (o1 o2 : cal_op A),
    independent o1 o2 = true ->
    let c1 := cal_run e c h1 in
    cal_run e c (h1 ++ [o1; o2] ++ h2) = cal_run e c (h1 ++ [o2; o1] ++ h2) /\
    (exists r1 r2, outcomes e c1 [o1; o2] = [r1; r2] /\ outcomes e c1 [o2; o1] = [r2; r1]) /\
    outcomes e c1 [o1] ++ outcomes e c1 [o2] = outcomes e c1 [o1; o2] /\
    outcomes e (cal_run e c1 [o1; o2]) h2 = outcomes e (cal_run e c1 [o2; o1]) h2.
Proof. exact configure_order_partial_main. Qed.
Print Assumptions configure_order_partial.

(** The hypothesis holds of many pairs of calls; here of set_ransac_properties and
    everything but itself, set_known_pairs and everything but itself, and of
    load_hough_transform and every setter and atlas call. *)
Example configure_order_example :
  (forall (A : Type) (N : Num A) (a : ransac_args A) (o : cal_op A),
    independent (ORansac a) o = match o with ORansac _ => false | _ => true end) /\
  (forall (A : Type) (N : Num A) p w (o : cal_op A),
    independent (OKnown p w) o = match o with OKnown _ _ => false | _ => true end) /\
  (forall (A : Type) (N : Num A) fs n t (a : hough_args A) at_ ct k,
    independent (OLoad fs n t) (OHough a) = true /\ independent (OLoad fs n t) (OSetAtlas at_ ct k) = true) /\
  exists c0 : calib f64, calib_init Main_Calib.all_inside [fz 10; fz 20] None = Ok c0 /\
    let o1 := ORansac (mkRA (Some 4%nat) None None None (Some (fz 3)) None None (Some (fz 5)) None None) in
    let o2 := OHough (mkHA (Some (fz 10)) (Some 2%nat) (Some 2%nat) (Some (fz 4000)) (Some (fz 5000)) None None) in
    let c := cal_run Main_Calib.env0 c0 [o1; o2] in
    r_tol (c_rp c) = Some (fz 3) /\ h_minw (c_hp c) = Some (fz 4000) /\
    cal_run Main_Calib.env0 c0 [o2; o1] = c.
Proof. exact configure_order_example_main. Qed.

(** The order of set_calibrator_properties and set_hough_properties does matter:
    whatever the calls before, giving the pixel list after the wavelength range leaves
    the slope and intercept limits, and the pairs, as they were computed from the
    earlier pixels. *)
Theorem configure_order_refuted :
  (forall (A : Type) (N : Num A) (e : env A) (c : calib A) n px lib,
    let c' := fst (cal_step e c (OGeneral n px lib)) in
    c_hp c' = c_hp c /\ c_pairs c' = c_pairs c) /\
  exists c0 : calib f64, calib_init Main_Calib.all_inside [fz 10; fz 20] None = Ok c0 /\
    let o1 := OGeneral None (Some [fz 0; fz 10; fz 20]) None in
    let o2 := OHough (mkHA None None None (Some (fz 4000)) (Some (fz 5000)) None None) in
    let e := Main_Calib.env0 in
    cal_ok e c0 [o1; o2] /\ cal_ok e c0 [o2; o1] /\
    h_min_slope (c_hp (cal_run e c0 [o1; o2])) <> h_min_slope (c_hp (cal_run e c0 [o2; o1])) /\
    h_max_slope (c_hp (cal_run e c0 [o1; o2])) <> h_max_slope (c_hp (cal_run e c0 [o2; o1])).
Proof. exact configure_order_refuted_main. Qed.
Print Assumptions configure_order_refuted.

(** Repeating a call that states a setting changes nothing: the second call succeeds
    like the first and leaves the calibrator exactly as the first left it. *)
Theorem settings_idempotent :
  forall (A : Type) (N : Num A) (e : env A) (c : calib A) (o : cal_op A),
    states_setting o = true ->
    snd (cal_step e c o) = Ok tt ->
    cal_step e (fst (cal_step e c o)) o = (fst (cal_step e c o), Ok tt).
Proof. exact settings_idempotent_main. Qed.
Print Assumptions settings_idempotent.

(** The calls of a history that sets up a transform all succeed, so each may be made
    twice. *)
Example settings_idempotent_example :
  exists c0 : calib f64, calib_init Main_Calib.all_inside [fz 10; fz 20] None = Ok c0 /\
    cal_ok Main_Calib.env0 c0 Main_Calib.hough_history /\
    forallb states_setting Main_Calib.hough_history = true /\
    Main_Calib.hough_history <> [] /\
    cal_run Main_Calib.env0 c0 (flat_map (fun o => [o; o]) Main_Calib.hough_history) =
    cal_run Main_Calib.env0 c0 Main_Calib.hough_history.
Proof. exact settings_idempotent_example_main. Qed.

(** * Props_Sim: property theorems only.  The proofs are in Main_Sim.v. *)

From Coq Require Import ZArith Bool List String Lia Reals Lra Sorted Permutation.
From Verif Require Import Num F64 XReal Py Np NpFacts ArgsortFacts Util Models Atlas Hough SpecHough HoughFacts PolyEval SpecPoly PolyFacts Main_Models Calib SpecCalib CalibFacts Main_Calib Cand SpecCand CandFacts Ransac SpecRansac RansacFacts SampleFacts SpecRecover RecoverFacts PolyIdent Fit SpecFit FitFacts Main_Fit Main_Recover SpecVote Main_Cand Main_Vote SpecRegion Main_Region SpecCover Main_Cover Synthetic SpecSim Main_Optimal.
From Verif Require Import Main_Sim.
Import ListNotations.
Local Open Scope num_scope.

(** C143: an arc is simulated from the coefficients coefs and some of the atlas lines,
    and the simulated pixels are calibrated.  Two coefficients come back as they were
    given; three or more come back in the opposite order. *)
Theorem simulated_arc_partial :
  forall (o : oracle xr) (inv : inverter xr) coefs lo hi s ws us wl hull c0 at_ ct c ls a n xb yb lo_s hi_s lo_i hi_i tol size p0 p1 (e : R),
    (* the simulation *)
    (2 <= List.length coefs)%nat ->
    synth_init (CSeq (map Fin coefs)) (LFloat (Fin lo)) (LFloat (Fin hi)) = Ok s -> inverts inv s ->
    StronglySorted Rlt ws -> get_pixels inv s (Some (map Fin ws)) = Ok (map Fin us, map Fin wl) ->
    (* the calibrator is given the simulated pixels and an atlas with the simulated lines *)
    c_peaks c0 = map Fin us -> get_lines at_ = map Fin ls -> incl wl ls ->
    set_atlas hull c0 at_ ct false = (c, Ok tt) ->
    let co := if Nat.eqb (List.length coefs) 2 then coefs else rev coefs in
    on_detector co us p0 p1 ->
    sim_settings c a us ls n xb yb lo_s hi_s lo_i hi_i tol size co ->
    r_fit_error (c_rp c) = Some (Fin e) -> (e <= 0)%R ->
    (* the libraries *)
    (forall l, is_argsort l (o_argsort o l)) ->
    honest_draws o -> spline_not_negative o -> exact_polyfit o (fa_deg a) co -> exact_robust o (fa_deg a) co us ->
    forall fuel, (2 <= fuel)%nat ->
    exists c' v, fit o fuel c a = Some (c', Ok v) /\
      fv_coeff v = map Fin co /\
      fv_mpeaks v = MList (map Fin us) /\ fv_matlas v = MList (map Fin wl) /\
      fv_rms v = Fin 0 /\ fv_resid v = Some (map (fun _ => Fin 0) us).
Proof. exact simulated_arc_partial_main. Qed.
Print Assumptions simulated_arc_partial.

(** C143 REFUTED: with any positive minimum_fit_error (the default is 1e-4) fit never
    returns on a simulated arc. *)
Theorem simulated_arc_refuted :
  forall (o : oracle xr) (inv : inverter xr) coefs lo hi s ws us wl hull c0 at_ ct c ls a n xb yb lo_s hi_s lo_i hi_i tol size p0 p1 (e : R),
    (2 <= List.length coefs)%nat ->
    synth_init (CSeq (map Fin coefs)) (LFloat (Fin lo)) (LFloat (Fin hi)) = Ok s -> inverts inv s ->
    StronglySorted Rlt ws -> get_pixels inv s (Some (map Fin ws)) = Ok (map Fin us, map Fin wl) ->
    c_peaks c0 = map Fin us -> get_lines at_ = map Fin ls -> incl wl ls ->
    set_atlas hull c0 at_ ct false = (c, Ok tt) ->
    let co := if Nat.eqb (List.length coefs) 2 then coefs else rev coefs in
    on_detector co us p0 p1 ->
    sim_settings c a us ls n xb yb lo_s hi_s lo_i hi_i tol size co ->
    r_fit_error (c_rp c) = Some (Fin e) -> (0 < e)%R ->
    (forall l, is_argsort l (o_argsort o l)) ->
    honest_draws o -> spline_not_negative o -> exact_polyfit o (fa_deg a) co -> exact_robust o (fa_deg a) co us ->
    forall fuel, fit o fuel c a = None.
Proof. exact simulated_arc_refuted_main. Qed.
Print Assumptions simulated_arc_refuted.

(** The arc is simulated between 50 and 200 with 100 + 10 u + u^2 / 10 (a line at 300
    is beyond); the atlas has one line more.  The coefficients come back lowest power
    first, or fit never returns. *)
Example simulated_arc_example :
  synth_init (CSeq (map Fin [1 / 10; 10; 100]%R)) (LFloat (Fin 50)) (LFloat (Fin 200)) = Ok sim_s /\
  inverts sim_inv sim_s /\
  get_pixels sim_inv sim_s (Some (map Fin [100; 1101 / 10; 1416 / 10; 1636 / 10; 300]%R))
    = Ok (map Fin [0; 1; 4; 6]%R, map Fin [100; 1101 / 10; 1416 / 10; 1636 / 10]%R) /\
  (forall e, c_peaks (sim_c0 e) = map Fin [0; 1; 4; 6]%R /\
     set_atlas sim_hull (sim_c0 e) sim_atlas (Fin 10) false = (sim_c e, Ok tt) /\
     on_detector [100; 10; 1 / 10]%R [0; 1; 4; 6]%R 0 10 /\
     sim_settings (sim_c e) sim_a [0; 1; 4; 6]%R sim_ls 1 10 10 10 10 95 105 1 3 [100; 10; 1 / 10]%R) /\
  (exists c' v, fit sim_o 2 (sim_c 0) sim_a = Some (c', Ok v) /\ fv_coeff v = map Fin [100; 10; 1 / 10]%R /\
     fv_mpeaks v = MList (map Fin [0; 1; 4; 6]%R)) /\
  (forall fuel, fit sim_o fuel (sim_c (1 / 10000)) sim_a = None).
Proof. exact simulated_arc_example_main. Qed.

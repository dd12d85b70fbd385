(** * Props_Decoy: property theorems only.  The proofs are in Main_Decoy.v. *)

From Coq Require Import ZArith Bool List String Lia Reals Lra Sorted Permutation.
From Verif Require Import Num F64 XReal Py Np NpFacts ArgsortFacts Util Models Atlas Hough SpecHough HoughFacts PolyEval SpecPoly PolyFacts Main_Models Calib Main_Calib Cand SpecCand CandFacts Ransac SpecRansac RansacFacts SampleFacts SpecRecover RecoverFacts PolyIdent Fit SpecFit FitFacts Main_Fit Main_Recover SpecDecoy.
From Verif Require Import Main_Decoy.
Import ListNotations.
Local Open Scope num_scope.

(** C125: a search that ends and that has drawn, at some time, a sample of right
    candidates finds the right polynomial, however many wrong candidates there are. *)
Theorem decoys_search :
  forall (o : oracle xr) (c : calib xr) ctol deg size (co us x y : list R) n brute fuel f l s0 s d,
    decoy_problem o c ctol deg size co us x y ->
    ransac_setup o c (map Fin x) (map Fin y) deg size n None brute = Ok (f, l, s0) ->
    run_samples o fuel f s0 l = Done s ->
    finite_fits o deg (s_log s) -> In d (s_log s) -> true_sample deg co d ->
    s_p s = Some (map Fin co) /\ s_cost s = Fin 0 /\ s_err s = Fin 0 /\
    s_resid s = Some (map (fun _ => Fin 0) us) /\ s_inl s = List.length us /\
    s_mp s = MList (map Fin us) /\ s_ma s = MList (map Fin (map (poly co) us)).
Proof. exact decoys_search_main. Qed.
Print Assumptions decoys_search.

(** C125: the same for the whole fit. *)
Theorem decoys_fit :
  forall (o : oracle xr) (c : calib xr) (a : fit_args xr) c1 c2 size (co us x y : list R) at_ fuel f l s0 s d,
    fa_coeff a = None -> fit_begin c a = (c1, Ok tt) -> fit_prepare o c1 a = (c2, Ok tt) ->
    decoy_problem o c2 (fa_ctol a) (fa_deg a) size co us x y -> c_atlas c2 = Some at_ ->
    (* the search draws a sample of right candidates and ends *)
    ransac_setup o c2 (map Fin x) (map Fin y) (fa_deg a) size (fa_tries a) None (fa_brute a) = Ok (f, l, s0) ->
    run_samples o fuel f s0 l = Done s ->
    finite_fits o (fa_deg a) (s_log s) -> In d (s_log s) -> true_sample (fa_deg a) co d ->
    exists c' v, fit o fuel c a = Some (c', Ok v) /\
      fv_coeff v = map Fin co /\
      fv_mpeaks v = MList (map Fin us) /\ fv_matlas v = MList (map Fin (map (poly co) us)) /\
      fv_rms v = Fin 0 /\ fv_resid v = Some (map (fun _ => Fin 0) us) /\
      fv_putil v = nnat (List.length us) /' nnat (List.length (c_peaks c2)) /\
      fv_autil v = nnat (List.length us) /' nnat (atlas_len at_) /\
      c_coeff c' = Some (map Fin co) /\ c_mpeaks c' = fv_mpeaks v /\ c_matlas c' = fv_matlas v.
Proof. exact decoys_fit_main. Qed.
Print Assumptions decoys_fit.

(** The peaks are at 0, 1 and 4, the atlas has lines at 100, 110, 110.5 and 140, and
    the first two peaks are drawn: the fit gives 100 + 10 u. *)
Example decoys_example :
  exists c1 c2 f l s0 s,
    fit_begin dc_c dc_a = (c1, Ok tt) /\ fit_prepare dc_o c1 dc_a = (c2, Ok tt) /\
    decoy_problem dc_o c2 (fa_ctol dc_a) (fa_deg dc_a) 2 [100; 10]%R [0; 1; 4]%R [0; 1; 1; 4]%R [100; 110; 221 / 2; 140]%R /\
    ransac_setup dc_o c2 (map Fin [0; 1; 1; 4]%R) (map Fin [100; 110; 221 / 2; 140]%R) 1 2 1 None false = Ok (f, l, s0) /\
    run_samples dc_o 3 f s0 l = Done s /\ finite_fits dc_o 1 (s_log s) /\
    In ([Fin 0; Fin 1], [Fin 100; Fin 110]) (s_log s) /\ true_sample 1 [100; 10]%R ([Fin 0; Fin 1], [Fin 100; Fin 110]) /\
    exists c' v, fit dc_o 3 dc_c dc_a = Some (c', Ok v) /\ fv_coeff v = map Fin [100; 10]%R.
Proof. exact decoys_example_main. Qed.

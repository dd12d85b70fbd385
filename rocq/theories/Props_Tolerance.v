(** * Props_Tolerance: property theorems only.  The proofs are in Main_Tolerance.v. *)

From Coq Require Import ZArith Bool List String Ascii Lia Reals Lra Sorted Permutation.
From Verif Require Import RefineFacts Num F64 XReal Py Np NpFacts ArgsortFacts Util Models Atlas Hough HoughFacts PolyEval Calib SpecCalib CalibFacts Main_Calib Cand SpecCand CandFacts Main_Cand Plot SpecPlot Main_Plot.
From Verif Require Import Main_Tolerance.
Import ListNotations.
Local Open Scope num_scope.

(** C123: a larger candidate_tolerance keeps every linear candidate of every line. *)
Theorem candidates_monotone :
  forall (A : Type) (N : Num A) (O : NumOrder A) (c : calib A) lines pairs rt lt tol tol',
    c_lines c = Some lines -> c_pairs c = PArr pairs -> h_rt (c_hp c) = Some rt -> h_lt (c_hp c) = Some lt ->
    tol <=' tol' = true ->
    exists cs cs', candidates_linear c tol = Ok cs /\ candidates_linear c tol' = Ok cs' /\
      Forall2 (fun cand cand' => forall row, In row cand -> In row cand') cs cs'.
Proof. exact candidates_monotone_main. Qed.
Print Assumptions candidates_monotone.

(** C123: larger range_tolerance and candidate_tolerance, all else equal, keep every
    pair; over exact numbers, for an exact test of the convex hull. *)
Theorem pairs_monotone :
  forall (e : env xr) (inside : list (xr * xr) -> xr * xr -> bool) peaks spectrum c0 h h' (a : atlas xr)
         (ct ct' minw maxw rt rt' : R) px rows rows',
    (forall k pts, e_hull e k pts = Ok (map (inside k) pts)) ->
    (forall k q1 q2, inside (on_points k) (Fin q1, Fin q2) = true <-> in_hull k (q1, q2)) ->
    calib_init (e_hull e) peaks spectrum = Ok c0 ->
    let c := cal_run e c0 h in
    let c' := cal_run e c0 h' in
    let r := set_atlas (e_hull e) c a (Fin ct) true in
    let r' := set_atlas (e_hull e) c' a (Fin ct') true in
    snd r = Ok tt -> c_pairs (fst r) = PArr rows -> snd r' = Ok tt -> c_pairs (fst r') = PArr rows' ->
    h_minw (c_hp c) = Some (Fin minw) -> h_maxw (c_hp c) = Some (Fin maxw) -> h_rt (c_hp c) = Some (Fin rt) ->
    h_minw (c_hp c') = Some (Fin minw) -> h_maxw (c_hp c') = Some (Fin maxw) -> h_rt (c_hp c') = Some (Fin rt') ->
    g_pixels (c_gp c) = Some (map Fin px) -> g_pixels (c_gp c') = Some (map Fin px) ->
    (0 <= rt <= rt')%R -> (0 <= ct <= ct')%R ->
    forall p w, In (Fin p, Fin w) rows -> In (Fin p, Fin w) rows'.
Proof. exact pairs_monotone_main. Qed.
Print Assumptions pairs_monotone.

(** C123, a peak at 50 and lines at 6000 and 9000: with a tolerance of 3000 both pairs
    are kept (with 10, see C98, only the first one). *)
Example pairs_monotone_example :
  let e := mkEnv (fun l : list xr => seq 0 (List.length l)) (mkCatalogue [] (fun _ => None)) (fun k pts => Ok (map (quad_inside k) pts)) in
  let at_ := mkAtlas (map (fun w => mkAL (Fin w) "Ar"%string (Fin 1) None) [6000; 9000]%R) (Fin 3000) (Fin 9000) (Fin 500) in
  let h := [OGeneral None (Some (map Fin [0; 100]%R)) None] in
  exists c0, calib_init (e_hull e) [Fin 50] (Some [Fin 1; Fin 2]) = Ok c0 /\
    (let c := cal_run e c0 h in
     let r := set_atlas (e_hull e) c at_ (Fin 3000) true in
     snd r = Ok tt /\ c_pairs (fst r) = PArr [(Fin 50, Fin 6000); (Fin 50, Fin 9000)] /\
     h_minw (c_hp c) = Some (Fin 3000) /\ h_maxw (c_hp c) = Some (Fin 9000) /\ h_rt (c_hp c) = Some (Fin 500) /\
     g_pixels (c_gp c) = Some (map Fin [0; 100]%R)).
Proof. exact pairs_monotone_example_main. Qed.

Example candidates_monotone_example :
  match candidates_linear cand_state (fz 5), candidates_linear cand_state (fz 20) with
  | Ok cs, Ok cs' => map (@List.length _) cs = [2; 3]%nat /\ map (@List.length _) cs' = [3; 3]%nat
  | _, _ => False
  end.
Proof. exact candidates_monotone_example_main. Qed.

(** * Props_Permute: property theorems only.  The proofs are in Main_Permute.v. *)

From Coq Require Import ZArith Bool List Lia Reals Lra Permutation String.
From Verif Require Import Num F64 XReal Py Np NpFacts ArgsortFacts Util Atlas Hough SpecHough HoughFacts SampleFacts
  Calib SpecCalib CalibFacts Cand SpecOrder SpecPermute Main_Hough.
From Verif Require Import RansacFacts.
From Verif Require Main_Calib.
From Verif Require Import Main_Permute.
Import ListNotations.
Local Open Scope num_scope.

(** C119: calibrators built from the same peaks in another order, put through the same
    calls, have the same outcomes and end equal up to the order of peaks, pairs and
    Hough points: in particular the same Hough lines in the same order, the same
    histogram and limits, and the same candidates for every Hough line. *)
Theorem peaks_order :
  forall (e : env xr) (a b : list R) (spectrum : option (list xr)) (h : list (cal_op xr)),
    (forall l, is_argsort l (e_argsort e l)) -> pointwise (e_hull e) ->
    Permutation a b ->
    match calib_init (e_hull e) (map Fin a) spectrum, calib_init (e_hull e) (map Fin b) spectrum with
    | Ok c, Ok d =>
        (forall h1 h2, h = (h1 ++ h2)%list -> finite_atlas (cal_run e c h1)) ->
        outcomes e c h = outcomes e d h /\ reordered (cal_run e c h) (cal_run e d h)
    | Raise x, Raise y => x = y
    | _, _ => False
    end.
Proof. exact peaks_order_main. Qed.
Print Assumptions peaks_order.

(** C119: what is equal when two calibrators are equal up to order: the candidate pairs
    of every Hough line, up to order, for every tolerance. *)
Theorem reordered_candidates :
  forall (c d : calib xr) (tol : xr), reordered c d ->
    c_lines c = c_lines d /\ ho_hist (c_ht c) = ho_hist (c_ht d) /\ c_hp c = c_hp d /\
    match candidates_linear c tol, candidates_linear d tol with
    | Ok cs, Ok ds => Forall2 (@Permutation _) cs ds
    | Raise x, Raise y => x = y
    | _, _ => False
    end.
Proof. exact reordered_candidates_main. Qed.
Print Assumptions reordered_candidates.

(** C119: nor does the order of the atlas lines matter: the same calibrator (up to the
    order of its peaks), given an atlas or another with the same wavelengths in another
    order and then transformed, has the same outcomes and ends equal up to order,
    the atlas itself apart. *)
Theorem lines_order :
  forall (e : env xr) (c d : calib xr) (at1 at2 : atlas xr) (l1 l2 : list R) ct k b,
    (forall l, is_argsort l (e_argsort e l)) -> pointwise (e_hull e) ->
    reordered c d ->
    get_lines at1 = map Fin l1 -> get_lines at2 = map Fin l2 -> Permutation l1 l2 ->
    outcomes e c [OSetAtlas at1 ct k; OTransform b] = outcomes e d [OSetAtlas at2 ct k; OTransform b] /\
    reordered (set_c_atlas (Some at2) (cal_run e c [OSetAtlas at1 ct k; OTransform b]))
              (cal_run e d [OSetAtlas at2 ct k; OTransform b]).
Proof. exact lines_order_main. Qed.
Print Assumptions lines_order.

(** Three peaks and two lines in two orders: the pairs differ, the Hough lines do not. *)
Example peaks_order_example :
  exists c0 d0 : calib f64,
    calib_init Main_Calib.all_inside [fz 10; fz 20; fz 40] None = Ok c0 /\
    calib_init Main_Calib.all_inside [fz 40; fz 10; fz 20] None = Ok d0 /\
    let c := cal_run Main_Calib.env0 c0 Main_Calib.hough_history in
    let d := cal_run Main_Calib.env0 d0 Main_Calib.hough_history in
    cal_ok Main_Calib.env0 c0 Main_Calib.hough_history /\
    c_pairs c <> c_pairs d /\ c_lines c = c_lines d /\ c_lines c <> None /\ ho_hist (c_ht c) = ho_hist (c_ht d).
Proof. exact peaks_order_example_main. Qed.

(** The assumptions on the libraries and on the atlas can be met. *)
Example peaks_order_hypotheses_example :
  pointwise (fun _ p => Ok (map (fun _ => true) p)) /\
  (forall l : list xr, is_argsort l (argsort_stable l)) /\
  forall c : calib xr, c_atlas c = Some (mkAtlas [] (Fin 3000) (Fin 5000) (Fin 500)) \/ c_atlas c = None -> finite_atlas c.
Proof. exact peaks_order_hypotheses_example_main. Qed.

(** * Props_Add: property theorems only.  The proofs are in Main_Add.v. *)

From Coq Require Import ZArith Bool List String Lia Arith Sorted Permutation.
From Verif Require Import Num F64 XReal Py Np NpFacts Util SpecUtil UtilFacts LoadFacts ArgsortFacts Main_Util.
From Verif Require Import Atlas SpecAtlas AtlasFacts Main_Atlas Hough Calib SpecCalib CalibFacts SpecAdd.
From Verif Require Import Main_Add.
Import ListNotations.
Local Open Scope string_scope.
Local Open Scope list_scope.
Local Open Scope num_scope.

(** C126: Calibrator.add_atlas appends, element by element, what a load with the
    calibrator's own wavelength range (widened by its range tolerance) returns; pairs
    are then made of all peaks and all lines.  A call that raises loses no line. *)
Theorem calibrator_add_atlas :
  forall (A : Type) (N : Num A) argsort (cat : catalogue A) (hull : hull_test A) (c c' : calib A) (a : add_args A)
      (ct : A) (constrain : bool) r minw maxw rt,
    h_minw (c_hp c) = Some minw -> h_maxw (c_hp c) = Some maxw -> h_rt (c_hp c) = Some rt ->
    aa_brightest_n a = Some 1000%nat ->
    cal_add_atlas argsort cat hull c a ct constrain = (c', r) ->
    exists new, lines_of c' = lines_of c ++ new /\
      match r with
      | Ok _ =>
          loaded argsort cat (configured_request minw maxw rt a) (elements_of (aa_elements a)) (map row_of new) /\
          c_cand_tol c' = Some ct /\ c_constrain c' = constrain /\
          exists s, c_atlas c' = Some s /\ (constrain = false -> pairs_of_atlas (c_peaks c) s (c_pairs c'))
      | Raise _ => True
      end.
Proof. exact calibrator_add_atlas_main. Qed.
Print Assumptions calibrator_add_atlas.

(** C126: in vacuum and without a separation cut, the lines added are exactly the
    catalogue lines of the requested elements that are bright enough and in the range:
    nothing outside is ever added, and nothing inside is missing while the line list
    has at most 1000 rows. *)
Theorem calibrator_add_atlas_range :
  forall (A : Type) (N : Num A) (O : NumOrder A) argsort (cat : catalogue A) (hull : hull_test A) (c c' : calib A)
      (a : add_args A) (ct : A) (constrain : bool) minw maxw rt rows,
    (forall l, is_argsort l (argsort l)) ->
    h_minw (c_hp c) = Some minw -> h_maxw (c_hp c) = Some maxw -> h_rt (c_hp c) = Some rt ->
    aa_brightest_n a = Some 1000%nat -> aa_min a = None -> aa_max a = None -> aa_vacuum a = true ->
    nZ 0 <' aa_min_distance a = false ->
    read_linelist cat (aa_linelist a) = Ok rows ->
    (forall q, In q rows -> nisnan (l_wl q) = false /\ nisnan (l_int q) = false) ->
    cal_add_atlas argsort cat hull c a ct constrain = (c', Ok tt) ->
    exists new, lines_of c' = lines_of c ++ new /\
      (forall x, In x new ->
         minw -' rt <=' al_wl x = true /\ al_wl x <=' maxw +' rt = true /\
         In (al_el x) (elements_of (aa_elements a)) /\
         In (mkLine (al_el x) (al_wl x) (al_int x)) rows /\
         bright_enough [al_el x] (aa_min_intensity a) (mkLine (al_el x) (al_wl x) (al_int x))) /\
      ((List.length rows <= 1000)%nat ->
       forall e q i, In e (elements_of (aa_elements a)) -> earliest (requested [e] rows) i q ->
         minw -' rt <=' l_wl q = true -> l_wl q <=' maxw +' rt = true ->
         bright_enough [e] (aa_min_intensity a) q ->
         In (l_el q, l_wl q, l_int q) (map row_of new)).
Proof. exact calibrator_add_atlas_range_main. Qed.
Print Assumptions calibrator_add_atlas_range.

(** A new calibrator (3000 to 9000, tolerance 500) meets the hypotheses: of the five
    Xe lines the two that are in 2500 to 9500 and bright enough are added. *)
Example calibrator_add_atlas_example :
  match calib_init (fun _ p => Ok (map (fun _ => true) p)) [fz 10; fz 20] None return Prop with
  | Ok c =>
      h_minw (c_hp c) = Some (fz 3000) /\ h_maxw (c_hp c) = Some (fz 9000) /\ h_rt (c_hp c) = Some (fz 500) /\
      let (c', r) := cal_add_atlas argsort_stable far_cat (fun _ p => Ok (map (fun _ => true) p)) c far_add (fz 10) false in
      r = Ok tt /\ map row_of (lines_of c') = [("Xe", fz 9400, fz 60); ("Xe", fz 2600, fz 50)] /\
      c_pairs c' = PArr [(fz 10, fz 9400); (fz 10, fz 2600); (fz 20, fz 9400); (fz 20, fz 2600)] /\
      let (c2, r2) := cal_add_atlas argsort_stable far_cat (fun _ p => Ok (map (fun _ => true) p)) c'
          (mkAddArgs (ElStr "He") None (Some (fz 4500)) (ThNum (fz 10)) (fz 0) true (fz 101325) (fd 27315 (-2)) (fz 0)
             (LLStr "nist") (Some 1000%nat)) (fz 10) false in
      r2 = Ok tt /\ map (fun x => al_wl x) (lines_of c2) = [fz 9400; fz 2600; fz 4000]
  | Raise _ => False
  end.
Proof. exact calibrator_add_atlas_example_main. Qed.

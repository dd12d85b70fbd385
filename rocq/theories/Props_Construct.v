(** * Props_Construct: property theorems only.  The proofs are in Main_Construct.v. *)

From Coq Require Import ZArith Bool List String Lia Arith Reals Lra Sorted Permutation.
From Verif Require Import Num F64 XReal Py Np NpFacts ArgsortFacts Util SpecUtil UtilFacts SepFacts LoadFacts Main_Util.
From Verif Require Import Atlas SpecAtlas AtlasFacts Main_Atlas Hough Calib SpecCalib CalibFacts SpecAdd Main_Add.
From Verif Require Import Main_Construct.
Import ListNotations.
Local Open Scope string_scope.
Local Open Scope list_scope.
Local Open Scope num_scope.

(** C148: an Atlas made from elements, without a minimum distance, holds for each element in
    turn the 1000 brightest of the lines of that element that are within the limits and
    bright enough, brightest first, in the requested medium; so never more than 1000 lines
    for each element given. *)
Theorem constructor_lines :
  forall (A : Type) (N : Num A) (O : NumOrder A) argsort (cat : catalogue A)
      els lo hi tol m d v p t rh ll rows s,
    (forall l, is_argsort l (argsort l)) ->
    nZ 0 <' d = false ->
    read_linelist cat ll = Ok rows ->
    (forall r, In r rows -> nisnan (l_wl r) = false /\ nisnan (l_int r) = false) ->
    atlas_init argsort cat els lo hi tol m d v p t rh ll = Ok s ->
    (exists blocks,
      map row_of (at_lines s) = map (fun r => (l_el r, l_wl r, l_int r)) (List.concat blocks) /\
      Forall2 (fun e block =>
        let a := mkLoadArgs [e] lo hi m d v p t rh ll None in
        exists l h sel kept rest,
          vacuum_limits a l h /\ selection rows [e] l h m sel /\
          Permutation (kept ++ rest) sel /\ List.length kept = Nat.min 1000 (List.length sel) /\
          (forall r q, In r rest -> In q kept -> l_int r <=' l_int q = true) /\
          StronglySorted (fun r q => l_int q <=' l_int r = true) kept /\
          Forall2 (presented a) kept block) (elements_of els) blocks) /\
    (atlas_len s <= 1000 * List.length (elements_of els))%nat.
Proof. exact constructor_lines_main. Qed.
Print Assumptions constructor_lines.

Example constructor_lines_example :
  exists s, atlas_init argsort_stable two_cat (ElList ["Xe"; "Kr"]) (fz 3000) (fz 5000) (fz 500)
      (ThNum (fz 10)) (fz 0) true (fz 101325) (fd 27315 (-2)) (fz 0) (LLStr "nist") = Ok s /\
    get_lines s = [fz 4000; fz 4700; fz 4005; fz 4800; fz 4004].
Proof. exact constructor_lines_example_main. Qed.

(** C149 REFUTED: an Atlas made with min_distance = 10 keeps two lines of one element that
    are 5 apart (no catalogue line is dropped for brightness here), and two lines of
    different elements that are 1 apart. *)
Theorem atlas_distance_refuted :
  exists s, atlas_init argsort_stable two_cat (ElList ["Xe"; "Kr"]) (fz 3000) (fz 5000) (fz 500)
      (ThNum (fz 10)) (fz 10) true (fz 101325) (fd 27315 (-2)) (fz 0) (LLStr "nist") = Ok s /\
    get_elements s = ["Xe"; "Xe"; "Xe"; "Kr"; "Kr"] /\
    get_lines s = [fz 4000; fz 4700; fz 4005; fz 4800; fz 4004] /\
    nabs (fz 4000 -' fz 4005) <' fz 10 = true /\ nabs (fz 4005 -' fz 4004) <' fz 10 = true.
Proof. exact atlas_distance_refuted_main. Qed.
Print Assumptions atlas_distance_refuted.

(** C149 (what holds): the lines that one call of Atlas.add without brightest_n_lines adds
    for one element, in vacuum, are at least min_distance apart. *)
Theorem atlas_distance_partial :
  forall argsort (cat : catalogue xr) (s s' : atlas xr) (a : add_args xr) rows (d : R),
    aa_brightest_n a = None -> aa_vacuum a = true ->
    aa_min_distance a = Fin d -> (0 < d)%R ->
    read_linelist cat (aa_linelist a) = Ok rows ->
    (forall r, In r rows -> exists w, l_wl r = Fin w) ->
    atlas_add argsort cat s a = (s', Ok tt) ->
    exists new blocks,
      at_lines s' = at_lines s ++ new /\
      map row_of new = map (fun r => (l_el r, l_wl r, l_int r)) (List.concat blocks) /\
      Forall2 (fun e block => forall r q, In r block -> In q block ->
                 l_el r = e /\ (r <> q -> apart d r q)) (elements_of (aa_elements a)) blocks.
Proof. exact atlas_distance_partial_main. Qed.
Print Assumptions atlas_distance_partial.

(** With min_distance = 10 and no limit on the number the two close lines of Xe are dropped. *)
Example atlas_distance_example :
  let s := mkAtlas [] (fz 3000) (fz 5000) (fz 500) in
  let (s', r) := atlas_add argsort_stable two_cat s (tol_add (ElList ["Xe"; "Kr"]) (fz 10)) in
  r = Ok tt /\ get_lines s' = [fz 4700; fz 4004; fz 4800].
Proof. exact atlas_distance_example_main. Qed.

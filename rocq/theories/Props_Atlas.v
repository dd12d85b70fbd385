(** * Props_Atlas: property theorems only.  The proofs are in Main_Atlas.v. *)

From Coq Require Import ZArith Bool List String Lia Arith Sorted.
From Verif Require Import Num F64 XReal Py Np NpFacts Util SpecUtil UtilFacts LoadFacts ArgsortFacts.
From Verif Require Import Atlas SpecAtlas AtlasFacts.
From Verif Require Import Main_Atlas.
Import ListNotations.
Local Open Scope string_scope.
Local Open Scope list_scope.
Local Open Scope num_scope.

(** C35: after any history of add_user_atlas (accepted or rejected),
    remove_atlas_lines_range and clear on an empty atlas the three getters list,
    aligned and in order, exactly the rows of the specification [contents], which
    are determined by the history. *)
Theorem atlas_history :
  forall (A : Type) (N : Num A) argsort (cat : catalogue A) lo hi tol (h : list (atlas_op A)),
    Forall (fun o => match o with OpAdd _ => False | _ => True end) h ->
    let s := atlas_run argsort cat (mkAtlas [] lo hi tol) h in
    exists rows, contents h rows /\ (forall rows', contents h rows' -> rows' = rows) /\
      get_elements s = map (fun r => fst (fst r)) rows /\
      get_lines s = map (fun r => snd (fst r)) rows /\
      get_intensities s = map snd rows /\
      atlas_len s = List.length rows.
Proof. exact atlas_history_main. Qed.
Print Assumptions atlas_history.

Example atlas_history_example :
  Forall (fun o => match o with OpAdd _ => False | _ => True end) ex_history /\
  let s := atlas_run argsort_stable no_cat (mkAtlas [] (fz 0) (fz 9) (fz 1)) ex_history in
  get_elements s = ["Hg"; "Xe"] /\ get_lines s = [fz 40; fz 90] /\ get_intensities s = [fz 0; fz 3].
Proof. exact atlas_history_example_main. Qed.

(** C36: add_user_atlas either appends all supplied rows after the existing
    lines, or raises and leaves the atlas exactly as it was; the exception tells
    a wrong type, different lengths, or an empty list. *)
Theorem add_user_atlas_atomic :
  forall (A : Type) (N : Num A) (s s' : atlas A) (u : user_args A) r,
    add_user_atlas s u = (s', r) ->
    (r = Ok tt /\ exists rows new, supplied u rows /\
       at_lines s' = at_lines s ++ new /\ map row_of new = rows) \/
    (s' = s /\ (forall rows, ~ supplied u rows) /\
     ((r = Raise TypeError /\ bad_type u) \/
      (r = Raise AssertionError /\ length_mismatch u) \/
      (r = Raise ValueError /\ ua_wavelengths u = SeqList []))).
Proof. exact add_user_atlas_atomic_main. Qed.
Print Assumptions add_user_atlas_atomic.

Example add_user_atlas_atomic_example :
  let s := mkAtlas [mkAL (fz 5) "He" (fz 1) None] (fz 5) (fz 5) (fz 500) in
  supplied (uargs (UElSeq (SeqList ["Hg"; "Ar"])) (SeqList [fz 40; fz 20]) None)
           [("Hg", fz 40, fz 0); ("Ar", fz 20, fz 0)] /\
  add_user_atlas s (uargs (UElSeq (SeqList ["Hg"; "Ar"])) (SeqList [fz 40]) None)
    = (s, Raise AssertionError) /\
  add_user_atlas s (uargs (UElSeq (SeqList [])) (SeqList []) None) = (s, Raise ValueError) /\
  get_lines (fst (add_user_atlas s (uargs (UElSeq (SeqList ["Hg"; "Ar"])) (SeqList [fz 40; fz 20]) None)))
    = [fz 5; fz 40; fz 20].
Proof. exact add_user_atlas_atomic_example_main. Qed.

(** C37: exactly the struck lines (in range, with an even number of in-range
    lines directly before them) disappear; all others stay in order. *)
Theorem remove_range_exact :
  forall (A : Type) (N : Num A) (s : atlas A) (w tol : A),
    let s' := remove_atlas_lines_range s w tol in
    strike (fun x => nabs (al_wl x -' w) <' tol) (at_lines s) (at_lines s') /\
    (forall l', strike (fun x => nabs (al_wl x -' w) <' tol) (at_lines s) l' -> l' = at_lines s') /\
    filter (fun x => negb (nabs (al_wl x -' w) <' tol)) (at_lines s')
      = filter (fun x => negb (nabs (al_wl x -' w) <' tol)) (at_lines s) /\
    at_min s' = at_min s /\ at_max s' = at_max s.
Proof. exact remove_range_exact_main. Qed.
Print Assumptions remove_range_exact.

(** C37: each call removes at least half of the in-range lines, so n calls
    remove them all once 2^n exceeds their number. *)
Theorem remove_range_repeated :
  forall (A : Type) (N : Num A) (s : atlas A) (w tol : A) n,
    (List.length (filter (fun x => nabs (al_wl x -' w) <' tol) (at_lines s)) < 2 ^ n)%nat ->
    forall x, In x (at_lines (Nat.iter n (fun s => remove_atlas_lines_range s w tol) s)) ->
      (nabs (al_wl x -' w) <' tol) = false.
Proof. exact remove_range_repeated_main. Qed.
Print Assumptions remove_range_repeated.

Example remove_range_example :
  get_elements (remove_atlas_lines_range five_lines (fz 102) (fz 5)) = ["a"; "c"; "e"] /\
  (List.length (filter (fun x => nabs (al_wl x -' fz 102) <' fz 5) (at_lines five_lines)) < 2 ^ 2)%nat /\
  get_elements (Nat.iter 2 (fun s => remove_atlas_lines_range s (fz 102) (fz 5)) five_lines) = ["a"; "e"].
Proof. exact remove_range_example_main. Qed.

(** C38: one call clears the range exactly when no two adjacent lines are in it. *)
Theorem remove_range_complete_partial :
  forall (A : Type) (N : Num A) (s : atlas A) (w tol : A),
    (forall x, In x (at_lines (remove_atlas_lines_range s w tol)) -> (nabs (al_wl x -' w) <' tol) = false)
    <-> (forall i x y, nth_error (at_lines s) i = Some x -> nth_error (at_lines s) (S i) = Some y ->
          (nabs (al_wl x -' w) <' tol) && (nabs (al_wl y -' w) <' tol) = false).
Proof. exact remove_range_complete_partial_main. Qed.
Print Assumptions remove_range_complete_partial.

Example remove_range_complete_example :
  (forall i x y, nth_error (at_lines five_lines) i = Some x -> nth_error (at_lines five_lines) (S i) = Some y ->
     (nabs (al_wl x -' fz 300) <' fz 5) && (nabs (al_wl y -' fz 300) <' fz 5) = false) /\
  get_elements (remove_atlas_lines_range five_lines (fz 300) (fz 5)) = ["a"; "b"; "c"; "d"].
Proof. exact remove_range_complete_example_main. Qed.

(** C38 REFUTED: the line at 102 survives the removal of [97, 107]. *)
Theorem remove_range_complete_refuted :
  ~ (forall (s : atlas f64) w tol x, In x (at_lines (remove_atlas_lines_range s w tol)) ->
       (nabs (al_wl x -' w) <' tol) = false).
Proof. exact remove_range_complete_refuted_main. Qed.
Print Assumptions remove_range_complete_refuted.

(** C39: after a successful call the recorded range is the smallest interval that
    holds the lines of that call; so it covers the whole atlas if it was empty
    before. *)
Theorem recorded_range_partial :
  forall (A : Type) (N : Num A) (O : NumOrder A) (s s' : atlas A) (u : user_args A) rows,
    supplied u rows -> (forall r, In r rows -> nisnan (snd (fst r)) = false) ->
    add_user_atlas s u = (s', Ok tt) ->
    (exists r, In r rows /\ at_min s' = snd (fst r)) /\
    (exists r, In r rows /\ at_max s' = snd (fst r)) /\
    (forall r, In r rows -> at_min s' <=' snd (fst r) = true /\ snd (fst r) <=' at_max s' = true) /\
    (at_lines s = [] -> forall x, In x (at_lines s') ->
       at_min s' <=' al_wl x = true /\ al_wl x <=' at_max s' = true).
Proof. exact recorded_range_partial_main. Qed.
Print Assumptions recorded_range_partial.

(** C39 REFUTED: two calls; the recorded range is that of the second only. *)
Theorem recorded_range_refuted :
  let h := [OpUser (uargs (UElSeq (SeqList ["a"])) (SeqList [fz 3000]) None);
            OpUser (uargs (UElSeq (SeqList ["b"])) (SeqList [fz 5000]) None)] in
  let s := atlas_run argsort_stable no_cat (mkAtlas [] (fz 3000) (fz 5000) (fz 500)) h in
  get_lines s = [fz 3000; fz 5000] /\ at_min s = fz 5000 /\
  (at_min s <=' fz 3000) = false.
Proof. exact recorded_range_refuted_main. Qed.
Print Assumptions recorded_range_refuted.

(** C40: Atlas.add without limits loads every catalogue line of a requested
    element up to range_tolerance outside the atlas' limits that is bright
    enough, and nothing outside (vacuum wavelengths, no brightest-n or separation
    cut; a wavelength listed twice is loaded once). *)
Theorem add_range_tolerance_partial :
  forall (A : Type) (N : Num A) (O : NumOrder A) argsort (cat : catalogue A) (s s' : atlas A)
      (a : add_args A) rows e,
    aa_min a = None -> aa_max a = None -> aa_vacuum a = true -> aa_brightest_n a = None ->
    nZ 0 <' aa_min_distance a = false ->
    read_linelist cat (aa_linelist a) = Ok rows ->
    (forall r, In r rows -> nisnan (l_wl r) = false) ->
    In e (elements_of (aa_elements a)) ->
    atlas_add argsort cat s a = (s', Ok tt) ->
    (forall r i, earliest (requested [e] rows) i r ->
       at_min s -' at_range_tol s <=' l_wl r = true ->
       l_wl r <=' at_max s +' at_range_tol s = true ->
       bright_enough [e] (aa_min_intensity a) r ->
       In (l_el r, l_wl r, l_int r) (map row_of (at_lines s'))) /\
    (forall x, In x (at_lines s') -> In x (at_lines s) \/
       (at_min s -' at_range_tol s <=' al_wl x = true /\
        al_wl x <=' at_max s +' at_range_tol s = true)).
Proof. exact add_range_tolerance_partial_main. Qed.
Print Assumptions add_range_tolerance_partial.

(** A call that meets the hypotheses: the line at 2800 is loaded although the
    atlas starts at 3000. *)
Example add_range_tolerance_example :
  let s := mkAtlas [] (fz 3000) (fz 5000) (fz 500) in
  (nZ 0 <' aa_min_distance (tol_add (ElStr "Xe") (fz 0))) = false /\
  let (s', r) := atlas_add argsort_stable tol_cat s (tol_add (ElStr "Xe") (fz 0)) in
  r = Ok tt /\ get_lines s' = [fz 2800; fz 4000].
Proof. exact add_range_tolerance_example_main. Qed.

(** C40 REFUTED for the constructor: with range_tolerance 500 and the limits
    [3000, 5000] the line at 2800 is not loaded. *)
Theorem constructor_range_tolerance_refuted :
  exists s, atlas_init argsort_stable tol_cat (ElStr "Xe") (fz 3000) (fz 5000) (fz 500)
      (ThNum (fz 10)) (fz 0) true (fz 101325) (fd 27315 (-2)) (fz 0) (LLStr "nist") = Ok s /\
    get_lines s = [fz 4000].
Proof. exact constructor_range_tolerance_refuted_main. Qed.
Print Assumptions constructor_range_tolerance_refuted.

(** C40: the constructor's result does not depend on range_tolerance at all. *)
Theorem constructor_ignores_tolerance :
  forall (A : Type) (N : Num A) argsort (cat : catalogue A) els lo hi tol1 tol2 m d v p t rh ll,
    match atlas_init argsort cat els lo hi tol1 m d v p t rh ll,
          atlas_init argsort cat els lo hi tol2 m d v p t rh ll with
    | Ok s1, Ok s2 => at_lines s1 = at_lines s2
    | Raise e1, Raise e2 => e1 = e2
    | _, _ => False
    end.
Proof. exact constructor_ignores_tolerance_main. Qed.
Print Assumptions constructor_ignores_tolerance.

(** C41: Atlas.add never loses or changes lines or the recorded range; when it
    raises, only the lines of the elements before the offending one were added
    (none, if a limit is not finite or the first element is the offending one). *)
Theorem atlas_add_partial :
  forall (A : Type) (N : Num A) argsort (cat : catalogue A) (s s' : atlas A) (a : add_args A) r,
    atlas_add argsort cat s a = (s', r) ->
    at_min s' = at_min s /\ at_max s' = at_max s /\ at_range_tol s' = at_range_tol s /\
    exists new, at_lines s' = at_lines s ++ new /\
      match r with
      | Ok _ => loaded argsort cat (request s a) (elements_of (aa_elements a)) (map row_of new)
      | Raise ex => new = [] \/ exists before e after,
          before <> [] /\ elements_of (aa_elements a) = before ++ e :: after /\
          loaded argsort cat (request s a) before (map row_of new) /\
          load_calibration_lines argsort cat (request s a e) = Raise ex
      end.
Proof. exact atlas_add_partial_main. Qed.
Print Assumptions atlas_add_partial.

Example atlas_add_example :
  let s := mkAtlas [mkAL (fz 5) "He" (fz 1) None] (fz 3000) (fz 5000) (fz 500) in
  let (s', r) := atlas_add argsort_stable tol_cat s (tol_add (ElStr "Xe") (fz 0)) in
  r = Ok tt /\ get_lines s' = [fz 5; fz 2800; fz 4000].
Proof. exact atlas_add_example_main. Qed.

(** C41 REFUTED: adding ["Xe"; "Kr"] raises (no Kr line is known), yet the lines
    of Xe have been added. *)
Theorem atlas_add_refuted :
  let s := mkAtlas [] (fz 3000) (fz 5000) (fz 500) in
  let (s', r) := atlas_add argsort_stable tol_cat s (tol_add (ElList ["Xe"; "Kr"]) (fz 10)) in
  r = Raise IndexError /\ get_lines s' = [fz 2800; fz 4000].
Proof. exact atlas_add_refuted_main. Qed.
Print Assumptions atlas_add_refuted.

(** C82 REFUTED: a single line (element str, wavelength float) as documented is
    rejected, and a two-letter symbol with two wavelengths is split into letters. *)
Theorem add_single_user_line_refuted :
  let s := mkAtlas [] (fz 3000) (fz 5000) (fz 500) in
  add_user_atlas s (uargs (UElStr "Hg") SeqBad None) = (s, Raise TypeError) /\
  add_user_atlas s (uargs (UElStr "Hg") (SeqList [fz 4358]) None) = (s, Raise AssertionError) /\
  get_elements (fst (add_user_atlas s (uargs (UElStr "Hg") (SeqList [fz 4358; fz 5461]) None))) = ["H"; "g"].
Proof. exact add_single_user_line_refuted_main. Qed.
Print Assumptions add_single_user_line_refuted.

(** C82: a one-character symbol with a one-element list is accepted. *)
Theorem add_single_user_line_partial :
  forall (A : Type) (N : Num A) (s : atlas A) c (w p t rh : A),
    exists s', add_user_atlas s (mkUserArgs (UElStr (String c EmptyString)) (SeqList [w]) None false p t rh)
      = (s', Ok tt) /\
    at_lines s' = at_lines s ++ [mkAL w (String c EmptyString) (nZ 0) None].
Proof. exact add_single_user_line_partial_main. Qed.
Print Assumptions add_single_user_line_partial.

(** C83 REFUTED: element names are compared with case. *)
Theorem element_case_insensitive_refuted :
  let s := mkAtlas [] (fz 3000) (fz 5000) (fz 500) in
  (let (s', r) := atlas_add argsort_stable tol_cat s (tol_add (ElStr "xe") (fz 0)) in
   r = Ok tt /\ get_lines s' = []) /\
  (let (s', r) := atlas_add argsort_stable tol_cat s (tol_add (ElStr "Xe") (fz 0)) in
   r = Ok tt /\ get_lines s' = [fz 2800; fz 4000]).
Proof. exact element_case_insensitive_refuted_main. Qed.
Print Assumptions element_case_insensitive_refuted.

(** C83 (part that holds): every line that Atlas.add adds belongs to a requested
    symbol spelled exactly as in the line list; a call none of whose symbols is
    spelled as in the list adds nothing. *)
Theorem element_spelling_partial :
  forall (A : Type) (N : Num A) argsort (cat : catalogue A) (s s' : atlas A) (a : add_args A) rows,
    atlas_add argsort cat s a = (s', Ok tt) -> read_linelist cat (aa_linelist a) = Ok rows ->
    (exists new, at_lines s' = at_lines s ++ new /\
       forall x, In x new -> In (al_el x) (elements_of (aa_elements a)) /\ exists r, In r rows /\ l_el r = al_el x) /\
    ((forall e r, In e (elements_of (aa_elements a)) -> In r rows -> l_el r <> e) -> at_lines s' = at_lines s).
Proof. exact element_spelling_partial_main. Qed.
Print Assumptions element_spelling_partial.

(** Both cases occur: see C83 above ("xe" and "Xe"); the list has lines of Xe. *)
Example element_spelling_example :
  (exists rows, read_linelist tol_cat (aa_linelist (tol_add (ElStr "Xe") (fz 0))) = Ok rows /\
     exists r, In r rows /\ l_el r = "Xe") /\
  snd (atlas_add argsort_stable tol_cat (mkAtlas [] (fz 3000) (fz 5000) (fz 500)) (tol_add (ElStr "Xe") (fz 0))) = Ok tt.
Proof. exact element_spelling_example_main. Qed.

(** * Props_Listing: property theorems only.  The proofs are in Main_Listing.v. *)

From Coq Require Import ZArith Bool List String Ascii Lia SpecFloat.
From Verif Require Import Num F64 Py Np Util Atlas SpecAtlas Main_Atlas Hough PolyEval Calib SpecCalib CalibFacts SpecMirror Main_Mirror Listing.
From Verif Require Import Main_Listing.
Import ListNotations.
Local Open Scope string_scope.
Local Open Scope list_scope.

(** C152: the text printed for an Atlas determines its lines: if str() has no blanks and
    tells the numbers apart, two atlases print the same text exactly if they hold the same
    elements, wavelengths and intensities in the same order. *)
Theorem list_tells_lines :
  forall (A : Type) (N : Num A) (show : A -> string) (s t : atlas A),
    (forall x, unbroken (show x)) ->
    (forall x y, In x (numbers s) -> In y (numbers t) -> show x = show y -> x = y) ->
    (atlas_list show s = atlas_list show t <-> map told (at_lines s) = map told (at_lines t)).
Proof. exact list_tells_lines_main. Qed.
Print Assumptions list_tells_lines.

(** C152: user lines are printed after the lines the Atlas held, one text per supplied
    row and in the order supplied; a rejected call changes nothing. *)
Theorem list_after_user :
  forall (A : Type) (N : Num A) (show : A -> string) (s s' : atlas A) (u : user_args A) r,
    add_user_atlas s u = (s', r) ->
    (r = Ok tt /\ exists rows, supplied u rows /\
       atlas_list show s' = atlas_list show s ++
         map (fun q : string * A * A => let '(el, w, i) := q in
                ("Element " ++ el ++ " at " ++ show w ++ " with intensity " ++ show i)%string) rows) \/
    ((exists e, r = Raise e) /\ atlas_list show s' = atlas_list show s).
Proof. exact list_after_user_main. Qed.
Print Assumptions list_after_user.

(** C152: list_atlas raises AttributeError exactly when the calibrator has no Atlas; else
    it prints what list prints for an Atlas object that received the same calls. *)
Theorem list_atlas_mirror :
  forall (A : Type) (N : Num A) (show : A -> string) (e : env A) peaks spectrum c0 h1 h2 s,
    calib_init (e_hull e) peaks spectrum = Ok c0 ->
    cal_list_atlas show c0 = Raise AttributeError /\
    (c_atlas (cal_run e c0 h1) = Some s ->
     Forall (fun o => forall a t k, o <> OSetAtlas a t k) h2 ->
     exists ops, atlas_calls e (cal_run e c0 h1) h2 ops /\
       cal_list_atlas show (cal_run e c0 (h1 ++ h2)) =
         Ok (atlas_list show (atlas_run (e_argsort e) (e_cat e) s ops))).
Proof. exact list_atlas_mirror_main. Qed.
Print Assumptions list_atlas_mirror.

Example list_after_user_example :
  let s := mkAtlas [mkAL (fz 40) "Hg" (fz 0) None] (fz 20) (fz 40) (fz 500) in
  let u := uargs (UElSeq (SeqList ["Ne I"; "at"])) (SeqList [fz 20; fz 40]) None in
  atlas_list show_ex (fst (add_user_atlas s u)) =
    ["Element Hg at 40.0 with intensity 0.0"; "Element Ne I at 20.0 with intensity 0.0";
     "Element at at 40.0 with intensity 0.0"].
Proof. exact list_after_user_example_main. Qed.

Example list_tells_lines_example :
  let s := mkAtlas [mkAL (fz 40) "Hg" (fz 0) None; mkAL (fz 20) "Ne I" (fz 40) None] (fz 20) (fz 40) (fz 500) in
  let t := mkAtlas [mkAL (fz 20) "Ne I" (fz 40) None; mkAL (fz 40) "Hg" (fz 0) None] (fz 20) (fz 40) (fz 500) in
  (forall x, unbroken (show_ex x)) /\
  (forall x y, In x (numbers s) -> In y (numbers t) -> show_ex x = show_ex y -> x = y) /\
  atlas_list show_ex s <> atlas_list show_ex t.
Proof. exact list_tells_lines_example_main. Qed.

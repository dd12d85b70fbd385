(** * Props_Delim: property theorems only.  The proofs are in Main_Delim.v. *)

From Coq Require Import ZArith Bool List String Ascii Lia.
From Verif Require Import Num F64 Py Np Util Atlas Hough Calib Delim.
From Verif Require Import Main_Delim.
Import ListNotations.
Local Open Scope string_scope.

(** C154: "+" is the default.  With any other delimiter the call does what the formats
    joined by "+" do, provided the first character of the delimiter is in none of the
    names; with an empty delimiter it raises ValueError and writes nothing. *)
Theorem save_delimiter_partial :
  forall (A : Type) (N : Num A) (h : hough A) fs filename to_disk,
    (forall fileformat, hough_save_with "+" h fs filename fileformat to_disk = hough_save h fs filename fileformat to_disk) /\
    (forall fileformat, hough_save_with "" h fs filename fileformat to_disk = (fs, Raise ValueError)) /\
    (forall d u names, names <> [] -> Forall (lacks d) names -> Forall (lacks "+") names ->
       hough_save_with (String d u) h fs filename (String.concat (String d u) names) to_disk =
       hough_save h fs filename (String.concat "+" names) to_disk).
Proof. exact save_delimiter_partial_main. Qed.
Print Assumptions save_delimiter_partial.

(** C154: the same for a Calibrator, which also passes the delimiter on. *)
Theorem calibrator_delimiter :
  forall (A : Type) (N : Num A) (c : calib A) fs filename to_disk,
    (forall fileformat, save_hough_transform_with "+" c fs filename fileformat to_disk = save_hough_transform c fs filename fileformat to_disk) /\
    (forall d u names, names <> [] -> Forall (lacks d) names -> Forall (lacks "+") names ->
       save_hough_transform_with (String d u) c fs filename (String.concat (String d u) names) to_disk =
       save_hough_transform c fs filename (String.concat "+" names) to_disk).
Proof. exact calibrator_delimiter_main. Qed.
Print Assumptions calibrator_delimiter.

(** C154 fails for a delimiter that occurs in the names: with "n" the formats "npy" and
    "json" are cut to pieces, nothing is written and nothing is raised. *)
Theorem save_delimiter_refuted :
  forall (A : Type) (N : Num A) (h : hough A) fs filename to_disk,
    hough_save_with "n" h fs filename (String.concat "n" ["npy"; "json"]) to_disk = (fs, Ok SvNone).
Proof. exact save_delimiter_refuted_main. Qed.
Print Assumptions save_delimiter_refuted.

Example save_delimiter_example :
  String.concat ", " ["npy"; "json"] = "npy, json" /\
  Forall (lacks ",") ["npy"; "json"] /\ Forall (lacks "+") ["npy"; "json"] /\
  py_split ", " "npy, json" = Ok ["npy"; "json"] /\ py_split "," "npy, json" = Ok ["npy"; " json"] /\
  py_split "ab" "xabaabb" = Ok ["x"; "a"; "b"].
Proof. exact save_delimiter_example_main. Qed.

(** * Delim: saving a Hough transform with another delimiter between the formats. *)

From Coq Require Import ZArith Bool List String Ascii.
From Verif Require Import Num Py Np Util Atlas Hough Calib.
Import ListNotations.
Local Open Scope string_scope.

(** The pieces of s between the occurrences of sep found from left to right; [skip]
    characters of an occurrence are still to be passed over. *)
Fixpoint cut_at (sep : string) (skip : nat) (s : string) : list string :=
  match s with
  | EmptyString => [EmptyString]
  | String c r =>
      match skip with
      | S k => cut_at sep k r
      | O => if prefix sep s then EmptyString :: cut_at sep (String.length sep - 1) r
             else match cut_at sep 0 r with
                  | [] => [String c EmptyString]
                  | h :: t => String c h :: t
                  end
      end
  end.

(** python's s.split(sep): an empty sep raises ValueError. *)
Definition py_split (sep s : string) : res (list string) :=
  match sep with
  | EmptyString => Raise ValueError
  | _ => Ok (cut_at sep 0 s)
  end.

Section Delim.
  Context {A : Type} {N : Num A}.

  (** houghtransform.py:244-289: save after the list of formats is known. *)
  Definition hough_save_list (h : hough A) (fs : files A) (filename : string) (fmt : list string) (to_disk : bool)
    : files A * res (@save_result A) :=
    let npy := str_in "npy" fmt in
    let json := str_in "json" fmt in
    let fs1 := if npy && to_disk then write fs (filename ++ ".npy") (FNpy (npy_of h)) else fs in
    match (if json then bind (json_of h) (fun j => Ok (Some j)) else Ok None) with
    | Raise e => (fs1, Raise e)
    | Ok oj =>
        let fs2 := match oj with
                   | Some j => if to_disk then write fs1 (filename ++ ".json") (FJson j) else fs1
                   | None => fs1
                   end in
        (fs2, Ok (if to_disk then SvNone
                  else match npy, oj with
                       | true, None => SvNpy (npy_of h)
                       | false, Some j => SvJson j
                       | true, Some j => SvBoth (npy_of h) j
                       | false, None => SvNone
                       end))
    end.

  (** houghtransform.py:212-289 HoughTransform.save with any delimiter. *)
  Definition hough_save_with (delimiter : string) (h : hough A) (fs : files A) (filename fileformat : string)
      (to_disk : bool) : files A * res (@save_result A) :=
    match py_split delimiter fileformat with
    | Raise e => (fs, Raise e)
    | Ok fmt => hough_save_list h fs filename fmt to_disk
    end.

  (** calibrator.py:1454-1487 Calibrator.save_hough_transform with any delimiter. *)
  Definition save_hough_transform_with (delimiter : string) (c : calib A) (fs : files A)
      (filename fileformat : string) (to_disk : bool) : files A * res (@save_result A) :=
    let (fs', r) := hough_save_with delimiter (c_ht c) fs filename fileformat to_disk in
    (fs', bind r (fun _ => Ok SvNone)).
End Delim.

(** * SaveSteps: HoughTransform.save(to_disk=True) step by step: what is on the disk while it
    runs, and what json.dump does with numpy's integers (houghtransform.py:242-271). *)

From Coq Require Import ZArith Bool List String Ascii.
From Verif Require Import Num Py Np Util Atlas Hough.
Import ListNotations.
Local Open Scope string_scope.

(** The python type of a number: int, float, a numpy integer, np.float64 (a subclass of
    float). *)
Inductive numtype : Type := PyInt | PyFloat | NpInt | NpFloat.

(** The type of a + b and of a - b. *)
Definition sum_type (a b : numtype) : numtype :=
  match a, b with
  | PyInt, PyInt => PyInt
  | NpInt, NpInt | NpInt, PyInt | PyInt, NpInt => NpInt
  | PyFloat, PyFloat | PyFloat, PyInt | PyInt, PyFloat => PyFloat
  | _, _ => NpFloat
  end.

(** json.dump writes ints and floats; a numpy integer raises TypeError. *)
Definition json_ok (t : numtype) : bool :=
  match t with NpInt => false | _ => true end.

(** calibrator.py:1089-1117, houghtransform.py:66-69: the types of the four limits, in the
    order of [ho_lims], for the types of min_wavelength and range_tolerance.  The slopes
    are divided by np.ptp(pixel_list). *)
Definition limit_types (wavelength tolerance : numtype) : list numtype :=
  [NpFloat; NpFloat; sum_type wavelength tolerance; sum_type wavelength tolerance].

Section SaveSteps.
  Context {A : Type} {N : Num A}.

  (** What happens to a file: it is opened for writing, so that it is empty and then holds
      the beginning of the content ([FOther]: load cannot read it); or the rest has been
      written. *)
  Inductive disk_op : Type := Begin (name : string) | Finish (name : string) (f : @file A).

  Definition disk_do (fs : files A) (o : disk_op) : files A :=
    match o with
    | Begin n => write fs n FOther
    | Finish n f => write fs n f
    end.

  (** houghtransform.py:242-271 save(filename, fileformat, to_disk=True) with the default
      delimiter, for limits of types [ty]: the steps on the disk and the result.  json.dump
      writes piece by piece, the limits at last, and a limit it cannot write raises. *)
  Definition save_steps (ty : list numtype) (h : hough A) (filename fileformat : string)
    : list disk_op * res (@save_result A) :=
    let fmt := split_plus fileformat in
    let npy := if str_in "npy" fmt
               then [Begin (filename ++ ".npy"); Finish (filename ++ ".npy") (FNpy (npy_of h))]%list else [] in
    if str_in "json" fmt then
      match json_of h with
      | Raise e => (npy, Raise e)
      | Ok j =>
          if forallb json_ok ty
          then ((npy ++ [Begin (filename ++ ".json"); Finish (filename ++ ".json") (FJson j)])%list, Ok SvNone)
          else ((npy ++ [Begin (filename ++ ".json")])%list, Raise TypeError)
      end
    else (npy, Ok SvNone).

  (** The disk after n of the steps. *)
  Definition disk_after (fs : files A) (steps : list disk_op) (n : nat) : files A :=
    fold_left disk_do (firstn n steps) fs.
End SaveSteps.
Arguments disk_op A : clear implicits.

(** * Props_SaveSteps: property theorems only.  The proofs are in Main_SaveSteps.v. *)

From Coq Require Import ZArith Bool List String Ascii Lia FunctionalExtensionality.
From Verif Require Import Num F64 Py Np Atlas Hough SpecHough HoughFacts Main_Hough SaveSteps.
From Verif Require Import Main_SaveSteps.
Import ListNotations.
Local Open Scope string_scope.

(** What holds: unless both min_wavelength and range_tolerance are integers and one of them
    a numpy integer, the steps are those of save as otherwise modelled: the same files
    in the end and the same result. *)
Theorem save_kinds_partial :
  forall (A : Type) (N : Num A) (w t : numtype) (h : hough A) (fs : files A) name fmt,
    ~ ((w = PyInt \/ w = NpInt) /\ (t = PyInt \/ t = NpInt) /\ (w = NpInt \/ t = NpInt)) ->
    let s := save_steps (limit_types w t) h name fmt in
    disk_after fs (fst s) (List.length (fst s)) = fst (hough_save h fs name fmt true) /\
    snd s = snd (hough_save h fs name fmt true).
Proof. exact save_kinds_partial_main. Qed.
Print Assumptions save_kinds_partial.

(** Refuted: with a numpy integer and another integer, saving as json raises TypeError, for
    every transform that could be saved, and leaves a file that cannot be loaded, whatever
    was there before. *)
Theorem save_kinds_refuted :
  forall (A : Type) (N : Num A) (w t : numtype) (h g : hough A) (fs : files A) name j,
    (w = PyInt \/ w = NpInt) -> (t = PyInt \/ t = NpInt) -> (w = NpInt \/ t = NpInt) ->
    hough_save h fs name "json" true = (write fs (name ++ ".json") (FJson j), Ok SvNone) ->
    str_last 5 name <> ".json" ->
    let s := save_steps (limit_types w t) h name "json" in
    let fs' := disk_after fs (fst s) (List.length (fst s)) in
    snd s = Raise TypeError /\ hough_load g fs' name "json" = (g, Raise ValueError).
Proof. exact save_kinds_refuted_main. Qed.
Print Assumptions save_kinds_refuted.

(** A new calibrator has min_wavelength 3000.0; given np.int64(3000) with the default
    range_tolerance 500 the file is lost. *)
Example save_kinds_example :
  snd (save_steps (limit_types PyFloat PyInt) binned_example "t" "json") = Ok SvNone /\
  snd (save_steps (limit_types NpInt PyInt) binned_example "t" "json") = Raise TypeError /\
  snd (save_steps (limit_types NpInt PyInt) binned_example "t" "npy") = Ok SvNone /\
  (exists j, hough_save binned_example (fun _ => None) "t" "json" true = (write (fun _ => None) ("t" ++ ".json") (FJson j), Ok SvNone)).
Proof. exact save_kinds_example_main. Qed.

(** What holds if saving is interrupted (a crash, or no more space) after any number of
    steps, for every transform, names and formats: other files are untouched; a name that
    is loaded then gives what it gave before, or the complete new content, or ValueError
    with nothing changed.  A part of a file is never taken for the whole. *)
Theorem interrupted_save_partial :
  forall (A : Type) (N : Num A) ty (h g : hough A) (fs : files A) name fmt n,
    let fs' := disk_after fs (fst (save_steps ty h name fmt)) n in
    (forall m, m <> name ++ ".npy" -> m <> name ++ ".json" -> fs' m = fs m) /\
    forall other kind,
      hough_load g fs' other kind = hough_load g fs other kind \/
      hough_load g fs' other kind = (g, Raise ValueError) \/
      hough_load g fs' other kind = hough_load g (fst (hough_save h fs name kind true)) other kind.
Proof. exact interrupted_save_partial_main. Qed.
Print Assumptions interrupted_save_partial.

(** Refuted: interrupted after its first step, saving over an earlier file of the same
    name loses it: load raises whatever was there; and with both formats, interrupted
    between them, the two files are of different transforms. *)
Theorem interrupted_save_refuted :
  (forall (A : Type) (N : Num A) w (h g : hough A) (fs : files A) name,
     str_last 4 name <> ".npy" ->
     hough_load g (disk_after fs (fst (save_steps w h name "npy")) 1) name "npy" = (g, Raise ValueError)) /\
  (forall (A : Type) (N : Num A) w (h g : hough A) (fs : files A) name,
     str_last 5 name <> ".json" -> (exists j, json_of h = Ok j) ->
     hough_load g (disk_after fs (fst (save_steps w h name "json")) 1) name "json" = (g, Raise ValueError) /\
     disk_after fs (fst (save_steps w h name "npy+json")) 2 (name ++ ".npy") = Some (FNpy (npy_of h)) /\
     disk_after fs (fst (save_steps w h name "npy+json")) 2 (name ++ ".json") = fs (name ++ ".json")).
Proof. exact interrupted_save_refuted_main. Qed.
Print Assumptions interrupted_save_refuted.

(** Saving over an earlier save, interrupted, and complete. *)
Example interrupted_save_example :
  let ty := limit_types PyFloat PyInt in
  let old := fst (hough_save binned_example (fun _ => None) "t" "npy+json" true) in
  let s := fst (save_steps ty binned_example "t" "npy+json") in
  List.length s = 4%nat /\
  snd (hough_load hough_init old "t" "npy") = Ok tt /\
  snd (hough_load hough_init (disk_after old s 1) "t" "npy") = Raise ValueError /\
  snd (hough_load hough_init (disk_after old s 2) "t" "npy") = Ok tt /\
  snd (hough_load hough_init (disk_after old s 3) "t" "json") = Raise ValueError /\
  snd (hough_load hough_init (disk_after old s 4) "t" "json") = Ok tt.
Proof. exact interrupted_save_example_main. Qed.

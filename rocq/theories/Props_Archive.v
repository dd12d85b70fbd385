(** * Props_Archive: property theorems only.  The proofs are in Main_Archive.v. *)

From Coq Require Import ZArith Bool List String Lia.
From Verif Require Import Num F64 Py Np Hough SpecHough HoughFacts Calib SpecCalib CalibFacts Main_Hough Main_Calib.
From Verif Require Import Main_Archive.
Import ListNotations.
Local Open Scope string_scope.
Local Open Scope num_scope.

(** C146: what a calibrator saved (in a format with npy) can be loaded, into any
    calibrator, whatever was saved since under other names. *)
Theorem saved_npy_kept :
  forall (A : Type) (N : Num A) (c d : calib A) fs name fmt (later : list (save_call A)),
    complete (c_ht c) -> str_in "npy" (split_plus fmt) = true -> str_last 4 name <> ".npy" ->
    (forall s, In s later -> sv_name s <> name) ->
    exists d',
      load_hough_transform d (save_all (fst (save_hough_transform c fs name fmt true)) later) name "npy" = (d', Ok tt) /\
      same_stored (c_ht c) (c_ht d') /\ ho_lines (c_ht d') = ho_lines (c_ht d).
Proof. exact saved_npy_kept_main. Qed.
Print Assumptions saved_npy_kept.

(** C146: the same for json, where the points come back as a python list. *)
Theorem saved_json_kept :
  forall (A : Type) (N : Num A) (c d : calib A) pts fs name fmt (later : list (save_call A)),
    complete (c_ht c) -> ho_points (c_ht c) = Some (HArr pts) ->
    str_in "json" (split_plus fmt) = true -> str_last 5 name <> ".json" ->
    (forall s, In s later -> sv_name s <> name) ->
    exists d',
      load_hough_transform d (save_all (fst (save_hough_transform c fs name fmt true)) later) name "json" = (d', Ok tt) /\
      ho_points (c_ht d') = Some (HList pts) /\ ho_hist (c_ht d') = ho_hist (c_ht c) /\
      ho_xedges (c_ht d') = ho_xedges (c_ht c) /\ ho_yedges (c_ht d') = ho_yedges (c_ht c) /\
      ho_lims (c_ht d') = ho_lims (c_ht c) /\ ho_lines (c_ht d') = ho_lines (c_ht d).
Proof. exact saved_json_kept_main. Qed.
Print Assumptions saved_json_kept.

(** C146: loading touches nothing but the transform (with the old transform put back the
    calibrator is the old one); a file that is not there and an unknown type are refused
    and change nothing. *)
Theorem load_only_transform :
  forall (A : Type) (N : Num A) (c : calib A) fs name t,
    let r := load_hough_transform c fs name t in
    set_c_ht (c_ht c) (fst r) = c /\
    (t <> "npy" -> t <> "json" -> r = (c, Raise ValueError)) /\
    (forall suffix, t = "npy" /\ suffix = ".npy" \/ t = "json" /\ suffix = ".json" ->
       fs name = None -> fs (name ++ suffix) = None -> r = (c, Raise FileNotFoundError)).
Proof. exact load_only_transform_main. Qed.
Print Assumptions load_only_transform.

(** C146: a transform saved under one name, another and an in-memory save since, loaded into
    a new calibrator. *)
Example archive_example :
  match calib_init all_inside [fz 10; fz 20] None return Prop with
  | Ok c0 =>
      let c := set_c_ht binned_example c0 in
      let later := [mkSave c0 "other" "npy+json" true; mkSave c "run" "npy" true; mkSave c0 "runs" "json" true] in
      complete (c_ht c) /\ (forall s, In s later -> sv_name s <> "first") /\
      str_in "npy" (split_plus "json+npy") = true /\ str_in "json" (split_plus "json+npy") = true /\
      str_last 4 "first" <> ".npy" /\ str_last 5 "first" <> ".json" /\
      ho_hist (c_ht (fst (load_hough_transform c0 (save_all (fun _ => None) (mkSave c "first" "json+npy" true :: later)) "first" "json")))
      = ho_hist binned_example
  | Raise _ => False
  end.
Proof. exact archive_example_main. Qed.

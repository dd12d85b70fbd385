(** * Props_SaveName: property theorems only.  The proofs are in Main_SaveName.v. *)

From Coq Require Import ZArith Bool List String Lia.
From Verif Require Import Num F64 Py Np Hough SpecHough HoughFacts Main_Hough.
From Verif Require Import Main_SaveName.
Import ListNotations.
Local Open Scope string_scope.

(** C33 (what holds), for every name and either file type: if the name does not end in the
    suffix of the file type, load(name) after save(name) succeeds and restores everything
    stored; if it does, load behaves as if nothing had been saved, and so fails when there
    was no file of that name before. *)
Theorem save_load_name_partial :
  forall (A : Type) (N : Num A) (h g : hough A) pts fs name fmt,
    complete h -> ho_points h = Some (HArr pts) -> fmt = "npy" \/ fmt = "json" ->
    let suffix := "." ++ fmt in
    let saved := hough_save h fs name fmt true in
    let loaded := hough_load g (fst saved) name fmt in
    snd saved = Ok SvNone /\
    (str_last (String.length suffix) name <> suffix ->
       snd loaded = Ok tt /\
       ho_points (fst loaded) = Some (if fmt =? "npy" then HArr pts else HList pts) /\
       ho_hist (fst loaded) = ho_hist h /\ ho_xedges (fst loaded) = ho_xedges h /\
       ho_yedges (fst loaded) = ho_yedges h /\ ho_lims (fst loaded) = ho_lims h) /\
    (str_last (String.length suffix) name = suffix ->
       loaded = hough_load g fs name fmt /\
       (fs name = None -> loaded = (g, Raise FileNotFoundError))).
Proof. exact save_load_name_partial_main. Qed.
Print Assumptions save_load_name_partial.

(** A name of each kind, for a transform that was binned. *)
Example save_load_name_example :
  complete binned_example /\
  (exists pts, ho_points binned_example = Some (HArr pts)) /\
  snd (hough_load hough_init (fst (hough_save binned_example (fun _ => None) "run.json" "npy" true)) "run.json" "npy")
    = Ok tt /\
  snd (hough_load hough_init (fst (hough_save binned_example (fun _ => None) "run.json" "json" true)) "run.json" "json")
    = Raise FileNotFoundError.
Proof. exact save_load_name_example_main. Qed.

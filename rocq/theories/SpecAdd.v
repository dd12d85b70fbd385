(** * SpecAdd: what Calibrator.add_atlas should add. *)

From Coq Require Import ZArith Bool List String.
From Verif Require Import Num Py Np Util SpecUtil Atlas SpecAtlas Hough Calib.
Import ListNotations.
Local Open Scope num_scope.

Section Spec.
  Context {A : Type} {N : Num A}.

  (** The lines of the calibrator's atlas; none before there is one. *)
  Definition lines_of (c : calib A) : list (atlas_line A) :=
    match c_atlas c with Some s => at_lines s | None => [] end.

  (** The load for element [e]: the limits given, else the wavelength range of the
      calibrator widened on both sides by its range tolerance. *)
  Definition configured_request (minw maxw rt : A) (a : add_args A) (e : string) : load_args A :=
    {| la_elements := [e];
       la_min_wl := oget (minw -' rt) (aa_min a);
       la_max_wl := oget (maxw +' rt) (aa_max a);
       la_min_intensity := aa_min_intensity a;
       la_min_distance := aa_min_distance a;
       la_vacuum := aa_vacuum a;
       la_pressure := aa_pressure a;
       la_temperature := aa_temperature a;
       la_rh := aa_rh a;
       la_linelist := aa_linelist a;
       la_brightest_n := Some 1000%nat |}.
End Spec.

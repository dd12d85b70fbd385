(** * SpecAgain: calibrators that put the same question to fit. *)

From Coq Require Import ZArith Bool List.
From Verif Require Import Num Py Np Util Atlas Hough PolyEval Calib.
Import ListNotations.

Section Spec.
  Context {A : Type} {N : Num A}.

  (** Same peaks, atlas, known pairs, properties, pixel-wavelength pairs and Hough
      transform.  The results of earlier calls (coefficients, fit type and degree, matched
      pairs, rms, residuals, utilisations), the spectrum and the settings of the next
      _generate_pairs may differ. *)
  Definition same_question (c d : calib A) : Prop :=
    c_peaks d = c_peaks c /\ c_atlas d = c_atlas c /\ c_known d = c_known c /\
    c_gp d = c_gp c /\ c_hp d = c_hp c /\ c_rp d = c_rp c /\ c_pairs d = c_pairs c /\
    c_ht d = c_ht c /\ c_lines d = c_lines c /\ c_points d = c_points c.
End Spec.

(** * SpecFit: what fit may touch, and candidate pairs that belong to the atlas. *)

From Coq Require Import ZArith Bool List.
From Verif Require Import Num Py Np Util Atlas Hough PolyEval Calib Cand Ransac Fit.
Import ListNotations.
Local Open Scope num_scope.

Section Spec.
  Context {A : Type} {N : Num A}.

  (** The rows of self.pairs combine a current peak with a line of the current atlas
      (true after set_atlas, add_atlas, add_user_atlas and set_hough_properties). *)
  Definition pairs_current (c : calib A) : Prop :=
    exists at_, c_atlas c = Some at_ /\
      match c_pairs c with
      | PArr l => forall a b, In (a, b) l -> In a (c_peaks c) /\ In b (get_lines at_)
      | _ => True
      end.

  (** (a, b) is nearer than tol to one of the straight lines (slope, intercept). *)
  Definition near_line (lines : list (A * A)) (tol a b : A) : Prop :=
    exists m k, In (m, k) lines /\ nabs ((m *' a +' k) -' b) <=' tol = true.

  (** What the user supplied. *)
  Definition same_input (c c' : calib A) : Prop :=
    c_peaks c' = c_peaks c /\ c_spectrum c' = c_spectrum c /\ c_atlas c' = c_atlas c /\
    c_known c' = c_known c /\ c_gp c' = c_gp c /\ c_hp c' = c_hp c /\
    c_cand_tol c' = c_cand_tol c /\ c_constrain c' = c_constrain c /\ c_pairs c' = c_pairs c.

  (** The figures describing the last successful fit. *)
  Definition same_figures (c c' : calib A) : Prop :=
    c_rms c' = c_rms c /\ c_resid c' = c_resid c /\ c_putil c' = c_putil c /\ c_autil c' = c_autil c /\
    c_residuals c' = c_residuals c.

  (** RANSAC properties equal but for sample_size and minimum_matches. *)
  Definition same_ransac (c c' : calib A) : Prop :=
    r_top (c_rp c') = r_top (c_rp c) /\ r_linear (c_rp c') = r_linear (c_rp c) /\
    r_close (c_rp c') = r_close (c_rp c) /\ r_tol (c_rp c') = r_tol (c_rp c) /\
    r_weighted (c_rp c') = r_weighted (c_rp c) /\ r_hweight (c_rp c') = r_hweight (c_rp c) /\
    r_util (c_rp c') = r_util (c_rp c) /\ r_fit_error (c_rp c') = r_fit_error (c_rp c).
End Spec.

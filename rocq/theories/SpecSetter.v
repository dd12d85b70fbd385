(** * SpecSetter: the configuring calls and their states when they are interrupted. *)

From Coq Require Import ZArith Bool List String.
From Verif Require Import Num Py Np Util Atlas Hough PolyEval Calib SetterSteps.
Import ListNotations.

(** The calls. *)
Inductive setting (A : Type) : Type :=
| TCalibrator (num_pix : option A) (pixel_list : option (list A)) (library : option string)
| THough (a : hough_args A)
| TRansac (a : ransac_args A)
| TAtlas (a : atlas A) (cand_tol : A) (constrain : bool)
| TKnown (pix wave : known_arg A).
Arguments TCalibrator {A}. Arguments THough {A}. Arguments TRansac {A}. Arguments TAtlas {A}. Arguments TKnown {A}.

(** The call. *)
Definition setting_call {A : Type} {N : Num A} (hull : hull_test A) (c : calib A) (k : setting A) : calib A * res unit :=
  match k with
  | TCalibrator n p l => set_calibrator_properties c n p l
  | THough a => set_hough_properties hull c a
  | TRansac a => set_ransac_properties c a
  | TAtlas a ct con => set_atlas hull c a ct con
  | TKnown p w => set_known_pairs c p w
  end.

(** Its assignments, and the calibrator when it is interrupted after the first n. *)
Definition setting_steps {A : Type} {N : Num A} (hull : hull_test A) (c : calib A) (k : setting A) : list (cstep A) :=
  match k with
  | TCalibrator n p l => calibrator_steps c n p l
  | THough a => hough_steps hull c a
  | TRansac a => ransac_steps c a
  | TAtlas a ct con => set_atlas_steps hull a ct con
  | TKnown p w => known_steps c p w
  end.
Definition halted {A : Type} {N : Num A} (hull : hull_test A) (c : calib A) (k : setting A) (n : nat) : calib A :=
  fold_left (fun c f => f c) (firstn n (setting_steps hull c k)) c.

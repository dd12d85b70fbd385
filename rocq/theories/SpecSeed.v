(** * SpecSeed: calls that neither draw random numbers nor seed the generator. *)

From Coq Require Import ZArith Bool List.
From Verif Require Import Num Py Calib SpecCalib Fit Seed.
Import ListNotations.

Definition quiet {A : Type} (p : prog_op A) : Prop :=
  match p with
  | PNew _ _ | PCall _ _ => True
  | PSet _ _ _ _ seed => seed = None
  | PFit _ _ | PUse _ => False
  end.

(** The call seeds the generator with k: it addresses a calibrator that exists, and gets as
    far as np.random.seed. *)
Definition seeds {A : Type} {N : Num A} {g : generator A} (w : program g) (p : prog_op A) (k : Z) : Prop :=
  match p with
  | PSet i n px lib seed =>
      seed = Some k /\
      exists c, nth_error (p_cals w) i = Some c /\ snd (set_calibrator_properties c n px lib) = Ok tt
  | _ => False
  end.

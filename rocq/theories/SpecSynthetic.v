(** * SpecSynthetic: histories of a synthetic spectrum. *)

From Coq Require Import Bool List.
From Verif Require Import Num Py Synthetic.
Import ListNotations.

Section Spec.
  Context {A : Type} {N : Num A}.

  Inductive synth_op : Type := SLimit (mn mx : lim_arg A) | SModel (c : coef_arg A).

  Definition synth_step (s : synth A) (o : synth_op) : synth A * res unit :=
    match o with SLimit mn mx => set_wavelength_limit s mn mx | SModel c => set_model s c end.

  (** State after a history of calls whose exceptions the caller catches. *)
  Definition synth_run (s : synth A) (h : list synth_op) : synth A :=
    fold_left (fun s o => fst (synth_step s o)) h s.

  (** The value an argument stands for: itself, or the old value for None. *)
  Definition limit_value (old : A) (a : lim_arg A) (v : A) : Prop :=
    match a with LNone => v = old | LFloat x => v = x | LOther => False end.
End Spec.
Arguments synth_op A : clear implicits.

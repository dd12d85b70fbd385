(** * Props_SynthRefs: property theorems only.  The proofs are in Main_SynthRefs.v. *)

From Coq Require Import ZArith Bool List Lia.
From Verif Require Import Num F64 Py Np Models Synthetic SynthRefs.
From Verif Require Import Main_SynthRefs.
Import ListNotations.
Local Open Scope num_scope.

(** C153, what holds: as long as the caller leaves the list it passed alone, nothing else
    it does to its lists matters: the model stays the polynomial of the coefficients
    passed and get_pixels answers alike. *)
Theorem synth_kept_partial :
  forall (A : Type) (N : Num A) (s0 : srefs A) heap lo hi r xs (h : list (sref_op A)),
    nth_error heap r = Some xs -> xs <> [] ->
    sref_init heap lo hi r = Ok s0 ->
    (forall f, ~ In (RChange r f) h) -> (forall q, ~ In (RModel q) h) ->
    let s := sref_run s0 h in
    let plain := mkSynth lo hi (Some xs) (Some xs) in
    (forall x, model_now s x = model_at plain x) /\
    forall inv w, (forall f g ws, (forall x, f x = g x) -> inv f ws = inv g ws) ->
      pixels_now inv s w = pixels_now inv s0 w /\
      ((List.length xs <= 2)%nat -> forall inv', pixels_now inv s w = get_pixels inv' plain (Some w)).
Proof. exact synth_kept_partial_main. Qed.
Print Assumptions synth_kept_partial.

(** C153, what holds after set_model: in any state, set_model with one of the caller's
    lists makes the model the polynomial of these coefficients, and it stays so as long as
    the caller leaves the list alone and does not call set_model again. *)
Theorem synth_model_kept_partial :
  forall (A : Type) (N : Num A) (s0 : srefs A) r xs (h : list (sref_op A)),
    nth_error (sr_heap s0) r = Some xs -> xs <> [] ->
    (forall f, ~ In (RChange r f) h) -> (forall q, ~ In (RModel q) h) ->
    let s := sref_run (sref_step s0 (RModel r)) h in
    (forall x, model_now s x = model_at (mkSynth (sr_min s0) (sr_max s0) None (Some xs)) x) /\
    sr_min s = sr_min s0 /\ sr_max s = sr_max s0 /\ sr_coef s = sr_coef s0.
Proof. exact synth_model_kept_partial_main. Qed.
Print Assumptions synth_model_kept_partial.

(** C153 fails: the list passed is the list used.  Whatever the caller later does to it
    (keeping its length) is done to the model, and for a model of one or two coefficients
    to the pixels. *)
Theorem synth_shared_refuted :
  forall (A : Type) (N : Num A) (s0 : srefs A) heap lo hi r xs (f : list A -> list A),
    nth_error heap r = Some xs -> xs <> [] -> List.length (f xs) = List.length xs ->
    sref_init heap lo hi r = Ok s0 ->
    let s := sref_run s0 [RChange r f] in
    let other := mkSynth lo hi (Some (f xs)) (Some (f xs)) in
    (forall x, model_now s x = model_at other x) /\
    ((List.length xs <= 2)%nat -> forall inv inv' w, pixels_now inv s w = get_pixels inv' other (Some w)).
Proof. exact synth_shared_refuted_main. Qed.
Print Assumptions synth_shared_refuted.

(** C153 fails: appending a number to the list passed does not raise the degree but
    replaces the constant term. *)
Theorem synth_append_refuted :
  forall (A : Type) (N : Num A) (s0 : srefs A) heap lo hi r xs c0 v,
    nth_error heap r = Some (xs ++ [c0]) ->
    sref_init heap lo hi r = Ok s0 ->
    forall x, model_now (sref_run s0 [RChange r (fun l => l ++ [v])]) x =
              model_at (mkSynth lo hi None (Some (xs ++ [v]))) x.
Proof. exact synth_append_refuted_main. Qed.
Print Assumptions synth_append_refuted.

(** The coefficients 2, 3, 5 (2 x^2 + 3 x + 5) at 10 are worth 235; after sorting the
    caller's list downwards 532; after appending 7 to it 237. *)
Example synth_shared_example :
  match sref_init [[fz 2; fz 3; fz 5]] (fz 0) (fz 1000) 0 return Prop with
  | Ok s =>
      model_now s (fz 10) = Ok (fz 235) /\
      model_now (sref_run s [RNew [fz 1]; RChange 1 (fun _ => [])]) (fz 10) = Ok (fz 235) /\
      model_now (sref_run s [RNew [fz 1; fz 4]; RModel 1; RChange 0 (fun _ => [])]) (fz 10) = Ok (fz 14) /\
      model_now (sref_run s [RChange 0 (@rev f64)]) (fz 10) = Ok (fz 532) /\
      model_now (sref_run s [RChange 0 (fun l => l ++ [fz 7])]) (fz 10) = Ok (fz 237) /\
      model_now (sref_run s [RChange 0 (fun _ => [])]) (fz 10) = Raise IndexError
  | Raise _ => False
  end.
Proof. exact synth_shared_example_main. Qed.

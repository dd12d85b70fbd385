(** * Props_SetModel: property theorems only.  The proofs are in Main_SetModel.v. *)

From Coq Require Import ZArith Bool List Lia Reals Lra.
From Verif Require Import Num F64 XReal Py Np Models Synthetic SpecSynthetic SpecPoly PolyFacts EdlenFacts Main_Models Main_Synthetic.
From Verif Require Import Main_SetModel.
Import ListNotations.
Local Open Scope num_scope.

(** C150: set_model with a list or array makes the model the polynomial with these
    coefficients and keeps the limits; with anything else it raises TypeError and changes
    nothing. *)
Theorem set_model_exact :
  forall (A : Type) (N : Num A) (s s' : synth A) c r,
    set_model s c = (s', r) ->
    sy_min s' = sy_min s /\ sy_max s' = sy_max s /\
    ((r = Ok tt /\ exists l, c = CSeq l /\
       forall x, l <> [] -> model_at s' x = bind (polynomial l (List.length l - 1)) (fun f => Ok (f x))) \/
     (r = Raise TypeError /\ s' = s /\ (c = CNone \/ c = COther))).
Proof. exact set_model_exact_main. Qed.
Print Assumptions set_model_exact.

(** C150: after any history of set_model and set_wavelength_limit calls, accepted or not,
    the model is that of the last accepted set_model, or of the constructor if there was
    none: with coefficients a0, a1, ..., ad its value at pixel p is
    a0 p^d + a1 p^(d-1) + ... + ad (exact numbers); without any coefficients the model
    cannot be evaluated. *)
Theorem synthetic_model_history :
  forall c mn mx (s0 : synth xr) h,
    synth_init c mn mx = Ok s0 ->
    let s := synth_run s0 h in
    match last_model h, first_model c with
    | Some l, _ | None, Some l => forall a : list R, l = map Fin a -> a <> [] ->
        forall p, model_at s (Fin p) =
          Ok (Fin (fold_right Rplus 0 (map (fun i => nth i a 0 * p ^ (List.length a - 1 - i)) (seq 0 (List.length a))))%R)
    | None, None => forall p, model_at s p = Raise TypeError
    end.
Proof. exact synthetic_model_history_main. Qed.
Print Assumptions synthetic_model_history.

Example synthetic_model_history_example :
  exists s0 : synth f64, synth_init (CSeq [fz 1; fz 2]) (LFloat (fz 200)) (LFloat (fz 1200)) = Ok s0 /\
    let h := [SModel (CSeq [fz 1; fz 0; fz 5]); SModel COther; SLimit LNone (LFloat (fz 100))] in
    last_model h = Some [fz 1; fz 0; fz 5] /\ model_at (synth_run s0 h) (fz 3) = Ok (fz 14).
Proof. exact synthetic_model_history_example_main. Qed.

(** C25 REFUTED for every spectrum: what get_pixels returns after set_model with one or two
    coefficients does not depend on their values.  They are computed from the coefficients
    given to the constructor; if there were none, get_pixels raises AttributeError. *)
Theorem set_model_ignored_refuted :
  forall (A : Type) (N : Num A) (inv : inverter A) c mn mx (s0 : synth A) h l l' w,
    synth_init c mn mx = Ok s0 -> List.length l = List.length l' -> (1 <= List.length l <= 2)%nat ->
    let s := synth_run s0 h in
    get_pixels inv (fst (set_model s (CSeq l))) w = get_pixels inv (fst (set_model s (CSeq l'))) w /\
    (c = CNone -> forall ws, w = Some ws -> get_pixels inv (fst (set_model s (CSeq l))) w = Raise AttributeError) /\
    (forall c0 c1 co ws, c = CSeq (c0 :: c1 :: co) -> w = Some ws -> List.length l = 2%nat ->
       let inside := filter (fun x => (sy_min s <' x) && (x <' sy_max s)) ws in
       get_pixels inv (fst (set_model s (CSeq l))) w = Ok (map (fun x => (x -' c0) /' c1) inside, inside)).
Proof. exact set_model_ignored_refuted_main. Qed.
Print Assumptions set_model_ignored_refuted.

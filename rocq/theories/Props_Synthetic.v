(** * Props_Synthetic: property theorems only.  The proofs are in Main_Synthetic.v. *)

From Coq Require Import ZArith Bool List Lia Reals Lra.
From Verif Require Import Num F64 XReal Py Np Models Synthetic SpecSynthetic SpecPoly PolyFacts EdlenFacts.
From Verif Require Import Main_Synthetic.
Import ListNotations.
Local Open Scope num_scope.

(** C23: what one call of set_wavelength_limit does: all or nothing; None keeps
    the old value; the error tells the reason. *)
Theorem set_wavelength_limit_exact :
  forall (A : Type) (N : Num A) (s s' : synth A) mn mx r,
    set_wavelength_limit s mn mx = (s', r) ->
    sy_coef s' = sy_coef s /\ sy_model s' = sy_model s /\
    ((r = Ok tt /\ limit_value (sy_min s) mn (sy_min s') /\ limit_value (sy_max s) mx (sy_max s') /\
      sy_min s' <' sy_max s' = true) \/
     (s' = s /\ r = Raise TypeError /\ (mn = LOther \/ mx = LOther)) \/
     (s' = s /\ r = Raise RuntimeError /\
      exists lo hi, limit_value (sy_min s) mn lo /\ limit_value (sy_max s) mx hi /\ lo <' hi = false)).
Proof. exact set_wavelength_limit_exact_main. Qed.
Print Assumptions set_wavelength_limit_exact.

(** C23: after construction and any history of set_wavelength_limit and set_model
    calls, accepted or rejected, the limits form a non-empty interval of numbers. *)
Theorem synthetic_limits_invariant :
  forall (A : Type) (N : Num A) (O : NumOrder A) c mn mx (s0 : synth A) h,
    synth_init c mn mx = Ok s0 ->
    let s := synth_run s0 h in
    sy_min s <' sy_max s = true /\ nisnan (sy_min s) = false /\ nisnan (sy_max s) = false.
Proof. exact synthetic_limits_invariant_main. Qed.
Print Assumptions synthetic_limits_invariant.

Example synthetic_limits_example :
  exists s0 : synth f64, synth_init CNone (LFloat (fz 200)) (LFloat (fz 1200)) = Ok s0 /\
    let s := synth_run s0 [SLimit LNone (LFloat (fz 100)); SLimit (LFloat (fz 300)) LOther;
                           SLimit (LFloat (fz 400)) LNone; SModel (CSeq [fz 1; fz 2; fz 3])] in
    sy_min s = fz 400 /\ sy_max s = fz 1200.
Proof. exact synthetic_limits_example_main. Qed.

(** C24: the returned wavelengths are the given ones strictly inside the limits,
    in order, and there is one pixel for each. *)
Theorem get_pixels_aligned :
  forall (A : Type) (N : Num A) (inv : inverter A) (s : synth A) w px ws,
    (forall m v p, inv m v = Ok p -> length p = length v) ->
    get_pixels inv s (Some w) = Ok (px, ws) ->
    length px = length ws /\
    ws = filter (fun x => (sy_min s <' x) && (x <' sy_max s)) w.
Proof. exact get_pixels_aligned_main. Qed.
Print Assumptions get_pixels_aligned.

(** C24: for a spectrum constructed with two coefficients [c0, c1] each pixel p
    satisfies c0 + c1 p = wavelength. *)
Theorem get_pixels_linear :
  forall (inv : inverter xr) (c0 c1 lo hi : R) (w : list R) s,
    c1 <> 0%R ->
    synth_init (CSeq [Fin c0; Fin c1]) (LFloat (Fin lo)) (LFloat (Fin hi)) = Ok s ->
    exists px ws, get_pixels inv s (Some (map Fin w)) = Ok (map Fin px, map Fin ws) /\
      ws = filter (fun x => Rltb lo x && Rltb x hi) w /\
      map (fun p => c0 + c1 * p)%R px = ws.
Proof. exact get_pixels_linear_main. Qed.
Print Assumptions get_pixels_linear.

Example get_pixels_linear_example :
  3%R <> 0%R /\
  (exists s, synth_init (CSeq [Fin 100; Fin 3]) (LFloat (Fin 200)) (LFloat (Fin 1200)) = Ok s) /\
  exists s0 : synth f64, synth_init (CSeq [fz 100; fz 2]) (LFloat (fz 200)) (LFloat (fz 1200)) = Ok s0 /\
    get_pixels (fun _ _ => Raise ValueError) s0 (Some [fz 300; fz 200; fz 120; fz 1000])
    = Ok ([fz 100; fz 450], [fz 300; fz 1000]).
Proof. exact get_pixels_linear_example_main. Qed.

(** C25: three or more coefficients: the pixels solve model(pixel) = wavelength
    whenever the numerical inversion returns solutions. *)
Theorem get_pixels_inverts_partial :
  forall (A : Type) (N : Num A) (inv : inverter A) (s : synth A) c w px ws,
    sy_model s = Some c -> (3 <= length c)%nat ->
    (forall v p, inv (Some c) v = Ok p -> Forall2 (fun pix x => model_at s pix = Ok x) p v) ->
    get_pixels inv s (Some w) = Ok (px, ws) ->
    Forall2 (fun pix x => model_at s pix = Ok x) px ws.
Proof. exact get_pixels_inverts_partial_main. Qed.
Print Assumptions get_pixels_inverts_partial.

Example get_pixels_inverts_example :
  let s := mkSynth (fz 0) (fz 100) None (Some [fz 1; fz 0; fz 0]) in
  let inv := fun (_ : option (list f64)) v => match v with [x] => Ok [nsqrt x] | _ => Raise ValueError end in
  get_pixels inv s (Some [fz 16]) = Ok ([fz 4], [fz 16]) /\ model_at s (fz 4) = Ok (fz 16).
Proof. exact get_pixels_inverts_example_main. Qed.

(** C25: a straight line [c0, c1] (constructor) is inverted for every wavelength
    only if c0 = c1, because get_pixels takes c0 for the constant term while
    the model takes it for the slope. *)
Theorem get_pixels_linear_inverts_iff :
  forall (c0 c1 lo hi : R) (inv : inverter xr) s,
    c1 <> 0%R ->
    synth_init (CSeq [Fin c0; Fin c1]) (LFloat (Fin lo)) (LFloat (Fin hi)) = Ok s ->
    (forall w p v, get_pixels inv s (Some [w]) = Ok ([p], [v]) -> model_at s p = Ok v) <-> c0 = c1.
Proof. exact get_pixels_linear_inverts_iff_main. Qed.
Print Assumptions get_pixels_linear_inverts_iff.

Example get_pixels_linear_inverts_example :
  2%R <> 0%R /\ exists s, synth_init (CSeq [Fin 2; Fin 2]) (LFloat (Fin 200)) (LFloat (Fin 1200)) = Ok s.
Proof. exact get_pixels_linear_inverts_example_main. Qed.

(** C25 REFUTED: for the model 2x + 4 the pixel returned for wavelength 10 is 2,
    where the model has the value 8; set_model after construction is ignored
    (the old coefficients are used) or raises. *)
Theorem get_pixels_inverts_refuted :
  let inv := fun (_ : option (list f64)) (_ : list f64) => Raise ValueError in
  (exists s, synth_init (CSeq [fz 2; fz 4]) (LFloat (fz 0)) (LFloat (fz 100)) = Ok s /\
     get_pixels inv s (Some [fz 10]) = Ok ([fz 2], [fz 10]) /\ model_at s (fz 2) = Ok (fz 8) /\
     let s2 := fst (set_model s (CSeq [fz 5; fz 0])) in
     get_pixels inv s2 (Some [fz 10]) = Ok ([fz 2], [fz 10]) /\ model_at s2 (fz 2) = Ok (fz 10) /\
     get_pixels inv (fst (set_model s (CSeq [fz 6; fz 0]))) (Some [fz 10]) = Ok ([fz 2], [fz 10])) /\
  (exists s, synth_init CNone (LFloat (fz 0)) (LFloat (fz 100)) = Ok s /\
     get_pixels inv (fst (set_model s (CSeq [fz 5; fz 0]))) (Some [fz 10]) = Raise AttributeError).
Proof. exact get_pixels_inverts_refuted_main. Qed.
Print Assumptions get_pixels_inverts_refuted.

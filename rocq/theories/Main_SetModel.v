(** * Main_SetModel: the model of a synthetic spectrum over a history of calls (C150, C25). *)

From Coq Require Import ZArith Bool List Lia Reals Lra.
From Verif Require Import Num F64 XReal Py Np Models Synthetic SpecSynthetic SpecPoly PolyFacts EdlenFacts Main_Models Main_Synthetic.
Import ListNotations.
Local Open Scope num_scope.

(** The coefficients of the last accepted set_model call of a history. *)
Fixpoint last_model {A} (h : list (synth_op A)) : option (list A) :=
  match h with
  | [] => None
  | o :: r => match last_model r with
              | Some l => Some l
              | None => match o with SModel (CSeq l) => Some l | _ => None end
              end
  end.
(** The coefficients given to the constructor. *)
Definition first_model {A} (c : coef_arg A) : option (list A) :=
  match c with CSeq l => Some l | _ => None end.

(** C150: set_model with a list or array makes the model the polynomial with these
    coefficients and keeps the limits; with anything else it raises TypeError and changes
    nothing. *)
Lemma set_model_exact_main :
  forall (A : Type) (N : Num A) (s s' : synth A) c r,
    set_model s c = (s', r) ->
    sy_min s' = sy_min s /\ sy_max s' = sy_max s /\
    ((r = Ok tt /\ exists l, c = CSeq l /\
       forall x, l <> [] -> model_at s' x = bind (polynomial l (List.length l - 1)) (fun f => Ok (f x))) \/
     (r = Raise TypeError /\ s' = s /\ (c = CNone \/ c = COther))).
Proof.
  intros A N s s' c r H. destruct c as [|l|]; cbn in H; injection H as <- <-.
  - split; [reflexivity|]. split; [reflexivity|]. right. auto.
  - split; [reflexivity|]. split; [reflexivity|]. left. split; [reflexivity|]. exists l. split; [reflexivity|].
    intros x Hl. unfold model_at. cbn [sy_model]. destruct l; [congruence|reflexivity].
  - split; [reflexivity|]. split; [reflexivity|]. right. auto.
Qed.

Lemma run_model {A} {N : Num A} (s0 : synth A) h :
  sy_coef (synth_run s0 h) = sy_coef s0 /\
  sy_model (synth_run s0 h) = match last_model h with Some l => Some l | None => sy_model s0 end.
Proof.
  revert s0. induction h as [|o h IH]; intros s0; [split; reflexivity|].
  change (synth_run s0 (o :: h)) with (synth_run (fst (synth_step s0 o)) h).
  destruct (IH (fst (synth_step s0 o))) as [-> ->]. cbn [last_model].
  destruct o as [a b|[|l|]]; cbn [synth_step].
  - destruct (set_wavelength_limit s0 a b) as [s' r] eqn:E. cbn [fst].
    apply set_wavelength_limit_exact_main in E. destruct E as (-> & -> & _). split; [reflexivity|].
    destruct (last_model h); reflexivity.
  - split; [reflexivity|]. destruct (last_model h); reflexivity.
  - split; [reflexivity|]. destruct (last_model h); reflexivity.
  - split; [reflexivity|]. destruct (last_model h); reflexivity.
Qed.

Lemma init_model {A} {N : Num A} c mn mx (s0 : synth A) :
  synth_init c mn mx = Ok s0 -> sy_coef s0 = first_model c /\ sy_model s0 = first_model c.
Proof.
  unfold synth_init. intros H. destruct (new_limits None mn mx); cbn [bind] in H; [|discriminate].
  destruct c; try discriminate; injection H as <-; split; reflexivity.
Qed.

(** C150: after any history of set_model and set_wavelength_limit calls, accepted or not,
    the model is that of the last accepted set_model, or of the constructor if there was
    none: with coefficients a0, a1, ..., ad its value at pixel p is
    a0 p^d + a1 p^(d-1) + ... + ad (exact numbers); without any coefficients the model
    cannot be evaluated. *)
Lemma synthetic_model_history_main :
  forall c mn mx (s0 : synth xr) h,
    synth_init c mn mx = Ok s0 ->
    let s := synth_run s0 h in
    match last_model h, first_model c with
    | Some l, _ | None, Some l => forall a : list R, l = map Fin a -> a <> [] ->
        forall p, model_at s (Fin p) =
          Ok (Fin (fold_right Rplus 0 (map (fun i => nth i a 0 * p ^ (List.length a - 1 - i)) (seq 0 (List.length a))))%R)
    | None, None => forall p, model_at s p = Raise TypeError
    end.
Proof.
  intros c mn mx s0 h H s.
  destruct (init_model _ _ _ _ H) as [_ H0]. destruct (run_model s0 h) as [_ H1]. fold s in H1. rewrite H0 in H1.
  assert (G : forall l, sy_model s = Some l -> forall a : list R, l = map Fin a -> a <> [] ->
        forall p, model_at s (Fin p) =
          Ok (Fin (fold_right Rplus 0 (map (fun i => nth i a 0 * p ^ (List.length a - 1 - i)) (seq 0 (List.length a))))%R)).
  { clear. intros l Hs a -> Ha p. unfold model_at. rewrite Hs.
    destruct (polynomial_evaluates_main a (List.length a - 1)) as [_ E].
    destruct E as (f & E1 & E2); [destruct a; [congruence|cbn; lia]|].
    assert (K : bind (polynomial (map Fin a) (List.length (map Fin a) - 1)) (fun f => Ok (f (Fin p))) =
      Ok (Fin (fold_right Rplus 0 (map (fun i => nth i a 0 * p ^ (List.length a - 1 - i)) (seq 0 (List.length a))))%R)).
    { rewrite map_length, E1. cbn [bind]. rewrite E2.
      replace (List.length a - 1 + 1)%nat with (List.length a) by (destruct a; [congruence|cbn; lia]). reflexivity. }
    destruct a as [|v r]; [congruence|]. exact K. }
  destruct (last_model h) as [l|].
  - intros a El Ha p. exact (G l H1 a El Ha p).
  - destruct (first_model c) as [l|].
    + intros a El Ha p. exact (G l H1 a El Ha p).
    + intros p. unfold model_at. rewrite H1. reflexivity.
Qed.

Example synthetic_model_history_example_main :
  exists s0 : synth f64, synth_init (CSeq [fz 1; fz 2]) (LFloat (fz 200)) (LFloat (fz 1200)) = Ok s0 /\
    let h := [SModel (CSeq [fz 1; fz 0; fz 5]); SModel COther; SLimit LNone (LFloat (fz 100))] in
    last_model h = Some [fz 1; fz 0; fz 5] /\ model_at (synth_run s0 h) (fz 3) = Ok (fz 14).
Proof. eexists. split; [vm_compute; reflexivity|]. vm_compute. auto. Qed.

(** C25 REFUTED for every spectrum: what get_pixels returns after set_model with one or two
    coefficients does not depend on their values.  They are computed from the coefficients
    given to the constructor; if there were none, get_pixels raises AttributeError. *)
Lemma set_model_ignored_refuted_main :
  forall (A : Type) (N : Num A) (inv : inverter A) c mn mx (s0 : synth A) h l l' w,
    synth_init c mn mx = Ok s0 -> List.length l = List.length l' -> (1 <= List.length l <= 2)%nat ->
    let s := synth_run s0 h in
    get_pixels inv (fst (set_model s (CSeq l))) w = get_pixels inv (fst (set_model s (CSeq l'))) w /\
    (c = CNone -> forall ws, w = Some ws -> get_pixels inv (fst (set_model s (CSeq l))) w = Raise AttributeError) /\
    (forall c0 c1 co ws, c = CSeq (c0 :: c1 :: co) -> w = Some ws -> List.length l = 2%nat ->
       let inside := filter (fun x => (sy_min s <' x) && (x <' sy_max s)) ws in
       get_pixels inv (fst (set_model s (CSeq l))) w = Ok (map (fun x => (x -' c0) /' c1) inside, inside)).
Proof.
  intros A N inv c mn mx s0 h l l' w H Hl H12 s.
  destruct (init_model _ _ _ _ H) as [H0 _]. destruct (run_model s0 h) as [H1 _]. fold s in H1. rewrite H0 in H1.
  assert (FF : forall ws, filter (fun x => x <' sy_max s) (filter (fun x => sy_min s <' x) ws)
    = filter (fun x => (sy_min s <' x) && (x <' sy_max s)) ws).
  { clear. induction ws as [|x ws IH]; [reflexivity|]. cbn [filter].
    destruct (sy_min s <' x); cbn [filter andb]; rewrite IH; reflexivity. }
  split; [|split].
  - unfold get_pixels, set_model. cbn [fst sy_min sy_max sy_coef sy_model].
    destruct w; [|reflexivity].
    destruct l as [|a [|b [|e l]]]; cbn in H12; try lia;
      destruct l' as [|a' [|b' [|e' l']]]; cbn in Hl; try discriminate; reflexivity.
  - intros -> ws ->. unfold get_pixels, set_model. cbn [fst sy_min sy_max sy_coef sy_model].
    rewrite H1. cbn [first_model].
    destruct l as [|a [|b [|e l]]]; cbn in H12; try lia; reflexivity.
  - intros c0 c1 co ws -> -> L2. cbv zeta. unfold get_pixels, set_model. cbn [fst sy_min sy_max sy_coef sy_model].
    rewrite H1. cbn [first_model nth_error]. rewrite FF.
    destruct l as [|a [|b [|e l]]]; cbn in L2; try discriminate. reflexivity.
Qed.

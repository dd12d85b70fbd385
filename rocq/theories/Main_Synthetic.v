(** * Main_Synthetic: the properties of synthetic.py with their proofs.  The
    statements are repeated, without proofs, in Props_Synthetic.v. *)

From Coq Require Import ZArith Bool List Lia Reals Lra.
From Verif Require Import Num F64 XReal Py Np Models Synthetic SpecSynthetic SpecPoly PolyFacts EdlenFacts.
Import ListNotations.
Local Open Scope num_scope.

(** C23: what one call of set_wavelength_limit does: all or nothing; None keeps
    the old value; the error tells the reason. *)
Lemma set_wavelength_limit_exact_main :
  forall (A : Type) (N : Num A) (s s' : synth A) mn mx r,
    set_wavelength_limit s mn mx = (s', r) ->
    sy_coef s' = sy_coef s /\ sy_model s' = sy_model s /\
    ((r = Ok tt /\ limit_value (sy_min s) mn (sy_min s') /\ limit_value (sy_max s) mx (sy_max s') /\
      sy_min s' <' sy_max s' = true) \/
     (s' = s /\ r = Raise TypeError /\ (mn = LOther \/ mx = LOther)) \/
     (s' = s /\ r = Raise RuntimeError /\
      exists lo hi, limit_value (sy_min s) mn lo /\ limit_value (sy_max s) mx hi /\ lo <' hi = false)).
Proof.
  intros A N s s' mn mx r. unfold set_wavelength_limit, new_limits.
  destruct mn as [|lo|], mx as [|hi|]; cbn [bind fst snd limit_value];
    try match goal with |- context[?a <' ?b] => destruct (a <' b) eqn:E end;
    intros H; injection H as <- <-; cbn; (split; [auto|]); (split; [auto|]);
    first [ solve [right; left; auto] | solve [left; auto]
          | solve [right; right; (split; [auto|]); (split; [auto|]); eexists; eexists;
                   (split; [reflexivity|]); (split; [reflexivity|]); auto] ].
Qed.

(** C23: after construction and any history of set_wavelength_limit and set_model
    calls, accepted or rejected, the limits form a non-empty interval of numbers. *)
Lemma synthetic_limits_invariant_main :
  forall (A : Type) (N : Num A) (O : NumOrder A) c mn mx (s0 : synth A) h,
    synth_init c mn mx = Ok s0 ->
    let s := synth_run s0 h in
    sy_min s <' sy_max s = true /\ nisnan (sy_min s) = false /\ nisnan (sy_max s) = false.
Proof.
  intros A N O c mn mx s0 h H0.
  assert (I : forall s, sy_min s <' sy_max s = true -> forall h, sy_min (synth_run s h) <' sy_max (synth_run s h) = true).
  { intros s Hs h'. revert s Hs. induction h' as [|o h' IH]; intros s Hs; auto.
    unfold synth_run. cbn [fold_left]. apply IH. destruct o as [a b|l]; cbn [synth_step].
    - destruct (set_wavelength_limit s a b) as [s' r] eqn:E. cbn.
      apply set_wavelength_limit_exact_main in E. destruct E as (_ & _ & [(_ & _ & _ & H)|[(-> & _)|(-> & _)]]); auto.
    - destruct l; cbn; auto. }
  assert (B : sy_min s0 <' sy_max s0 = true).
  { unfold synth_init, new_limits in H0. destruct mn as [|lo|], mx as [|hi|]; cbn in H0; try discriminate.
    destruct (lo <' hi) eqn:E; [|discriminate]. cbn in H0. destruct c; try discriminate; injection H0 as <-; auto. }
  cbn zeta. specialize (I s0 B h). split; auto. apply ltb_nan in I. auto.
Qed.

Example synthetic_limits_example_main :
  exists s0 : synth f64, synth_init CNone (LFloat (fz 200)) (LFloat (fz 1200)) = Ok s0 /\
    let s := synth_run s0 [SLimit LNone (LFloat (fz 100)); SLimit (LFloat (fz 300)) LOther;
                           SLimit (LFloat (fz 400)) LNone; SModel (CSeq [fz 1; fz 2; fz 3])] in
    sy_min s = fz 400 /\ sy_max s = fz 1200.
Proof. eexists. split; [vm_compute; reflexivity|vm_compute; auto]. Qed.

(** C24: the returned wavelengths are the given ones strictly inside the limits,
    in order, and there is one pixel for each. *)
Lemma get_pixels_aligned_main :
  forall (A : Type) (N : Num A) (inv : inverter A) (s : synth A) w px ws,
    (forall m v p, inv m v = Ok p -> length p = length v) ->
    get_pixels inv s (Some w) = Ok (px, ws) ->
    length px = length ws /\
    ws = filter (fun x => (sy_min s <' x) && (x <' sy_max s)) w.
Proof.
  intros A N inv s w px ws Hinv. unfold get_pixels.
  assert (F : forall l : list A, filter (fun x => x <' sy_max s) (filter (fun x => sy_min s <' x) l)
              = filter (fun x => (sy_min s <' x) && (x <' sy_max s)) l).
  { induction l as [|x l IH]; cbn; auto. destruct (sy_min s <' x); cbn; rewrite IH; auto. }
  rewrite F. set (v := filter _ w).
  match goal with |- bind ?q _ = _ -> _ => destruct q as [p|e] eqn:E; cbn [bind]; [|discriminate] end.
  intros H; injection H as <- <-. split; auto.
  destruct (sy_model s) as [[|c [|c' [|c'' m]]]|]; try (eapply Hinv; eauto; fail).
  - destruct (sy_coef s) as [l|]; cbn in E; [|discriminate].
    destruct l as [|c0 l]; cbn in E; [discriminate|]. injection E as <-. apply map_length.
  - destruct (sy_coef s) as [l|]; cbn in E; [|discriminate].
    destruct l as [|c0 [|c1 l]]; cbn in E; try discriminate. injection E as <-. apply map_length.
Qed.

(** C24: for a spectrum constructed with two coefficients [c0, c1] each pixel p
    satisfies c0 + c1 p = wavelength. *)
Lemma get_pixels_linear_main :
  forall (inv : inverter xr) (c0 c1 lo hi : R) (w : list R) s,
    c1 <> 0%R ->
    synth_init (CSeq [Fin c0; Fin c1]) (LFloat (Fin lo)) (LFloat (Fin hi)) = Ok s ->
    exists px ws, get_pixels inv s (Some (map Fin w)) = Ok (map Fin px, map Fin ws) /\
      ws = filter (fun x => Rltb lo x && Rltb x hi) w /\
      map (fun p => c0 + c1 * p)%R px = ws.
Proof.
  intros inv c0 c1 lo hi w s Hc H. unfold synth_init, new_limits in H. cbn in H.
  destruct (Rltb lo hi); [|discriminate]. injection H as <-.
  set (ws := filter (fun x => Rltb lo x && Rltb x hi) w).
  exists (map (fun x => (x - c0) / c1)%R ws), ws. split; [|split; auto].
  - unfold get_pixels. cbn [sy_min sy_max sy_coef sy_model nth_error bind].
    assert (F : filter (fun x : xr => x <' Fin hi) (filter (fun x : xr => Fin lo <' x) (map Fin w)) = map Fin ws).
    { unfold ws. clear. induction w as [|x l IH]; [reflexivity|]. cbn [map filter].
      change (Fin lo <' Fin x) with (Rltb lo x).
      destruct (Rltb lo x); cbn [filter andb]; auto. change (Fin x <' Fin hi) with (Rltb x hi).
      destruct (Rltb x hi); cbn [filter map]; rewrite IH; auto. }
    rewrite F. f_equal. f_equal. rewrite !map_map. apply map_ext. intros x.
    cbn [nsub XRnum xsub xadd xopp]. rewrite xdiv_F by auto. f_equal.
  - rewrite map_map. rewrite <- (map_id ws) at 2. apply map_ext. intros x. field. auto.
Qed.

Example get_pixels_linear_example_main :
  3%R <> 0%R /\
  (exists s, synth_init (CSeq [Fin 100; Fin 3]) (LFloat (Fin 200)) (LFloat (Fin 1200)) = Ok s) /\
  exists s0 : synth f64, synth_init (CSeq [fz 100; fz 2]) (LFloat (fz 200)) (LFloat (fz 1200)) = Ok s0 /\
    get_pixels (fun _ _ => Raise ValueError) s0 (Some [fz 300; fz 200; fz 120; fz 1000])
    = Ok ([fz 100; fz 450], [fz 300; fz 1000]).
Proof.
  split; [lra|]. split.
  - eexists. unfold synth_init, new_limits. cbn. destruct (Rltb_spec 200 1200); [reflexivity|exfalso; lra].
  - eexists. split; [vm_compute; reflexivity|vm_compute; reflexivity].
Qed.

(** C25: three or more coefficients: the pixels solve model(pixel) = wavelength
    whenever the numerical inversion returns solutions. *)
Lemma get_pixels_inverts_partial_main :
  forall (A : Type) (N : Num A) (inv : inverter A) (s : synth A) c w px ws,
    sy_model s = Some c -> (3 <= length c)%nat ->
    (forall v p, inv (Some c) v = Ok p -> Forall2 (fun pix x => model_at s pix = Ok x) p v) ->
    get_pixels inv s (Some w) = Ok (px, ws) ->
    Forall2 (fun pix x => model_at s pix = Ok x) px ws.
Proof.
  intros A N inv s c w px ws Hm L Hinv. unfold get_pixels. rewrite Hm.
  destruct c as [|a [|b [|d c]]]; cbn in L; try lia.
  match goal with |- bind ?q _ = _ -> _ => destruct q as [p|e] eqn:E; cbn [bind]; [|discriminate] end.
  intros H; injection H as <- <-. eauto.
Qed.

Example get_pixels_inverts_example_main :
  let s := mkSynth (fz 0) (fz 100) None (Some [fz 1; fz 0; fz 0]) in
  let inv := fun (_ : option (list f64)) v => match v with [x] => Ok [nsqrt x] | _ => Raise ValueError end in
  get_pixels inv s (Some [fz 16]) = Ok ([fz 4], [fz 16]) /\ model_at s (fz 4) = Ok (fz 16).
Proof. vm_compute. auto. Qed.

(** C25: a straight line [c0, c1] (constructor) is inverted for every wavelength
    only if c0 = c1, because get_pixels takes c0 for the constant term while
    the model takes it for the slope. *)
Lemma get_pixels_linear_inverts_iff_main :
  forall (c0 c1 lo hi : R) (inv : inverter xr) s,
    c1 <> 0%R ->
    synth_init (CSeq [Fin c0; Fin c1]) (LFloat (Fin lo)) (LFloat (Fin hi)) = Ok s ->
    (forall w p v, get_pixels inv s (Some [w]) = Ok ([p], [v]) -> model_at s p = Ok v) <-> c0 = c1.
Proof.
  intros c0 c1 lo hi inv s Hc Hs.
  pose proof Hs as Hs'. unfold synth_init, new_limits in Hs'. cbn in Hs'.
  revert Hs'. destruct (Rltb_spec lo hi) as [Hlh|]; intros Hs'; cbn in Hs'; [|discriminate].
  assert (Es : s = mkSynth (Fin lo) (Fin hi) (Some [Fin c0; Fin c1]) (Some [Fin c0; Fin c1])) by congruence.
  clear Hs'. subst s.
  assert (M : forall x, model_at (mkSynth (Fin lo) (Fin hi) (Some [Fin c0; Fin c1]) (Some [Fin c0; Fin c1])) (Fin x)
              = Ok (Fin (c1 + c0 * x))).
  { intros x. reflexivity. }
  split.
  - intros H.
    assert (G : forall x, (lo < x < hi)%R -> (c1 + c0 * ((x - c0) / c1) = x)%R).
    { intros x [H1 H2].
      specialize (H (Fin x) (Fin ((x - c0) / c1)) (Fin x)). rewrite M in H.
      assert (E : Ok (Fin (c1 + c0 * ((x - c0) / c1))) = Ok (Fin x)); [apply H|congruence].
      unfold get_pixels. cbn [sy_min sy_max sy_coef sy_model nth_error bind filter nltb XRnum xltb].
      destruct (Rltb_spec lo x); [|exfalso; lra]. cbn [filter nltb XRnum xltb].
      destruct (Rltb_spec x hi); [|exfalso; lra]. cbn [map].
      cbn [nsub XRnum xsub xadd xopp]. rewrite xdiv_F by auto. reflexivity. }
    set (x1 := (lo + (hi - lo) / 3)%R). set (x2 := (lo + 2 * (hi - lo) / 3)%R).
    assert (B1 : (lo < x1 < hi)%R) by (unfold x1; lra).
    assert (B2 : (lo < x2 < hi)%R) by (unfold x2; lra).
    pose proof (G x1 B1) as E1. pose proof (G x2 B2) as E2.
    assert (D : (c0 / c1 * (x2 - x1) = x2 - x1)%R).
    { transitivity ((c1 + c0 * ((x2 - c0) / c1)) - (c1 + c0 * ((x1 - c0) / c1)))%R; [field; auto|lra]. }
    assert (x2 - x1 > 0)%R by (unfold x1, x2; lra).
    assert (D2 : (c0 / c1 = 1)%R).
    { apply (Rmult_eq_reg_r (x2 - x1)); lra. }
    apply (Rmult_eq_compat_r c1) in D2. unfold Rdiv in D2. rewrite Rmult_assoc, Rinv_l, Rmult_1_r in D2 by auto. lra.
  - intros -> w p v H. unfold get_pixels in H.
    cbn [sy_min sy_max sy_coef sy_model nth_error bind filter] in H.
    destruct (Fin lo <' w) eqn:E1; cbn [filter] in H; [|discriminate].
    destruct (w <' Fin hi) eqn:E2; cbn [filter map] in H; [|discriminate].
    destruct w as [x|sgn|]; [|destruct sgn; discriminate|discriminate].
    cbn [nsub XRnum xsub xadd xopp] in H. rewrite xdiv_F in H by auto.
    assert (Fin ((x + - c1) / c1) = p /\ Fin x = v) as [<- <-] by (split; congruence).
    rewrite M. f_equal. f_equal. field. auto.
Qed.

Example get_pixels_linear_inverts_example_main :
  2%R <> 0%R /\ exists s, synth_init (CSeq [Fin 2; Fin 2]) (LFloat (Fin 200)) (LFloat (Fin 1200)) = Ok s.
Proof.
  split; [lra|]. eexists. unfold synth_init, new_limits. cbn.
  destruct (Rltb_spec 200 1200); [reflexivity|exfalso; lra].
Qed.

(** C25 REFUTED: for the model 2x + 4 the pixel returned for wavelength 10 is 2,
    where the model has the value 8; set_model after construction is ignored
    (the old coefficients are used) or raises. *)
Lemma get_pixels_inverts_refuted_main :
  let inv := fun (_ : option (list f64)) (_ : list f64) => Raise ValueError in
  (exists s, synth_init (CSeq [fz 2; fz 4]) (LFloat (fz 0)) (LFloat (fz 100)) = Ok s /\
     get_pixels inv s (Some [fz 10]) = Ok ([fz 2], [fz 10]) /\ model_at s (fz 2) = Ok (fz 8) /\
     let s2 := fst (set_model s (CSeq [fz 5; fz 0])) in
     get_pixels inv s2 (Some [fz 10]) = Ok ([fz 2], [fz 10]) /\ model_at s2 (fz 2) = Ok (fz 10) /\
     get_pixels inv (fst (set_model s (CSeq [fz 6; fz 0]))) (Some [fz 10]) = Ok ([fz 2], [fz 10])) /\
  (exists s, synth_init CNone (LFloat (fz 0)) (LFloat (fz 100)) = Ok s /\
     get_pixels inv (fst (set_model s (CSeq [fz 5; fz 0]))) (Some [fz 10]) = Raise AttributeError).
Proof. split; eexists; (split; [vm_compute; reflexivity|vm_compute; auto]). Qed.

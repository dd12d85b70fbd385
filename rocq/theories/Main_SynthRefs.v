(** * Main_SynthRefs: a SyntheticSpectrum and the caller's list of coefficients (C153). *)

From Coq Require Import ZArith Bool List Lia.
From Verif Require Import Num F64 Py Np Models Synthetic SynthRefs.
Import ListNotations.
Local Open Scope num_scope.

Section Heap.
  Context {A : Type} {N : Num A}.

  Lemma set_at_same r v (h : list (list A)) : (r < List.length h)%nat -> nth r (set_at r v h) [] = v.
  Proof. revert r. induction h as [|x t IH]; intros [|r] H; cbn in *; try lia; auto. apply IH. lia. Qed.
  Lemma set_at_other r q v (h : list (list A)) : r <> q -> nth r (set_at q v h) [] = nth r h [].
  Proof. revert r q. induction h as [|x t IH]; intros [|r] [|q] H; cbn; auto; try congruence. Qed.
  Lemma set_at_length q v (h : list (list A)) : List.length (set_at q v h) = List.length h.
  Proof. revert q. induction h as [|x t IH]; intros [|q]; cbn; auto. Qed.

  Lemma run_other r (h : list (sref_op A)) : forall s,
    (r < List.length (sr_heap s))%nat -> (forall f, ~ In (RChange r f) h) ->
    sr_list (sref_run s h) r = sr_list s r /\ (r < List.length (sr_heap (sref_run s h)))%nat.
  Proof.
    induction h as [|o h IH]; intros s Hr Hf; [auto|].
    change (sref_run s (o :: h)) with (sref_run (sref_step s o) h).
    assert (E : sr_list (sref_step s o) r = sr_list s r /\ (r < List.length (sr_heap (sref_step s o)))%nat).
    { destruct o as [l|q f|q]; unfold sr_list; cbn [sref_step sr_heap].
      - rewrite app_length, app_nth1 by exact Hr. cbn. split; [reflexivity|lia].
      - rewrite set_at_length. split; [|exact Hr]. apply set_at_other. intros ->. apply (Hf f). left. reflexivity.
      - auto. }
    destruct E as [E1 E2]. destruct (IH (sref_step s o) E2) as [E3 E4]; [intros f Hi; apply (Hf f); right; exact Hi|].
    rewrite E3. auto.
  Qed.

  Lemma run_attrs (h : list (sref_op A)) : forall s,
    (forall q, ~ In (RModel q) h) ->
    sr_model (sref_run s h) = sr_model s /\ sr_coef (sref_run s h) = sr_coef s /\
    sr_min (sref_run s h) = sr_min s /\ sr_max (sref_run s h) = sr_max s.
  Proof.
    induction h as [|o h IH]; intros s Hf; [auto|].
    change (sref_run s (o :: h)) with (sref_run (sref_step s o) h).
    destruct (IH (sref_step s o)) as (-> & -> & -> & ->); [intros q Hi; apply (Hf q); right; exact Hi|].
    destruct o as [l|q f|q]; cbn; auto. exfalso. apply (Hf q). left. reflexivity.
  Qed.
End Heap.

(** C153, what holds: as long as the caller leaves the list it passed alone, nothing else
    it does to its lists matters: the model stays the polynomial of the coefficients
    passed and get_pixels answers alike. *)
Lemma synth_kept_partial_main :
  forall (A : Type) (N : Num A) (s0 : srefs A) heap lo hi r xs (h : list (sref_op A)),
    nth_error heap r = Some xs -> xs <> [] ->
    sref_init heap lo hi r = Ok s0 ->
    (forall f, ~ In (RChange r f) h) -> (forall q, ~ In (RModel q) h) ->
    let s := sref_run s0 h in
    let plain := mkSynth lo hi (Some xs) (Some xs) in
    (forall x, model_now s x = model_at plain x) /\
    forall inv w, (forall f g ws, (forall x, f x = g x) -> inv f ws = inv g ws) ->
      pixels_now inv s w = pixels_now inv s0 w /\
      ((List.length xs <= 2)%nat -> forall inv', pixels_now inv s w = get_pixels inv' plain (Some w)).
Proof.
  intros A N s0 heap lo hi r xs h Hx Hne Hi Hf Hm s plain. unfold sref_init in Hi.
  destruct (lo <' hi); [|discriminate].
  assert (Hr : (r < List.length heap)%nat) by (apply nth_error_Some; congruence).
  assert (En : nth r heap [] = xs) by (apply nth_error_nth; exact Hx). rewrite En in Hi.
  assert (H0 : s0 = mkSR heap lo hi (Some r) (Some (r, (List.length xs - 1)%nat))) by congruence.
  assert (E0 : sr_list s0 r = xs) by (rewrite H0; exact En).
  assert (Hr0 : (r < List.length (sr_heap s0))%nat) by (rewrite H0; exact Hr).
  destruct (run_other r h s0 Hr0 Hf) as [E1 _]. rewrite E0 in E1.
  destruct (run_attrs h s0 Hm) as (E2 & E3 & E4 & E5). fold s in E1, E2, E3, E4, E5.
  assert (F : sr_model s0 = Some (r, (List.length xs - 1)%nat) /\ sr_coef s0 = Some r /\ sr_min s0 = lo /\ sr_max s0 = hi) by (rewrite H0; repeat split).
  destruct F as (F1 & F2 & F3 & F4). rewrite F1 in E2. rewrite F2 in E3. rewrite F3 in E4. rewrite F4 in E5. clearbody s. clear H0 Hi.
  assert (G : forall t, sr_list t r = xs -> sr_model t = Some (r, (List.length xs - 1)%nat) -> forall x, model_now t x = model_at plain x).
  { intros t T1 T2 x. unfold model_now, model_at. rewrite T2, T1. cbn [sy_model plain]. destruct xs as [|a l]; [congruence|].
    unfold polynomial. replace (Nat.eqb (length (a :: l)) 0) with false by reflexivity. replace (Nat.ltb (length (a :: l)) (length (a :: l) - 1)) with false by (symmetry; apply Nat.ltb_ge; lia).
    replace (Nat.eqb (length (a :: l)) (length (a :: l) - 1 + 1)) with true by (symmetry; apply Nat.eqb_eq; cbn; lia). reflexivity. }
  split; [exact (G s E1 E2)|]. intros inv w Hinv. unfold pixels_now. rewrite E2, E3, E4, E5, E1, F1, F2, F3, F4, E0. split.
  - rewrite (Hinv (model_now s) (model_now s0)); [reflexivity|]. intros x. rewrite (G s E1 E2), (G s0 E0 F1). reflexivity.
  - intros H2 inv'. destruct xs as [|a [|b [|c l]]]; [congruence|reflexivity|reflexivity|cbn in H2; lia].
Qed.

(** C153, what holds after set_model: in any state, set_model with one of the caller's
    lists makes the model the polynomial of these coefficients, and it stays so as long as
    the caller leaves the list alone and does not call set_model again. *)
Lemma synth_model_kept_partial_main :
  forall (A : Type) (N : Num A) (s0 : srefs A) r xs (h : list (sref_op A)),
    nth_error (sr_heap s0) r = Some xs -> xs <> [] ->
    (forall f, ~ In (RChange r f) h) -> (forall q, ~ In (RModel q) h) ->
    let s := sref_run (sref_step s0 (RModel r)) h in
    (forall x, model_now s x = model_at (mkSynth (sr_min s0) (sr_max s0) None (Some xs)) x) /\
    sr_min s = sr_min s0 /\ sr_max s = sr_max s0 /\ sr_coef s = sr_coef s0.
Proof.
  intros A N s0 r xs h Hx Hne Hf Hm s.
  assert (Hr : (r < List.length (sr_heap s0))%nat) by (apply nth_error_Some; congruence).
  assert (En : sr_list s0 r = xs) by (apply nth_error_nth; exact Hx).
  set (s1 := sref_step s0 (RModel r)) in *.
  assert (F0 : sr_list s1 r = xs) by exact En.
  assert (F1 : sr_model s1 = Some (r, (List.length xs - 1)%nat)) by (unfold s1; cbn [sref_step sr_model]; rewrite En; reflexivity).
  destruct (run_other r h s1 Hr Hf) as [E1 _]. rewrite F0 in E1.
  destruct (run_attrs h s1 Hm) as (E2 & E3 & E4 & E5). fold s in E1, E2, E3, E4, E5. rewrite F1 in E2.
  split; [|split; [exact E4|split; [exact E5|exact E3]]].
  intros x. clearbody s. unfold model_now, model_at. rewrite E2, E1. cbn [sy_model]. destruct xs as [|a l]; [congruence|].
  unfold polynomial. replace (Nat.eqb (length (a :: l)) 0) with false by reflexivity. replace (Nat.ltb (length (a :: l)) (length (a :: l) - 1)) with false by (symmetry; apply Nat.ltb_ge; lia).
  replace (Nat.eqb (length (a :: l)) (length (a :: l) - 1 + 1)) with true by (symmetry; apply Nat.eqb_eq; cbn; lia). reflexivity.
Qed.

(** C153 fails: the list passed is the list used.  Whatever the caller later does to it
    (keeping its length) is done to the model, and for a model of one or two coefficients
    to the pixels. *)
Lemma synth_shared_refuted_main :
  forall (A : Type) (N : Num A) (s0 : srefs A) heap lo hi r xs (f : list A -> list A),
    nth_error heap r = Some xs -> xs <> [] -> List.length (f xs) = List.length xs ->
    sref_init heap lo hi r = Ok s0 ->
    let s := sref_run s0 [RChange r f] in
    let other := mkSynth lo hi (Some (f xs)) (Some (f xs)) in
    (forall x, model_now s x = model_at other x) /\
    ((List.length xs <= 2)%nat -> forall inv inv' w, pixels_now inv s w = get_pixels inv' other (Some w)).
Proof.
  intros A N s0 heap lo hi r xs f Hx Hne Hl Hi s other. unfold sref_init in Hi.
  destruct (lo <' hi); [|discriminate].
  assert (Hr : (r < List.length heap)%nat) by (apply nth_error_Some; congruence).
  assert (En : nth r heap [] = xs) by (apply nth_error_nth; exact Hx). rewrite En in Hi. injection Hi as <-.
  assert (E1 : sr_list s r = f xs).
  { unfold s, sref_run, sr_list. cbn [fold_left sref_step sr_heap]. rewrite set_at_same by exact Hr. unfold sr_list. cbn [sr_heap]. rewrite En. reflexivity. }
  assert (E2 : sr_model s = Some (r, (List.length xs - 1)%nat)) by reflexivity.
  assert (E3 : sr_coef s = Some r) by reflexivity. assert (E4 : sr_min s = lo) by reflexivity. assert (E5 : sr_max s = hi) by reflexivity.
  clearbody s. rewrite <- Hl in E2. set (ys := f xs) in *. assert (Hy : ys <> []) by (intros E; rewrite E in Hl; destruct xs; [congruence|discriminate]).
  clearbody ys. split.
  - intros x. unfold model_now, model_at. rewrite E2, E1. cbn [sy_model other]. destruct ys as [|a l]; [congruence|].
    unfold polynomial. replace (Nat.eqb (length (a :: l)) 0) with false by reflexivity. replace (Nat.ltb (length (a :: l)) (length (a :: l) - 1)) with false by (symmetry; apply Nat.ltb_ge; lia).
    replace (Nat.eqb (length (a :: l)) (length (a :: l) - 1 + 1)) with true by (symmetry; apply Nat.eqb_eq; cbn; lia). reflexivity.
  - intros H2 inv inv' w. unfold pixels_now. rewrite E2, E3, E4, E5, E1. rewrite <- Hl in H2.
    destruct ys as [|a [|b [|c l]]]; [congruence|reflexivity|reflexivity|cbn in H2; lia].
Qed.

(** C153 fails: appending a number to the list passed does not raise the degree but
    replaces the constant term. *)
Lemma synth_append_refuted_main :
  forall (A : Type) (N : Num A) (s0 : srefs A) heap lo hi r xs c0 v,
    nth_error heap r = Some (xs ++ [c0]) ->
    sref_init heap lo hi r = Ok s0 ->
    forall x, model_now (sref_run s0 [RChange r (fun l => l ++ [v])]) x =
              model_at (mkSynth lo hi None (Some (xs ++ [v]))) x.
Proof.
  intros A N s0 heap lo hi r xs c0 v Hx Hi x. unfold sref_init in Hi.
  destruct (lo <' hi); [|discriminate].
  assert (Hr : (r < List.length heap)%nat) by (apply nth_error_Some; congruence).
  assert (En : nth r heap [] = xs ++ [c0]) by (apply nth_error_nth; exact Hx). rewrite En in Hi. injection Hi as <-.
  set (s := sref_run _ _).
  assert (E1 : sr_list s r = (xs ++ [c0]) ++ [v]).
  { unfold s, sref_run, sr_list. cbn [fold_left sref_step sr_heap]. rewrite set_at_same by exact Hr. unfold sr_list. cbn [sr_heap]. rewrite En. reflexivity. }
  assert (E2 : sr_model s = Some (r, List.length xs)) by (unfold s; cbn; rewrite app_length; cbn; do 2 f_equal; lia).
  clearbody s. unfold model_now, model_at. rewrite E2, E1. cbn [sy_model].
  assert (EL : List.length ((xs ++ [c0]) ++ [v]) = S (S (List.length xs))) by (rewrite !app_length; cbn; lia). rewrite EL. cbn [Nat.eqb].
  replace (Nat.ltb (S (S (length xs))) (length xs)) with false by (symmetry; apply Nat.ltb_ge; lia).
  assert (G : Ok (poly_at ((xs ++ [c0]) ++ [v]) (length xs) x) =
              bind (polynomial (xs ++ [v]) (length (xs ++ [v]) - 1)) (fun f => Ok (f x))).
  { unfold polynomial. rewrite app_length. cbn [List.length]. replace (Nat.eqb (length xs + 1) (length xs + 1 - 1 + 1)) with true by (symmetry; apply Nat.eqb_eq; lia).
    cbn [bind]. replace (length xs + 1 - 1)%nat with (length xs) by lia. f_equal. unfold poly_at. rewrite !last_last.
    assert (F : forall l t, (forall i, In i l -> (1 <= i <= length xs)%nat) ->
      fold_left (fun t i => t +' nth (length xs - i) ((xs ++ [c0]) ++ [v]) (nZ 0) *' npow x i) l t =
      fold_left (fun t i => t +' nth (length xs - i) (xs ++ [v]) (nZ 0) *' npow x i) l t).
    { induction l as [|i l IH]; intros t Hl; [reflexivity|]. cbn [fold_left].
      assert (H1 := Hl i (or_introl eq_refl)). rewrite <- app_assoc. rewrite !app_nth1 by lia. rewrite app_assoc. apply IH. intros j Hj. apply Hl. right. exact Hj. }
    apply F. intros i Hi. apply in_seq in Hi. lia. }
  rewrite G. destruct (xs ++ [v]) eqn:E; [destruct xs; discriminate|reflexivity].
Qed.

(** The coefficients 2, 3, 5 (2 x^2 + 3 x + 5) at 10 are worth 235; after sorting the
    caller's list downwards 532; after appending 7 to it 237. *)
Example synth_shared_example_main :
  match sref_init [[fz 2; fz 3; fz 5]] (fz 0) (fz 1000) 0 return Prop with
  | Ok s =>
      model_now s (fz 10) = Ok (fz 235) /\
      model_now (sref_run s [RNew [fz 1]; RChange 1 (fun _ => [])]) (fz 10) = Ok (fz 235) /\
      model_now (sref_run s [RNew [fz 1; fz 4]; RModel 1; RChange 0 (fun _ => [])]) (fz 10) = Ok (fz 14) /\
      model_now (sref_run s [RChange 0 (@rev f64)]) (fz 10) = Ok (fz 532) /\
      model_now (sref_run s [RChange 0 (fun l => l ++ [fz 7])]) (fz 10) = Ok (fz 237) /\
      model_now (sref_run s [RChange 0 (fun _ => [])]) (fz 10) = Raise IndexError
  | Raise _ => False
  end.
Proof. vm_compute. auto 10. Qed.

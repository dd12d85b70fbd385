(** * Main_Window: the samples refine_peaks looks at (C133). *)

From Coq Require Import ZArith Bool List String Lia Arith.
From Verif Require Import Num F64 Py Np NpFacts Util SpecUtil RefineFacts Main_Util.
Import ListNotations.
Local Open Scope num_scope.

(** Sample number [i] is within [width] of one of the peaks. *)
Definition near_peak {A} {N : Num A} (width : Z) (peaks : list A) (i : nat) : Prop :=
  exists p ip, In p peaks /\ ntrunc p = Some ip /\ (ip - width <= Z.of_nat i < ip + width)%Z.

Lemma nth_ext' {T} (l1 l2 : list T) : (forall i, nth_error l1 i = nth_error l2 i) -> l1 = l2.
Proof.
  revert l2. induction l1 as [|x l1 IH]; intros [|y l2] H; [reflexivity|specialize (H 0%nat); discriminate|specialize (H 0%nat); discriminate|].
  f_equal; [specialize (H 0%nat); cbn in H; congruence|]. apply IH. intros i. apply (H (S i)).
Qed.

Lemma nth_firstn {T} (l : list T) n k :
  nth_error (firstn n l) k = if Nat.ltb k n then nth_error l k else None.
Proof.
  revert l k. induction n as [|n IH]; intros [|x l] [|k]; cbn; try reflexivity.
  - destruct n; [reflexivity|]. now destruct (Nat.leb k n).
  - rewrite IH. reflexivity.
Qed.

Lemma nth_patch {T} (l y : list T) start cnt i :
  (start + cnt <= List.length l)%nat -> List.length y = cnt ->
  nth_error (firstn start l ++ y ++ skipn (start + cnt) l) i =
  if Nat.ltb i start then nth_error l i
  else if Nat.ltb i (start + cnt) then nth_error y (i - start) else nth_error l i.
Proof.
  intros H L. destruct (Nat.ltb_spec i start).
  - rewrite nth_error_app1 by (rewrite firstn_length; lia). rewrite nth_firstn.
    destruct (Nat.ltb_spec i start); [reflexivity|lia].
  - rewrite nth_error_app2 by (rewrite firstn_length; lia). rewrite firstn_length, Nat.min_l by lia.
    destruct (Nat.ltb_spec i (start + cnt)).
    + rewrite nth_error_app1 by lia. reflexivity.
    + rewrite nth_error_app2 by lia. rewrite nth_error_skipn'. f_equal. lia.
Qed.

Section Window.
  Context {A : Type} {N : Num A}.
  Variables (cf : curve_fitter A) (width : Z).

  Definition agree (P : nat -> Prop) (s1 s2 : list A) : Prop :=
    List.length s1 = List.length s2 /\ forall i, P i -> nth_error s1 i = nth_error s2 i.

  Lemma window_bounds len p ip start cnt :
    (0 <= len)%Z -> ntrunc p = Some ip -> (0 <= ip + width)%Z -> peak_window len width p = Ok (start, cnt) ->
    (start + cnt <= Z.to_nat len)%nat \/ cnt = 0%nat.
  Proof.
    intros Hl Ht Hw. unfold peak_window. rewrite Ht. unfold slice_range, slice_bound. cbv zeta.
    destruct (Z.ltb_spec (Z.max 0 (ip - width)) 0); [lia|].
    destruct (Z.ltb_spec (Z.min (ip + width) len) 0); [lia|].
    intros E. assert (E1 : start = Z.to_nat (Z.min len (Z.max 0 (ip - width)))) by congruence.
    assert (E2 : cnt = (Z.to_nat (Z.min len (Z.min (ip + width) len)) - start)%nat) by congruence. lia.
  Qed.

  Lemma window_near len p ip start cnt k :
    (0 <= len)%Z -> ntrunc p = Some ip -> (0 <= ip + width)%Z -> peak_window len width p = Ok (start, cnt) ->
    (k < cnt)%nat -> (ip - width <= Z.of_nat (start + k) < ip + width)%Z.
  Proof.
    intros Hl Ht Hw. unfold peak_window. rewrite Ht. unfold slice_range, slice_bound. cbv zeta.
    destruct (Z.ltb_spec (Z.max 0 (ip - width)) 0); [lia|].
    destruct (Z.ltb_spec (Z.min (ip + width) len) 0); [lia|].
    intros E. assert (E1 : start = Z.to_nat (Z.min len (Z.max 0 (ip - width)))) by congruence.
    assert (E2 : cnt = (Z.to_nat (Z.min len (Z.min (ip + width) len)) - start)%nat) by congruence. lia.
  Qed.

  Lemma refine_one_length s p : List.length (fst (refine_one cf s width p)) = List.length s.
  Proof.
    unfold refine_one. cbv zeta.
    destruct (peak_window (Z.of_nat (List.length s)) width p) as [[start cnt]|e] eqn:Ew; [|reflexivity].
    assert (Hs : (start <= List.length s)%nat).
    { unfold peak_window in Ew. destruct (ntrunc p) as [ip|]; [|discriminate].
      unfold slice_range in Ew. cbv zeta in Ew.
      assert (E : start = slice_bound (Z.of_nat (List.length s)) (Z.max 0 (ip - width))) by congruence.
      subst start. unfold slice_bound. lia. }
    destruct (np_nanmax _) as [m|e]; [|reflexivity].
    match goal with |- context [firstn start s ++ ?y ++ skipn (start + cnt) s] =>
      assert (L : List.length (firstn start s ++ y ++ skipn (start + cnt) s) = List.length s) end.
    { rewrite !app_length, map_length, !firstn_length, !skipn_length. lia. }
    destruct (Nat.eqb _ 0); [exact L|].
    destruct (cf _ _ _ _) as [[h c]|[]]; try exact L.
    destruct (h <' nZ 0); [exact L|]. destruct (_ || _); exact L.
  Qed.

  Lemma refine_one_agree (P : nat -> Prop) s1 s2 p :
    (forall ip, ntrunc p = Some ip -> (0 <= ip + width)%Z /\
       forall i, (ip - width <= Z.of_nat i < ip + width)%Z -> P i) ->
    agree P s1 s2 ->
    agree P (fst (refine_one cf s1 width p)) (fst (refine_one cf s2 width p)) /\
    snd (refine_one cf s1 width p) = snd (refine_one cf s2 width p).
  Proof.
    intros Hp [HL HA]. unfold refine_one. cbv zeta. rewrite <- HL.
    destruct (peak_window (Z.of_nat (List.length s1)) width p) as [[start cnt]|e] eqn:Ew; [|split; [split|]; auto].
    assert (Hip : exists ip, ntrunc p = Some ip).
    { unfold peak_window in Ew. destruct (ntrunc p) as [ip|]; [eauto|discriminate]. }
    destruct Hip as [ip Ht]. destruct (Hp ip Ht) as [Hw HP].
    assert (Hl : (0 <= Z.of_nat (List.length s1))%Z) by lia.
    pose proof (window_bounds _ _ _ _ _ Hl Ht Hw Ew) as B. rewrite Nat2Z.id in B.
    assert (Ey : firstn cnt (skipn start s1) = firstn cnt (skipn start s2)).
    { apply nth_ext'. intros i. rewrite !nth_firstn. destruct (Nat.ltb_spec i cnt); [|reflexivity].
      rewrite !nth_error_skipn'. apply HA, HP. eapply window_near; eauto. }
    rewrite <- Ey. set (y := firstn cnt (skipn start s1)) in *.
    destruct (np_nanmax y) as [m|e] eqn:Em; [|split; [split|]; auto].
    assert (Hc : (start + cnt <= List.length s1)%nat).
    { destruct B as [B|B]; [exact B|]. subst cnt. cbn in y. subst y. discriminate. }
    assert (Hy : List.length (map (fun v => v /' m) y) = cnt).
    { rewrite map_length. unfold y. rewrite firstn_length, skipn_length. lia. }
    assert (G : agree P (firstn start s1 ++ map (fun v => v /' m) y ++ skipn (start + cnt) s1)
                        (firstn start s2 ++ map (fun v => v /' m) y ++ skipn (start + cnt) s2)).
    { split.
      - rewrite !app_length, !firstn_length, !skipn_length. lia.
      - intros i Hi. rewrite !nth_patch by (auto; lia).
        destruct (Nat.ltb i start); [auto|]. destruct (Nat.ltb i (start + cnt)); auto. }
    destruct (Nat.eqb _ 0); [split; [exact G|reflexivity]|].
    destruct (cf _ _ _ _) as [[h c]|[]]; try (split; [exact G|reflexivity]).
    destruct (h <' nZ 0); [split; [exact G|reflexivity]|].
    destruct (_ || _); split; try exact G; reflexivity.
  Qed.

  Lemma refine_loop_agree (P : nat -> Prop) peaks : forall s1 s2,
    (forall p ip, In p peaks -> ntrunc p = Some ip -> (0 <= ip + width)%Z /\
       forall i, (ip - width <= Z.of_nat i < ip + width)%Z -> P i) ->
    agree P s1 s2 -> refine_loop cf s1 width peaks = refine_loop cf s2 width peaks.
  Proof.
    induction peaks as [|p peaks IH]; intros s1 s2 Hp HA; [reflexivity|]. cbn [refine_loop].
    destruct (refine_one_agree P s1 s2 p) as [G1 G2]; [intros ip Ht; apply (Hp p ip); [left|]; auto|exact HA|].
    destruct (refine_one cf s1 width p) as [t1 o1], (refine_one cf s2 width p) as [t2 o2].
    cbn [fst snd] in *. subst o2. destruct o1 as [v|e]; cbn [bind]; [|reflexivity].
    rewrite (IH t1 t2); [reflexivity| |exact G1]. intros q iq Hq. apply Hp. right. exact Hq.
  Qed.
End Window.

(** C133 (part that holds): if no peak lies more than the window to the left of
    the spectrum, refine_peaks depends only on the samples within [width] of some
    peak: spectra of equal length that agree there give the same refined peaks
    (or the same exception). *)
Lemma refine_looks_near_partial_main :
  forall (A : Type) (N : Num A) (cf : curve_fitter A) (sp1 sp2 peaks : list A) (width : Z),
    List.length sp1 = List.length sp2 ->
    (forall p ip, In p peaks -> ntrunc p = Some ip -> (- width <= ip)%Z) ->
    (forall i, near_peak width peaks i -> nth_error sp1 i = nth_error sp2 i) ->
    refine_peaks cf sp1 peaks width = refine_peaks cf sp2 peaks width.
Proof.
  intros A N cf sp1 sp2 peaks width HL Hp HA. unfold refine_peaks.
  rewrite (refine_loop_agree cf width (near_peak width peaks) peaks sp1 sp2).
  - now rewrite HL.
  - intros p ip Hin Ht. split; [specialize (Hp p ip Hin Ht); lia|].
    intros i Hi. exists p, ip. auto.
  - split; auto.
Qed.

Definition ramp' : list f64 := map fz [1; 2; 4; 2; 1; 3; 8; 3; 7; 9]%Z.

Example refine_looks_near_example_main :
  (forall i, near_peak 2 [fz 2; fz 6] i -> nth_error ramp i = nth_error ramp' i) /\
  refine_peaks fit_peak ramp [fz 2; fz 6] 2 = Ok [fz 2; fz 6] /\
  refine_peaks fit_peak ramp' [fz 2; fz 6] 2 = Ok [fz 2; fz 6].
Proof.
  split; [|split; vm_compute; reflexivity].
  intros i (p & ip & [<-|[<-|[]]] & Ht & Hi).
  - assert (ip = 2%Z) by (vm_compute in Ht; congruence). subst ip.
    do 4 (destruct i as [|i]; [reflexivity|]). lia.
  - assert (ip = 6%Z) by (vm_compute in Ht; congruence). subst ip.
    do 8 (destruct i as [|i]; [reflexivity|]). lia.
Qed.

Definition ramp2 : list f64 := map fz [1; 2; 4; 2; 1; 3; 3; 8; 1; 1]%Z.

(** C133 REFUTED: a peak at -3 with windows of one sample is fitted to samples 0
    to 7 of ten, none of them near it, and a refined peak comes out of it; with
    other samples there another one comes out. *)
Lemma refine_looks_near_refuted_main :
  (forall i, ~ near_peak 1 [fz (-3)] i) /\
  List.length ramp = List.length ramp2 /\
  refine_peaks fit_peak ramp [fz (-3)] 1 = Ok [fz 2] /\
  refine_peaks fit_peak ramp2 [fz (-3)] 1 = Ok [fz 3].
Proof.
  split; [|split; [reflexivity|split; vm_compute; reflexivity]].
  intros i (p & ip & [<-|[]] & Ht & Hi). assert (ip = (-3)%Z) by (vm_compute in Ht; congruence). subst ip. lia.
Qed.

(** C133: one peak whose window holds no sample makes the whole call fail: no
    refined peaks are returned for the others either. *)
Lemma refine_empty_window_fails_main :
  forall (A : Type) (N : Num A) (cf : curve_fitter A) (sp peaks : list A) (width : Z) p ip out,
    In p peaks -> ntrunc p = Some ip -> (0 <= ip + width)%Z ->
    (forall i, (i < List.length sp)%nat -> ~ (ip - width <= Z.of_nat i < ip + width)%Z) ->
    refine_peaks cf sp peaks width <> Ok out.
Proof.
  intros A N cf sp peaks width p ip out Hin Ht Hw Hno H.
  unfold refine_peaks in H. destruct (refine_loop cf sp width peaks) as [r|e] eqn:E; [|discriminate].
  clear H. revert sp r Hno E. induction peaks as [|q peaks IH]; intros sp r Hno E; [destruct Hin|].
  cbn [refine_loop] in E.
  destruct (refine_one cf sp width q) as [sp' o] eqn:E1. destruct o as [v|]; [|discriminate]. cbn [bind] in E.
  destruct (refine_loop cf sp' width peaks) as [rest|] eqn:E2; [|discriminate]. clear E.
  destruct Hin as [->|Hin].
  - unfold refine_one in E1. cbv zeta in E1.
    destruct (peak_window (Z.of_nat (List.length sp)) width p) as [[start cnt]|e] eqn:Ew; [|discriminate].
    assert (Hl : (0 <= Z.of_nat (List.length sp))%Z) by lia.
    pose proof (window_bounds width _ _ _ _ _ Hl Ht Hw Ew) as B. rewrite Nat2Z.id in B.
    destruct cnt as [|cnt]; [cbn in E1; discriminate|].
    pose proof (window_near width _ _ _ _ _ 0 Hl Ht Hw Ew (Nat.lt_0_succ _)) as K.
    apply (Hno (start + 0)%nat); [lia|exact K].
  - apply (IH Hin sp' rest); [|exact E2].
    replace (List.length sp') with (List.length sp); [exact Hno|].
    pose proof (refine_one_length cf width sp q) as L. rewrite E1 in L. symmetry. exact L.
Qed.

Example refine_empty_window_fails_example_main :
  (forall i, (i < List.length ramp)%nat -> ~ (15 - 2 <= Z.of_nat i < 15 + 2)%Z) /\
  refine_peaks fit_peak ramp [fz 2; fz 15] 2 = Raise ValueError.
Proof. split; [|vm_compute; reflexivity]. intros i Hi. cbn in Hi. lia. Qed.

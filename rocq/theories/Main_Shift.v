(** * Main_Shift: how far the position reported by refine_peaks is from the centre that
    was fitted (C14). *)

From Coq Require Import ZArith Bool List Lia Reals Lra.
From Verif Require Import Num XReal Py Np NpFacts Util SpecUtil UtilFacts RefineFacts Main_Util Main_Scale.
Import ListNotations.
Local Open Scope num_scope.

(** C14 (what holds): for peaks that are finite and not negative, with int(peak) = ip, the
    window starts at sample max(0, ip - width), so the fitted centre c lies at
    max(0, ip - width) + c.  The position reported is too large by the fraction of the peak
    and too small by the number of samples by which the window was cut at the left edge;
    it is right exactly if the peak is a whole number and its window is not cut. *)
Lemma refine_shift_partial_main :
  forall (cf : curve_fitter xr) sp peaks (width : Z) out,
    (0 <= width)%Z ->
    (forall p, In p peaks -> exists r, p = Fin r /\ (0 <= r)%R) ->
    refine_peaks cf sp peaks width = Ok out ->
    forall loc, In loc out ->
      exists r ip c, In (Fin r) peaks /\ (IZR ip <= r < IZR ip + 1)%R /\
        fitted cf sp width (Fin r) (Fin c) /\
        loc = Fin (IZR (Z.max 0 (ip - width)) + c + (r - IZR ip) - IZR (Z.max 0 (width - ip)))%R /\
        (loc = Fin (IZR (Z.max 0 (ip - width)) + c)%R <-> r = IZR ip /\ (width <= ip)%Z).
Proof.
  intros cf sp peaks width out Hw Hp H loc Hin.
  destruct (refine_peaks_output_main _ _ _ _ _ _ _ H) as (In0 & _ & picks & E & SB & F).
  destruct (In0 loc Hin) as [Hpos _].
  rewrite E in Hin. apply in_map_iff in Hin. destruct Hin as ([p c] & <- & Hpc). specialize (F _ Hpc).
  cbn [fst snd] in *.
  assert (Hq : In p peaks).
  { eapply subseq_incl; [exact SB|]. change p with (fst (p, c)). apply in_map. auto. }
  destruct (Hp p Hq) as (r & -> & Hr).
  assert (Hc : exists c', c = Fin c').
  { destruct c as [c'|b|]; [eauto| |].
    - destruct F as (ip & y & mean & sigma & h & _ & _ & _ & _ & G1 & G2).
      destruct b; rewrite nZ_Fin in *; discriminate.
    - rewrite !nZ_Fin in Hpos. discriminate. }
  destruct Hc as (c' & ->).
  destruct (base_Int_part r) as [B1 B2].
  set (ip := Int_part r) in *.
  exists r, ip, c'. split; [exact Hq|]. split; [lra|]. split; [exact F|].
  assert (L : Fin r -' nZ width +' Fin c'
    = Fin (IZR (Z.max 0 (ip - width)) + c' + (r - IZR ip) - IZR (Z.max 0 (width - ip)))%R).
  { rewrite nZ_Fin. cbn [nsub nadd XRnum xsub xopp xadd]. f_equal.
    destruct (Z.le_ge_cases width ip).
    - rewrite (Z.max_r 0 (ip - width)), (Z.max_l 0 (width - ip)) by lia. rewrite minus_IZR. lra.
    - rewrite (Z.max_l 0 (ip - width)), (Z.max_r 0 (width - ip)) by lia. rewrite minus_IZR. lra. }
  split; [exact L|]. rewrite L. split.
  - intros K. injection K as K.
    assert (D : (r - IZR ip = IZR (Z.max 0 (width - ip)))%R) by lra.
    assert (M : (Z.max 0 (width - ip) < 1)%Z) by (apply lt_IZR; lra).
    assert (M0 : Z.max 0 (width - ip) = 0%Z) by lia.
    rewrite M0 in D. split; [lra|lia].
  - intros [K1 K2]. rewrite (Z.max_l 0 (width - ip)) by lia. f_equal. lra.
Qed.

(** A peak at 2.5 with width 3 and a fitted centre at 4 (that is, at sample 4, the window
    being cut by one sample): the position reported is 3.5 = 4 + 0.5 - 1. *)
Example refine_shift_example_main :
  refine_peaks (fun _ _ _ _ => Ok (Fin 1, Fin 4)) (map Fin [1; 2; 4; 2; 1; 3; 8]%R)
    [Fin (5 / 2)%R] 3 = Ok [Fin (7 / 2)%R].
Proof.
  assert (T : ntrunc (Fin (5 / 2)) = Some 2%Z).
  { cbn [ntrunc XRnum]. unfold xtrunc. destruct (Rltb_spec (5 / 2) 0); [lra|]. f_equal.
    destruct (base_Int_part (5 / 2)) as [B1 B2].
    assert (Int_part (5 / 2) < 3)%Z by (apply lt_IZR; lra).
    assert (1 < Int_part (5 / 2))%Z by (apply lt_IZR; lra). lia. }
  erewrite (refine_single_fit_main _ _ _ 2 3 [1; 2; 4; 2; 1]%R 4%R T).
  - cbv zeta. cbn [List.length].
    assert (E0 : Fin 1 <' Fin 0 = false) by (change (Rltb 1 0 = false); destruct (Rltb_spec 1 0); [lra|reflexivity]).
    assert (E1 : Fin (INR 7) <' Fin 4 = false) by (change (Rltb (INR 7) 4 = false); destruct (Rltb_spec (INR 7) 4); [cbn in *; lra|reflexivity]).
    assert (E2 : Fin 4 <' Fin 0 = false) by (change (Rltb 4 0 = false); destruct (Rltb_spec 4 0); [lra|reflexivity]).
    rewrite E0, E1, E2. cbn [orb].
    assert (L : Fin (5 / 2) -' Fin 3 +' Fin 4 = Fin (7 / 2)).
    { cbn [nsub nadd XRnum xsub xopp xadd]. f_equal. lra. }
    rewrite L.
    assert (E3 : Fin 0 <' Fin (7 / 2) = true) by (change (Rltb 0 (7/2) = true); destruct (Rltb_spec 0 (7/2)); [reflexivity|lra]).
    assert (E4 : Fin (7 / 2) <' Fin (INR 7) = true) by (change (Rltb (7/2) (INR 7) = true); destruct (Rltb_spec (7/2) (INR 7)); [reflexivity|cbn in *; lra]).
    rewrite E3, E4. reflexivity.
  - exists [], [3; 8]%R. repeat split.
  - cbn; auto.
  - intros v [<-|[<-|[<-|[<-|[<-|[]]]]]]; lra.
  - lra.
Qed.

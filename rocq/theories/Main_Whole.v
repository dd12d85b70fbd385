(** * Main_Whole: whole numbers in place of floats (C144). *)

From Coq Require Import ZArith Bool List Lia Reals Lra.
From Verif Require Import Num F64 XReal Py Np Util SpecUtil Main_Util Models Main_Models Whole.
Import ListNotations.
Local Open Scope num_scope.

(** C144 REFUTED: a spectrum of whole numbers cannot be refined.  Whatever the counts,
    the peaks and the fitter, refine_peaks raises: TypeError, if the first peak is a
    number with samples around it. *)
Lemma refine_counts_refuted_main :
  forall (A : Type) (N : Num A) (cf : curve_fitter A) (z : list Z) p peaks width,
    (exists e, refine_peaks_of cf (Ints z) (p :: peaks) width = Raise e) /\
    (forall ip, ntrunc p = Some ip -> (0 <= ip < Z.of_nat (List.length z))%Z -> (0 < width)%Z ->
       refine_peaks_of cf (Ints z) (p :: peaks) width = Raise TypeError).
Proof.
  intros A N cf z p peaks width. unfold refine_peaks_of. split.
  - destruct (peak_window _ _ p) as [w|e]; cbn [bind]; [|eauto]. destruct (firstn _ _); eauto.
  - intros ip Hp Hi Hw. unfold peak_window. rewrite Hp. cbn [bind].
    destruct (slice_range _ _ _) as [start cnt] eqn:E. cbn [fst snd].
    assert (Hs : (start < List.length z)%nat /\ (0 < cnt)%nat).
    { unfold slice_range, slice_bound in E. injection E as <- <-.
      repeat match goal with |- context [(?a <? ?b)%Z] => destruct (Z.ltb_spec a b) end; lia. }
    destruct (firstn cnt (skipn start z)) eqn:F; [|reflexivity].
    apply (f_equal (@List.length Z)) in F. rewrite firstn_length, skipn_length in F. cbn in F. lia.
Qed.

(** The counts 1 2 4 2 1 3 8 3 1 1: as floats the peaks at 2 and 6 are refined. *)
Example refine_counts_example_main :
  let counts := [1; 2; 4; 2; 1; 3; 8; 3; 1; 1]%Z in
  refine_peaks_of fit_peak (Floats (map fz counts)) [fz 2; fz 6] 2 = Ok [fz 2; fz 6] /\
  refine_peaks_of fit_peak (Ints counts) [fz 2; fz 6] 2 = Raise TypeError.
Proof. split; vm_compute; reflexivity. Qed.

(** Without peaks nothing is refined, whatever the kind of the spectrum. *)
Lemma refine_no_peaks_main :
  forall (A : Type) (N : Num A) (cf : curve_fitter A) (spectrum : counts A) width,
    refine_peaks_of cf spectrum [] width = Ok [].
Proof. intros A N cf [z|l] width; reflexivity. Qed.

(** C144 REFUTED: initial coefficients in an integer array make robust_polyfit raise,
    whatever they are: TypeError, if there are enough of them and the spread of x is a
    number; IndexError, if there are too few; ValueError for the second of them, if the
    spread is NaN. *)
Lemma whole_start_refuted_main :
  forall (x : list xr) degree (x0 : list Z),
    (exists e, robust_polyfit_from x degree x0 = Raise e) /\
    (forall sx, np_std x = Fin sx -> (degree <= List.length x0)%nat -> robust_polyfit_from x degree x0 = Raise TypeError) /\
    (forall sx, np_std x = Fin sx -> (List.length x0 < degree)%nat -> robust_polyfit_from x degree x0 = Raise IndexError) /\
    (np_std x = NaN -> (2 <= degree)%nat -> (2 <= List.length x0)%nat -> robust_polyfit_from x degree x0 = Raise ValueError).
Proof.
  intros x degree x0. unfold robust_polyfit_from. split; [|split; [|split]].
  - destruct (scale_start _ _ _ _); cbn [bind]; eauto.
  - intros sx -> L.
    assert (G : forall n i p, (n <= List.length p)%nat -> exists p', scale_start (Fin sx) i n p = Ok p').
    { induction n as [|n IH]; intros i p Hp; [exists p; destruct p; reflexivity|].
      destruct p as [|z p]; [cbn in Hp; lia|]. cbn [scale_start].
      rewrite nZ_Fin, PolyFacts.npow_real. change (Fin (IZR z) *' Fin (sx ^ i)) with (Fin (IZR z * sx ^ i)%R).
      unfold cut. cbn [ntrunc XRnum xtrunc bind]. destruct (IH (S i) p) as (p' & ->); [cbn in Hp; lia|]. cbn [bind]. eauto. }
    destruct (G degree 0%nat x0 L) as (p' & ->). reflexivity.
  - intros sx -> L.
    assert (G : forall n i p, (List.length p < n)%nat -> scale_start (Fin sx) i n p = Raise IndexError).
    { induction n as [|n IH]; intros i p Hp; [lia|].
      destruct p as [|z p]; [reflexivity|]. cbn [scale_start].
      rewrite nZ_Fin, PolyFacts.npow_real. change (Fin (IZR z) *' Fin (sx ^ i)) with (Fin (IZR z * sx ^ i)%R).
      unfold cut. cbn [ntrunc XRnum xtrunc bind]. rewrite (IH (S i) p) by (cbn in Hp; lia). reflexivity. }
    rewrite (G degree 0%nat x0 L). reflexivity.
  - intros -> D L. destruct degree as [|[|n]]; [lia|lia|]. destruct x0 as [|z0 [|z1 r]]; [cbn in L; lia|cbn in L; lia|].
    cbn [scale_start]. rewrite !nZ_Fin.
    change (npow (NaN : xr) 0) with (nZ 1 : xr). rewrite nZ_Fin.
    change (Fin (IZR z0) *' Fin 1) with (Fin (IZR z0 * 1)%R).
    assert (E : Fin (IZR z1) *' npow (NaN : xr) 1 = NaN) by (cbn; reflexivity).
    rewrite E. unfold cut. cbn [ntrunc XRnum xtrunc bind nisnan xisnan]. reflexivity.
Qed.

(** The same start as floats is accepted. *)
Example whole_start_example_main :
  let ls : optimiser f64 := fun _ _ _ start => Ok start in
  (exists p, robust_polyfit ls (map fz [0; 1; 4]%Z) (map fz [100; 110; 140]%Z) 1 (Some (map fz [100; 10]%Z)) = Ok p) /\
  robust_polyfit_from (map fz [0; 1; 4]%Z) 1 [100; 10]%Z = Raise TypeError.
Proof.
  split; [|vm_compute; reflexivity].
  match goal with |- exists p, ?t = Ok p => let v := eval vm_compute in t in match v with Ok ?q => exists q end end.
  vm_compute. reflexivity.
Qed.

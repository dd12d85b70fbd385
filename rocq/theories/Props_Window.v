(** * Props_Window: property theorems only.  The proofs are in Main_Window.v. *)

From Coq Require Import ZArith Bool List String Lia Arith.
From Verif Require Import Num F64 Py Np NpFacts Util SpecUtil RefineFacts Main_Util.
From Verif Require Import Main_Window.
Import ListNotations.
Local Open Scope num_scope.

(** C133 (part that holds): if no peak lies more than the window to the left of
    the spectrum, refine_peaks depends only on the samples within [width] of some
    peak: spectra of equal length that agree there give the same refined peaks
    (or the same exception). *)
Theorem refine_looks_near_partial :
  forall (A : Type) (N : Num A) (cf : curve_fitter A) (sp1 sp2 peaks : list A) (width : Z),
    List.length sp1 = List.length sp2 ->
    (forall p ip, In p peaks -> ntrunc p = Some ip -> (- width <= ip)%Z) ->
    (forall i, near_peak width peaks i -> nth_error sp1 i = nth_error sp2 i) ->
    refine_peaks cf sp1 peaks width = refine_peaks cf sp2 peaks width.
Proof. exact refine_looks_near_partial_main. Qed.
Print Assumptions refine_looks_near_partial.

Example refine_looks_near_example :
  (forall i, near_peak 2 [fz 2; fz 6] i -> nth_error ramp i = nth_error ramp' i) /\
  refine_peaks fit_peak ramp [fz 2; fz 6] 2 = Ok [fz 2; fz 6] /\
  refine_peaks fit_peak ramp' [fz 2; fz 6] 2 = Ok [fz 2; fz 6].
Proof. exact refine_looks_near_example_main. Qed.

(** C133 REFUTED: a peak at -3 with windows of one sample is fitted to samples 0
    to 7 of ten, none of them near it, and a refined peak comes out of it; with
    other samples there another one comes out. *)
Theorem refine_looks_near_refuted :
  (forall i, ~ near_peak 1 [fz (-3)] i) /\
  List.length ramp = List.length ramp2 /\
  refine_peaks fit_peak ramp [fz (-3)] 1 = Ok [fz 2] /\
  refine_peaks fit_peak ramp2 [fz (-3)] 1 = Ok [fz 3].
Proof. exact refine_looks_near_refuted_main. Qed.
Print Assumptions refine_looks_near_refuted.

(** C133: one peak whose window holds no sample makes the whole call fail: no
    refined peaks are returned for the others either. *)
Theorem refine_empty_window_fails :
  forall (A : Type) (N : Num A) (cf : curve_fitter A) (sp peaks : list A) (width : Z) p ip out,
    In p peaks -> ntrunc p = Some ip -> (0 <= ip + width)%Z ->
    (forall i, (i < List.length sp)%nat -> ~ (ip - width <= Z.of_nat i < ip + width)%Z) ->
    refine_peaks cf sp peaks width <> Ok out.
Proof. exact refine_empty_window_fails_main. Qed.
Print Assumptions refine_empty_window_fails.

Example refine_empty_window_fails_example :
  (forall i, (i < List.length ramp)%nat -> ~ (15 - 2 <= Z.of_nat i < 15 + 2)%Z) /\
  refine_peaks fit_peak ramp [fz 2; fz 15] 2 = Raise ValueError.
Proof. exact refine_empty_window_fails_example_main. Qed.

(** * Props_Whole: property theorems only.  The proofs are in Main_Whole.v. *)

From Coq Require Import ZArith Bool List Lia Reals Lra.
From Verif Require Import Num F64 XReal Py Np Util SpecUtil Main_Util Models Main_Models Whole.
From Verif Require Import Main_Whole.
Import ListNotations.
Local Open Scope num_scope.

(** C144 REFUTED: a spectrum of whole numbers cannot be refined.  Whatever the counts,
    the peaks and the fitter, refine_peaks raises: TypeError, if the first peak is a
    number with samples around it. *)
Theorem refine_counts_refuted :
  forall (A : Type) (N : Num A) (cf : curve_fitter A) (z : list Z) p peaks width,
    (exists e, refine_peaks_of cf (Ints z) (p :: peaks) width = Raise e) /\
    (forall ip, ntrunc p = Some ip -> (0 <= ip < Z.of_nat (List.length z))%Z -> (0 < width)%Z ->
       refine_peaks_of cf (Ints z) (p :: peaks) width = Raise TypeError).
Proof. exact refine_counts_refuted_main. Qed.
Print Assumptions refine_counts_refuted.

(** The counts 1 2 4 2 1 3 8 3 1 1: as floats the peaks at 2 and 6 are refined. *)
Example refine_counts_example :
  let counts := [1; 2; 4; 2; 1; 3; 8; 3; 1; 1]%Z in
  refine_peaks_of fit_peak (Floats (map fz counts)) [fz 2; fz 6] 2 = Ok [fz 2; fz 6] /\
  refine_peaks_of fit_peak (Ints counts) [fz 2; fz 6] 2 = Raise TypeError.
Proof. exact refine_counts_example_main. Qed.

(** Without peaks nothing is refined, whatever the kind of the spectrum. *)
Theorem refine_no_peaks :
  forall (A : Type) (N : Num A) (cf : curve_fitter A) (spectrum : counts A) width,
    refine_peaks_of cf spectrum [] width = Ok [].
Proof. exact refine_no_peaks_main. Qed.
Print Assumptions refine_no_peaks.

(** C144 REFUTED: initial coefficients in an integer array make robust_polyfit raise,
    whatever they are: TypeError, if there are enough of them and the spread of x is a
    number; IndexError, if there are too few; ValueError for the second of them, if the
    spread is NaN. *)
Theorem whole_start_refuted :
  forall (x : list xr) degree (x0 : list Z),
    (exists e, robust_polyfit_from x degree x0 = Raise e) /\
    (forall sx, np_std x = Fin sx -> (degree <= List.length x0)%nat -> robust_polyfit_from x degree x0 = Raise TypeError) /\
    (forall sx, np_std x = Fin sx -> (List.length x0 < degree)%nat -> robust_polyfit_from x degree x0 = Raise IndexError) /\
    (np_std x = NaN -> (2 <= degree)%nat -> (2 <= List.length x0)%nat -> robust_polyfit_from x degree x0 = Raise ValueError).
Proof. exact whole_start_refuted_main. Qed.
Print Assumptions whole_start_refuted.

(** The same start as floats is accepted. *)
Example whole_start_example :
  let ls : optimiser f64 := fun _ _ _ start => Ok start in
  (exists p, robust_polyfit ls (map fz [0; 1; 4]%Z) (map fz [100; 110; 140]%Z) 1 (Some (map fz [100; 10]%Z)) = Ok p) /\
  robust_polyfit_from (map fz [0; 1; 4]%Z) 1 [100; 10]%Z = Raise TypeError.
Proof. exact whole_start_example_main. Qed.

(** * Props_Shift: property theorems only.  The proofs are in Main_Shift.v. *)

From Coq Require Import ZArith Bool List Lia Reals Lra.
From Verif Require Import Num XReal Py Np NpFacts Util SpecUtil UtilFacts RefineFacts Main_Util Main_Scale.
From Verif Require Import Main_Shift.
Import ListNotations.
Local Open Scope num_scope.

(** C14 (what holds): for peaks that are finite and not negative, with int(peak) = ip, the
    window starts at sample max(0, ip - width), so the fitted centre c lies at
    max(0, ip - width) + c.  The position reported is too large by the fraction of the peak
    and too small by the number of samples by which the window was cut at the left edge;
    it is right exactly if the peak is a whole number and its window is not cut. *)
Theorem refine_shift_partial :
  forall (cf : curve_fitter xr) sp peaks (width : Z) out,
    (0 <= width)%Z ->
    (forall p, In p peaks -> exists r, p = Fin r /\ (0 <= r)%R) ->
    refine_peaks cf sp peaks width = Ok out ->
    forall loc, In loc out ->
      exists r ip c, In (Fin r) peaks /\ (IZR ip <= r < IZR ip + 1)%R /\
        fitted cf sp width (Fin r) (Fin c) /\
        loc = Fin (IZR (Z.max 0 (ip - width)) + c + (r - IZR ip) - IZR (Z.max 0 (width - ip)))%R /\
        (loc = Fin (IZR (Z.max 0 (ip - width)) + c)%R <-> r = IZR ip /\ (width <= ip)%Z).
Proof. exact refine_shift_partial_main. Qed.
Print Assumptions refine_shift_partial.

(** A peak at 2.5 with width 3 and a fitted centre at 4 (that is, at sample 4, the window
    being cut by one sample): the position reported is 3.5 = 4 + 0.5 - 1. *)
Example refine_shift_example :
  refine_peaks (fun _ _ _ _ => Ok (Fin 1, Fin 4)) (map Fin [1; 2; 4; 2; 1; 3; 8]%R)
    [Fin (5 / 2)%R] 3 = Ok [Fin (7 / 2)%R].
Proof. exact refine_shift_example_main. Qed.

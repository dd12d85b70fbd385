(** * Props_Scale: property theorems only.  The proofs are in Main_Scale.v. *)

From Coq Require Import ZArith Bool List String Lia Arith Reals Lra.
From Verif Require Import Num F64 XReal Py Np NpFacts Util SpecUtil RefineFacts RefineFacts2 SampleFacts EdlenFacts Main_Util Main_Window.
From Verif Require Import Main_Scale.
Import ListNotations.
Local Open Scope num_scope.

(** C142 (part that holds): if the windows of the peaks do not overlap, the units
    of the intensities do not matter: multiplying the spectrum by a positive
    constant changes neither the refined peaks nor the exception raised. *)
Theorem refine_scale_partial :
  forall (cf : curve_fitter xr) (sp peaks : list xr) (width : Z) (k : R),
    (0 < k)%R ->
    ForallOrdPairs (fun p q => exists a b, ntrunc p = Some a /\ ntrunc q = Some b /\
                      (0 <= width <= a)%Z /\ (width <= b)%Z /\ (2 * width <= Z.abs (a - b))%Z) peaks ->
    refine_peaks cf (map (nmul (Fin k)) sp) peaks width = refine_peaks cf sp peaks width.
Proof. exact refine_scale_partial_main. Qed.
Print Assumptions refine_scale_partial.

(** C142 REFUTED where windows overlap: with the spectrum multiplied by 16 the
    first sample fitted for the peak at 6 is 1/256 and not 1/16 of the highest
    one, because the samples shared with the peak at 2 were scaled to at most one
    before: the refined location changes with the units of the intensities. *)
Theorem refine_scale_refuted :
  refine_peaks fit_first ramp [fz 2; fz 6] 3 = Ok [fd 30625 (-4)] /\
  refine_peaks fit_first (map (fun u => fz 16 *' u) ramp) [fz 2; fz 6] 3 = Ok [fd 300390625 (-8)] /\
  fd 30625 (-4) ==' fd 300390625 (-8) = false.
Proof. exact refine_scale_refuted_main. Qed.
Print Assumptions refine_scale_refuted.
Local Open Scope R_scope.

(** C142: what is fitted for a peak, over exact numbers.  The samples of its window
    are divided by the largest of them and fitted against 0, 1, 2, ...; the fit
    starts from the mean index weighted by the scaled samples and the mean weighted
    squared distance from it.  The one peak is kept exactly if the fitted height is
    not negative, the centre is between 0 and the length of the spectrum, and the
    shifted position is strictly inside the spectrum; a failed fit drops it. *)
Theorem refine_single_fit :
  forall (cf : curve_fitter xr) (s : list R) (p : xr) (ip width : Z) (ys : list R) (M : R),
    ntrunc p = Some ip -> window_of s width ip ys ->
    In M ys -> (forall v, In v ys -> v <= M) -> M <> 0 ->
    let n := INR (List.length ys) in
    let len := Fin (INR (List.length s)) in
    let x := map INR (seq 0 (List.length ys)) in
    let y := map (fun v => v / M) ys in
    let centre := total (map (fun q => fst q * snd q) (combine x y)) / n in
    let spread := total (map (fun q => snd q * ((fst q - centre) * (fst q - centre))) (combine x y)) / n in
    refine_peaks cf (map Fin s) [p] width =
    match cf (map Fin x) (map Fin y) (Fin centre) (Fin spread) with
    | Raise RuntimeError => Ok []
    | Raise e => Raise e
    | Ok (h, c) =>
        let loc := nadd (nsub p (Fin (IZR width))) c in
        if nltb h (Fin 0) || nltb len c || nltb c (Fin 0) then Ok []
        else if nltb (Fin 0) loc && nltb loc len then Ok [loc] else Ok []
    end.
Proof. exact refine_single_fit_main. Qed.
Print Assumptions refine_single_fit.

Example refine_single_fit_example :
  ntrunc (Fin 2) = Some 2%Z /\
  window_of [1; 2; 4; 2; 1] 2 2 [1; 2; 4; 2] /\
  In 4 [1; 2; 4; 2] /\ (forall v, In v [1; 2; 4; 2] -> v <= 4).
Proof. exact refine_single_fit_example_main. Qed.

Example refine_scale_example :
  ForallOrdPairs (fun p q : xr => exists a b, ntrunc p = Some a /\ ntrunc q = Some b /\
                      (0 <= 2 <= a)%Z /\ (2 <= b)%Z /\ (2 * 2 <= Z.abs (a - b))%Z) [Fin 2; Fin 6] /\
  refine_peaks (fun _ _ _ _ => Ok (Fin 1, Fin 2)) (map (nmul (Fin 16)) (map Fin [1; 2; 4; 2; 1; 3; 8; 3; 1; 1])) [Fin 2; Fin 6] 2 =
  refine_peaks (fun _ _ _ _ => Ok (Fin 1, Fin 2)) (map Fin [1; 2; 4; 2; 1; 3; 8; 3; 1; 1]) [Fin 2; Fin 6] 2.
Proof. exact refine_scale_example_main. Qed.

(** * Props_Units: property theorems only.  The proofs are in Main_Units.v. *)

From Coq Require Import ZArith Bool List Lia Reals Lra.
From Verif Require Import Num F64 XReal Py Np NpFacts Util Models PolyEval SpecPoly SpecUnits.
From Verif Require Import PolyFacts PolyIdent EdlenFacts Main_Models.
From Verif Require Import Main_Units.
Import ListNotations.
Local Open Scope list_scope.
Local Open Scope R_scope.

(** C121: without an initial solution, robust_polyfit gives the same curve whatever
    units the data are expressed in: measuring x in units a times smaller and y in
    units b times smaller gives the polynomial u -> b * p(u / a), for every optimiser.
    The optimiser is even given the very same problem. *)
Theorem robust_polyfit_units :
  forall (ls : optimiser xr) (x y : list R) (degree : nat) (a b : R),
    0 < a -> 0 < b -> x <> [] -> y <> [] -> std x <> 0 -> std y <> 0 ->
    (forall xn yn d p q, ls xn yn d p = Ok q -> exists r, q = map Fin r /\ length r = length p) ->
    match robust_polyfit ls (map Fin x) (map Fin y) degree None,
          robust_polyfit ls (map Fin (map (fun v => a * v) x)) (map Fin (map (fun v => b * v) y)) degree None with
    | Ok c, Ok c' => exists r r', c = map Fin r /\ c' = map Fin r' /\
        length r = (degree + 1)%nat /\ length r' = (degree + 1)%nat /\
        forall u, basis_sum powB r' (a * u) = b * basis_sum powB r u
    | Raise e, Raise e' => e = e'
    | _, _ => False
    end.
Proof. exact robust_polyfit_units_main. Qed.
Print Assumptions robust_polyfit_units.

(** Pixels 0 and 4, wavelengths 3000 and 3008 in Angstrom, then in nanometres
    (b = 1/10): the hypotheses hold for an optimiser that returns its start. *)
Example robust_polyfit_units_example :
  let ls : optimiser xr := fun _ _ _ p => Ok (map (fun _ => Fin 1) p) in
  std [0; 4] <> 0 /\ std [3000; 3008] <> 0 /\
  (forall xn yn d p q, ls xn yn d p = Ok q -> exists r, q = map Fin r /\ length r = length p) /\
  exists r, robust_polyfit ls (map Fin [0; 4]) (map Fin [3000; 3008]) 1 None = Ok r.
Proof. exact robust_polyfit_units_example_main. Qed.

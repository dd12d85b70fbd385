(** * SpecSmooth: the profile of a line in the simulated spectrum. *)

From Coq Require Import ZArith List Reals.
Import ListNotations.
Local Open Scope R_scope.

(** Height of the profile at [d] grid steps (of 0.001 Angstrom) from the centre of a line of
    height 1: a Gaussian of width sigma = 2.5 times the pixel scale, cut off at 100
    Angstrom.  The code adds 1e-9 to 2 sigma^2. *)
Definition profile (pixel_scale : R) (d : Z) : R :=
  if (Z.abs d <=? 100000)%Z
  then exp (- (IZR d / 1000 * (IZR d / 1000)) /
            (2 * (pixel_scale * 2.5 * (pixel_scale * 2.5)) + 1 / 1000000000))
  else 0.

(** The sum of the profiles of all grid points at point [k]. *)
Definition profile_sum (pixel_scale : R) (i : list R) (k : nat) : R :=
  fold_right Rplus 0
    (map (fun j => nth j i 0 * profile pixel_scale (Z.of_nat k - Z.of_nat j)) (seq 0 (List.length i))).

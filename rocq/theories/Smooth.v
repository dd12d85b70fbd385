(** * Smooth: model of the smoothing in plot_calibration_lines,
    /repo/src/rascal/plotting.py:148-169.

    scipy.signal.convolve is modelled by its definition; whether it sums directly or by
    Fourier transform only changes rounding errors. *)

From Coq Require Import ZArith Bool List.
From Verif Require Import Num Py Np Util Chart.
Import ListNotations.
Local Open Scope num_scope.

Section Smooth.
  Context {A : Type} {N : Num A}.

  (** plotting.py:149-151: x and gaussian. *)
  Definition arc_kernel (pixel_scale : A) : list A :=
    let sigma := pixel_scale *' nlit 25 (-1) *' nZ 1 in
    map (fun x => gauss x (nZ 1) (nZ 0) sigma)
      (np_arange_step (nZ (-100)) (nlit 100001 (-3)) (nlit 1 (-3))).

  (** The kernel outside of its array. *)
  Definition kernel_at (ker : list A) (z : Z) : A :=
    if (z <? 0)%Z then nZ 0 else nth (Z.to_nat z) ker (nZ 0).

  (** scipy.signal.convolve(i, ker, mode="same"): the full convolution, of which the
      part of the length of i that starts at (len(ker) - 1) // 2 is kept. *)
  Definition convolve_same (i ker : list A) : list A :=
    let off := ((Z.of_nat (List.length ker) - 1) / 2)%Z in
    let idx := seq 0 (List.length i) in
    map (fun k => np_sum (map (fun j =>
           nth j i (nZ 0) *' kernel_at ker (Z.of_nat k + off - Z.of_nat j)) idx)) idx.

  (** plotting.py:148-169: the curve "Simulated Arc Spectrum" from the intensities on the
      grid (the first result of [plot_calibration_lines] in Chart.v). *)
  Definition arc_curve (pixel_scale : A) (i : list A) : list A :=
    convolve_same i (arc_kernel pixel_scale).
End Smooth.

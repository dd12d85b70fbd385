(** * Props_Pixels: property theorems only.  The proofs are in Main_Pixels.v. *)

From Coq Require Import ZArith Bool List String Lia Reals Lra.
From Verif Require Import Num F64 XReal Py Np NpFacts Util UtilFacts RecoverFacts Atlas SpecAtlas AtlasFacts Main_Atlas Hough Calib SpecCalib CalibFacts Main_Calib.
From Verif Require Import Main_Pixels.
Import ListNotations.
Local Open Scope R_scope.

(** C136: a calibrator built with a spectrum of n samples works on the pixels 0 to n-1,
    and the default limits on the dispersion are 5300/(n-1) and 7700/(n-1). *)
Theorem default_pixels_spectrum :
  forall hull (peaks : list xr) (spectrum : list xr) (c0 : calib xr),
    calib_init hull peaks (Some spectrum) = Ok c0 ->
    let n := List.length spectrum in
    g_num_pix (c_gp c0) = Some (Fin (INR n)) /\
    g_pixels (c_gp c0) = Some (map Fin (map INR (seq 0 n))) /\
    ((2 <= n)%nat ->
     h_min_slope (c_hp c0) = Some (Fin (5300 / INR (n - 1))) /\
     h_max_slope (c_hp c0) = Some (Fin (7700 / INR (n - 1)))).
Proof. exact default_pixels_spectrum_main. Qed.
Print Assumptions default_pixels_spectrum.

(** C136: without a spectrum the pixels run from 0 in steps of one up to (not including)
    1.1 times the largest peak.  They reach the largest peak if that is at least 10 or a
    whole number above 0. *)
Theorem default_pixels_peaks :
  forall hull (peaks : list R) (c0 : calib xr) m,
    calib_init hull (map Fin peaks) None = Ok c0 ->
    In m peaks -> (forall p, In p peaks -> p <= m) -> 0 < m ->
    exists n, (1 <= n)%nat /\ INR (n - 1) < 11 / 10 * m <= INR n /\
      g_num_pix (c_gp c0) = Some (Fin (11 / 10 * m)) /\
      g_pixels (c_gp c0) = Some (map Fin (map INR (seq 0 n))) /\
      (10 <= m \/ (exists k, m = INR k) ->
       (forall p, In p peaks -> p <= INR (n - 1)) /\
       h_min_slope (c_hp c0) = Some (Fin (5300 / INR (n - 1))) /\
       h_max_slope (c_hp c0) = Some (Fin (7700 / INR (n - 1)))).
Proof. exact default_pixels_peaks_main. Qed.
Print Assumptions default_pixels_peaks.

(** Peaks at 3 and 20 (pixels 0 to 21); with a largest peak of 4.5 the pixels end at 4. *)
Example default_pixels_example :
  match calib_init (A := f64) (fun _ p => Ok (map (fun _ => true) p)) [fz 3; fz 20] None,
        calib_init (A := f64) (fun _ p => Ok (map (fun _ => true) p)) [fz 3; fd 45 (-1)] None,
        calib_init (A := f64) (fun _ p => Ok (map (fun _ => true) p)) [fz 3] (Some [fz 7; fz 9; fz 1]) return Prop with
  | Ok c1, Ok c2, Ok c3 =>
      g_pixels (c_gp c1) = Some (map (fun i => fz (Z.of_nat i)) (seq 0 22)) /\
      g_pixels (c_gp c2) = Some [fz 0; fz 1; fz 2; fz 3; fz 4] /\
      g_pixels (c_gp c3) = Some [fz 0; fz 1; fz 2] /\ h_min_slope (c_hp c3) = Some (fz 2650)
  | _, _, _ => False
  end.
Proof. exact default_pixels_example_main. Qed.

(** Over the reals: the construction succeeds for every list of peaks with a positive one. *)
Example default_pixels_peaks_example :
  forall hull (peaks : list R) p, In p peaks -> 0 < p -> exists c0 : calib xr, calib_init hull (map Fin peaks) None = Ok c0.
Proof. exact default_pixels_peaks_example_main. Qed.

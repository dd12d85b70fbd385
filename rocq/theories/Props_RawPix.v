(** * Props_RawPix: property theorems only.  The proofs are in Main_RawPix.v. *)

From Coq Require Import ZArith Bool List String Lia Reals Lra Sorted Permutation.
From Verif Require Import Num F64 XReal Py Np NpFacts ArgsortFacts Util Models Atlas Hough PolyEval Calib SpecCalib Main_Calib Cand SpecCand CandFacts Ransac RansacFacts SampleFacts Main_Ransac Fit Main_Fit MatchPeaks SpecMatch MatchFacts Main_Match Plot RawPix RefineFacts RecoverFacts Main_Refine SpecRawPix.
From Verif Require Import Main_RawPix.
Import ListNotations.
Local Open Scope num_scope.

(** C156, what holds: over exact reals every mark is at the wavelength the solution gives
    the peak, and at the height of the sample of its pixel, whatever the pixels are numbered
    and in whatever order they are listed; for pixels in increasing order also if the peak
    is between a pixel and the next.  With matplotlib the detected peaks and the matched
    peaks have marks, with plotly the peaks with a line of the atlas within tolerance. *)
Theorem peak_marks_partial :
  forall lib (c : calib xr) co tol sp pxs d f,
    plot_fit_marks lib c co tol sp = Ok (d, f) -> g_pixels (c_gp c) = Some (map Fin pxs) ->
    match lib with
    | Matplotlib => Forall2 (marked (c_kind c) pxs co sp) (c_peaks c) d /\
                    Forall2 (marked (c_kind c) pxs co sp) (mseq_vals (c_mpeaks c)) f
    | Plotly => d = [] /\
        exists ps, Forall2 (marked (c_kind c) pxs co sp) ps f /\
          forall k at_, c_kind c = Some k -> c_atlas c = Some at_ -> get_lines at_ <> [] -> co <> [] -> no_nan (get_lines at_) ->
            ps = filter (fun p => existsb (within (fun p => eval_kind k p co) tol p) (get_lines at_)) (c_peaks c)
    end.
Proof. exact peak_marks_partial_main. Qed.
Print Assumptions peak_marks_partial.

(** C156, when every mark can be drawn: if each peak lies on the increasing list of pixels
    (not beyond the last one) and the spectrum has a sample for each, all are. *)
Theorem peak_marks_drawn_partial :
  forall k (pxs : list R) (co sp : list xr) (rs : list R) first last,
    StronglySorted Rlt pxs -> (2 <= List.length pxs)%nat -> List.length sp = List.length pxs ->
    nth_error pxs 0 = Some first -> nth_error pxs (List.length pxs - 1) = Some last ->
    (forall r, In r rs -> (first <= r <= last)%R) -> (exists f, k = Some f) -> co <> [] ->
    exists marks, peak_marks k (map Fin pxs) co sp (map Fin rs) = Ok marks /\ List.length marks = List.length rs.
Proof. exact peak_marks_drawn_partial_main. Qed.
Print Assumptions peak_marks_drawn_partial.

(** C156 fails for peaks off the detector: one step or more beyond the last pixel nothing
    is drawn at all (IndexError), and before the first pixel the height is that of a sample
    counted from the other end of the spectrum. *)
Theorem peak_marks_refuted :
  (forall k (pxs : list R) (co sp ps : list xr) marks i x1 x2 r,
     StronglySorted Rlt pxs -> nth_error pxs i = Some x1 -> nth_error pxs (S i) = Some x2 -> S (S i) = List.length pxs ->
     (List.length sp <= List.length pxs)%nat -> (x2 + (x2 - x1) <= r)%R -> In (Fin r) ps ->
     peak_marks k (map Fin pxs) co sp ps <> Ok marks) /\
  (forall (pxs : list R) (sp : list xr) x0 x1 r j v,
     StronglySorted Rlt pxs -> nth_error pxs 0 = Some x0 -> nth_error pxs 1 = Some x1 -> (1 <= j <= List.length sp)%nat ->
     (x0 - (INR j + 1) * (x1 - x0) < r <= x0 - INR j * (x1 - x0))%R ->
     nth_error sp (List.length sp - j) = Some v ->
     peak_height (map Fin pxs) sp (Fin r) = Ok v).
Proof. exact peak_marks_refuted_main. Qed.
Print Assumptions peak_marks_refuted.

(** C156 fails in binary64: with pixels numbered in steps of 49 the peak at pixel 49 is
    drawn at the height of pixel 0. *)
Theorem peak_rounding_refuted :
  let px := [fz 0; fz 49; fz 98; fz 147] in
  let sp := [fz 5; fz 900; fz 7; fz 8] in
  nth_error px 1 = Some (fz 49) /\ nth_error sp 1 = Some (fz 900) /\
  peak_height px sp (fz 49) = Ok (fz 5).
Proof. exact peak_rounding_refuted_main. Qed.
Print Assumptions peak_rounding_refuted.

(** The hypotheses of C156 are met: pixels listed backwards, and pixels in steps of two. *)
Example peak_marks_example :
  peak_marks (Some FitPoly) [fz 3; fz 2; fz 1; fz 0] [fz 3000; fz 10] [fz 30; fz 20; fz 10; fz 0] [fz 1; fz 3; fd 5 (-1)]
    = Ok [(fz 3010, fz 10); (fz 3030, fz 30); (fz 3005, fz 10)] /\
  peak_marks (Some FitPoly) [fz 0; fz 2; fz 4; fz 6] [fz 3000; fz 10] [fz 5; fz 900; fz 7; fz 8] [fz 2; fd 35 (-1); fz 6; fz 7]
    = Ok [(fz 3020, fz 900); (fz 3035, fz 900); (fz 3060, fz 8); (fz 3070, fz 8)] /\
  peak_height [fz 0; fz 2; fz 4; fz 6] [fz 5; fz 900; fz 7; fz 8] (fz 8) = Raise IndexError /\
  peak_height [fz 0; fz 2; fz 4; fz 6] [fz 5; fz 900; fz 7; fz 8] (fz (-3)) = Ok (fz 8).
Proof. exact peak_marks_example_main. Qed.

(** A whole call: the fitted session of C59 on 550 pixels, with a spectrum that counts
    them. *)
Example plot_fit_marks_example :
  let c := set_c_gp (mkG (Some (fz 550)) (Some (map nnat (seq 0 550))) None true false) c_fitted in
  match plot_fit_marks Matplotlib c [fz 3000; fz 10] (fz 20) (map nnat (seq 0 550)),
        plot_fit_marks Plotly c [fz 3000; fz 10] (fz 20) (map nnat (seq 0 550)) return Prop with
  | Ok (d, f), Ok ([], g) =>
      d = [(fz 4000, fz 100); (fz 4900, fz 190); (fz 6100, fz 310); (fz 7300, fz 430); (fz 8000, fz 500)] /\ f = d /\ g = d
  | _, _ => False
  end.
Proof. exact plot_fit_marks_example_main. Qed.

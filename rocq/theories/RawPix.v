(** * RawPix: pix_to_rawpix (calibrator.py:944-949) and the heights at which plot_fit
    draws the peaks (plotting.py:770-780, 814-833, 969-974). *)

From Coq Require Import ZArith Bool List Lia.
From Verif Require Import Num Py Np Util Models Atlas Hough PolyEval Calib Cand Ransac MatchPeaks Plot.
Import ListNotations.
Local Open Scope num_scope.

Section RawPix.
  Context {A : Type} {N : Num A}.

  (** scipy.interpolate.interp1d(x, y, fill_value="extrapolate") on points sorted by x: the
      straight line through the two points around v, or through the two at the end. *)
  Definition interp_sorted (pts : list (A * A)) (v : A) : option A :=
    let k := Nat.min (Nat.max 1 (searchsorted_left (map fst pts) v)) (length pts - 1) in
    match nth_error pts (k - 1), nth_error pts k with
    | Some (xl, yl), Some (xh, yh) => Some ((yh -' yl) /' (xh -' xl) *' (v -' xl) +' yl)
    | _, _ => None
    end.

  (** calibrator.py:944-949: self.pix_to_rawpix(p), the position of a pixel in pixel_list;
      interp1d sorts the pixels (stable).  A list of one pixel gives NaN, which is no
      position: IndexError; an empty one is refused by interp1d. *)
  Definition pix_to_rawpix (pixels : list A) (p : A) : res A :=
    match pixels with
    | [] => Raise ValueError
    | [_] => Raise IndexError
    | _ =>
        match interp_sorted (sort_by fst (combine pixels (map nnat (seq 0 (length pixels))))) p with
        | Some v => Ok v
        | None => Raise IndexError
        end
    end.

  (** l[i] for an integer i, as numpy and python index. *)
  Definition py_index {T} (l : list T) (i : Z) : res T :=
    let k := if (i <? 0)%Z then (Z.of_nat (length l) + i)%Z else i in
    if (k <? 0)%Z then Raise IndexError else
    match nth_error l (Z.to_nat k) with
    | Some v => Ok v
    | None => Raise IndexError
    end.

  (** plotting.py:774-776, 819, 829, 972-974: spectrum[int(pix_to_rawpix(p))]. *)
  Definition peak_height (pixels spectrum : list A) (p : A) : res A :=
    bind (pix_to_rawpix pixels p) (fun v =>
    match ntrunc v with
    | None => Raise IndexError
    | Some i => py_index spectrum i
    end).

  (** plotting.py:772-777, 814-833, 969-990: the wavelength of each peak, and the height
      its line starts at (matplotlib) or its point is drawn at (plotly). *)
  Fixpoint peak_marks (k : option fit_kind) (pixels co spectrum ps : list A) : res (list (A * A)) :=
    match ps with
    | [] => Ok []
    | p :: r =>
        bind (polyval_of k p co) (fun x =>
        bind (peak_height pixels spectrum p) (fun y =>
        bind (peak_marks k pixels co spectrum r) (fun rest => Ok ((x, y) :: rest))))
    end.

  (** All of them, for the spectrum drawn (its logarithm, if log_spectrum).  matplotlib: the
      detected peaks and the matched ones; plotly: the peaks with a line within tolerance. *)
  Definition plot_fit_marks (lib : library) (c : calib A) (co : list A) (tol : A) (spectrum : list A)
    : res (list (A * A) * list (A * A)) :=
    match g_pixels (c_gp c), c_atlas c with
    | None, _ => Raise TypeError
    | _, None => Raise AttributeError
    | Some px, Some at_ =>
        match lib with
        | Matplotlib =>
            bind (peak_marks (c_kind c) px co spectrum (c_peaks c)) (fun d =>
            match c_mpeaks c with
            | MNone => Raise TypeError
            | m => bind (peak_marks (c_kind c) px co spectrum (mseq_vals m)) (fun f => Ok (d, f))
            end)
        | Plotly =>
            bind (nearest_lines (c_kind c) (get_lines at_) co tol (c_peaks c)) (fun m =>
            bind (peak_marks (c_kind c) px co spectrum (map fst m)) (fun f => Ok ([], f)))
        end
    end.
End RawPix.

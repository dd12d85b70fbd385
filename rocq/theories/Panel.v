(** * Panel: what the figures of plot_fit and plot_arc show: the labels of the matched
    peaks, the curve of the spectrum, and the ranges of the axes.

    [lg] is np.log10. *)

From Coq Require Import ZArith Bool List String Lia.
From Verif Require Import Num Py Np Util Models Atlas Hough PolyEval Calib Cand Ransac MatchPeaks Plot.
Import ListNotations.
Local Open Scope num_scope.

Section Panel.
  Context {A : Type} {N : Num A}.

  (* ---------------------------------------------------------------- *)
  (** ** plot_fit *)

  (** plotting.py:799-843 (matplotlib only): the labels, each with the wavelength it stands
      at, and the element and the wavelength it names (printed with two decimals). *)
  Fixpoint labels_of (lines : list A) (els : list string) (matched : list A) : res (list (A * (string * A))) :=
    match matched with
    | [] => Ok []
    | x :: r =>
        match np_argmin (map (fun l => nabs (l -' x)) lines) with
        | None => Raise ValueError
        | Some i =>
            match nth_error els i, nth_error lines i with
            | Some e, Some l => bind (labels_of lines els r) (fun rest => Ok ((x -' nZ 3, (e, l)) :: rest))
            | _, _ => Raise IndexError
            end
        end
    end.
  Definition plot_fit_labels (lib : library) (c : calib A) : res (list (A * (string * A))) :=
    match lib with
    | Plotly => Ok []
    | Matplotlib =>
        match c_atlas c, c_mpeaks c, c_matlas c with
        | None, _, _ => Raise AttributeError
        | _, MNone, _ | _, _, MNone => Raise TypeError
        | Some at_, p, w =>
            labels_of (get_lines at_) (get_elements at_) (map snd (combine (mseq_vals p) (mseq_vals w)))
        end
    end.

  (** A curve, and whether its axis is logarithmic. *)
  Record curve : Type := mkCurve { cu_points : list (A * A); cu_log : bool }.

  (** plotting.py:743-746, 757, 770, 930-937, 1070-1084: the spectrum against wavelength.
      matplotlib draws the logarithms on a linear axis; plotly too takes the logarithms,
      and sets the type of the axis to "log". *)
  Definition plot_fit_curve (lg : A -> A) (lib : library) (c : calib A) (co : list A) (log : bool) (s : list A)
    : res curve :=
    match g_pixels (c_gp c) with
    | None => Raise TypeError
    | Some px =>
        bind (polyvals_of (c_kind c) px co) (fun wave =>
        Ok (mkCurve (combine wave (if log then map lg (clip_spectrum s) else s))
              (match lib with Matplotlib => false | Plotly => log end)))
    end.

  (** plotting.py:899-902, 1107-1114: the range of wavelengths shown, for the peaks drawn in
      the residual panel. *)
  Definition plot_fit_xrange (c : calib A) (co : list A) (fitted : list A) : res (A * A) :=
    bind (py_min fitted) (fun lo => bind (py_max fitted) (fun hi =>
    bind (polyval_of (c_kind c) lo co) (fun a => bind (polyval_of (c_kind c) hi co) (fun b =>
    Ok (a *' nlit 95 (-2), b *' nlit 105 (-2)))))).

  (** plotting.py:1095-1100 (plotly): the range of residuals shown. *)
  Definition plot_fit_yrange (points : list (A * A)) : res (A * A) :=
    bind (py_min (map snd points)) (fun lo => bind (py_max (map snd points)) (fun hi => Ok (lo, hi))).

  (* ---------------------------------------------------------------- *)
  (** ** plot_arc *)

  (** The figure of plot_arc: the curve, the height from and to which the lines of the
      peaks go, and the ranges set for the two axes (None: chosen by the library). *)
  Record arc_panel : Type := mkArcPanel {
    ap_curve : list (A * A); ap_from : A; ap_to : A; ap_xrange : A * A; ap_yrange : option (A * A)
  }.

  (** plotting.py:1205-1250 (matplotlib), 1275-1345 (plotly), for a spectrum. *)
  Definition plot_arc_panel (lg : A -> A) (lib : library) (pixels : option (list A)) (log : bool) (s : list A)
    : res arc_panel :=
    let px := match pixels with Some l => l | None => map nnat (seq 0 (List.length s)) end in
    bind (np_amax s) (fun m =>
    let ys := if log then map (fun v => lg (v /' m)) s else map (fun v => v /' m) s in
    let xr := (nZ 0, nnat (List.length s)) in
    match lib with
    | Matplotlib =>
        if Nat.eqb (List.length px) (List.length s) then
          Ok (if log then mkArcPanel (combine px ys) (nZ (-2)) (nZ 0) xr (Some (nZ (-2), nZ 0))
              else mkArcPanel (combine px ys) (nZ 0) (nlit 105 (-2)) xr None)
        else Raise ValueError
    | Plotly =>
        bind (py_min ys) (fun lo => bind (py_max ys) (fun hi =>
        Ok (mkArcPanel (combine px ys) (nZ 0) (nlit 105 (-2)) xr (Some (lo, hi)))))
    end).
End Panel.
Arguments curve A : clear implicits.
Arguments arc_panel A : clear implicits.

(** * Chart: model of plot_search_space and plot_calibration_lines,
    /repo/src/rascal/plotting.py:63-252, 255-673: what is drawn and what is written.

    Not modelled: colours, labels, legends and texts, renderer.  The smoothing of the
    simulated spectrum by scipy.signal.convolve is in Smooth.v. *)

From Coq Require Import ZArith Bool List String Lia.
From Verif Require Import Num Py Np Util Models Atlas Hough PolyEval Calib Cand Ransac MatchPeaks Plot.
Import ListNotations.
Local Open Scope num_scope.

Section Chart.
  Context {A : Type} {N : Num A}.

  (* ---------------------------------------------------------------- *)
  (** ** plot_search_space *)

  (** The point sets of the figure: "All pairs", "Candidate Pairs", "Best Candidate
      Pairs", "Solution", and the lines y_1, y_2, y_3. *)
  Record space : Type := mkSpace {
    sp_pairs : list (A * A); sp_cand : list (A * A); sp_best : list (A * A);
    sp_solution : option (list (A * A));
    sp_line : list (A * A); sp_upper : list (A * A); sp_lower : list (A * A)
  }.

  (** m[:, 0] and m[:, 1] of the merged candidates, plotting.py:348-349, 487-488. *)
  Definition first_two (rows : list (list A)) : list (A * A) :=
    flat_map (fun r => match r with x :: y :: _ => [(x, y)] | _ => [] end) rows.

  (** calibrator.py:2186-2249 and plotting.py:255-673 plot_search_space.  [cands] is
      self.candidates, which does not exist before the first fit; [top] and [weighted]
      are arguments.  An empty array of merged candidates or of pairs has one dimension
      only: [:, 0] raises IndexError, and scatter without arguments TypeError.  Nothing is
      drawn without a library (None is returned). *)
  Definition plot_search_space (argsort : list A -> list nat) (c : calib A) (cands : option (list (cand A)))
      (coeff : option (list A)) (top : nat) (weighted : bool) (a : show_args) : res (option (space * outcome A)) :=
    match cands with
    | None => Raise AttributeError
    | Some cs =>
        let (bp, ba) := most_common_candidates argsort cs top weighted in
        match g_pixels (c_gp c), h_minw (c_hp c), h_maxw (c_hp c), h_rt (c_hp c) with
        | Some px, Some minw, Some maxw, Some rt =>
            bind (np_amax px) (fun pmax =>
            match (if g_mpl (c_gp c) then Some Matplotlib else if g_plotly (c_gp c) then Some Plotly else None) with
            | None => Ok None
            | Some lib =>
                bind (match c_pairs c with
                      | PMissing => Raise AttributeError
                      | PFlat => Raise (match lib with Matplotlib => TypeError | Plotly => IndexError end)
                      | PArr l => Ok l
                      end) (fun pairs =>
                bind (match merge_candidates cs with [] => Raise IndexError | m => Ok (first_two m) end) (fun cd =>
                bind (match coeff with
                      | None => Ok None
                      | Some co => bind (polyvals_of (c_kind c) (c_peaks c) co) (fun vs =>
                                   Ok (Some (combine (c_peaks c) vs)))
                      end) (fun sol =>
                Ok (Some (mkSpace pairs cd (combine bp ba) sol
                            (map (fun x => (x, region_line minw maxw pmax x)) px)
                            (map (fun x => (x, region_upper minw maxw rt pmax x)) px)
                            (map (fun x => (x, region_lower minw maxw rt pmax x)) px),
                          finish lib "rascal_hough_search_space" a (combine bp ba) None)))))
            end)
        | _, _, _, _ => Raise AttributeError
        end
    end.

  (* ---------------------------------------------------------------- *)
  (** ** plot_calibration_lines *)

  (** np.arange(lo, hi, step). *)
  Definition np_arange_step (lo hi step : A) : list A :=
    match nceil ((hi -' lo) /' step) with
    | Some z => let d := (lo +' step) -' lo in map (fun i => lo +' nnat i *' d) (seq 0 (Z.to_nat z))
    | None => []
    end.

  (** plotting.py:156-160: the wavelength grid; [around] is np.around(_, decimals=3). *)
  Definition wave_grid (around : A -> A) (lo hi : A) : list A :=
    map around (np_arange_step lo (hi +' nlit 1 (-3)) (nlit 1 (-3))).

  (** i[mask] += v for arrays: v has as many entries as are selected, or one. *)
  Fixpoint spread (i : list A) (mask : list bool) (v : list A) : list A :=
    match i, mask with
    | x :: r, b :: m =>
        if b then match v with
                  | y :: v' => (x +' y) :: spread r m v'
                  | [] => x :: spread r m []
                  end
        else x :: spread r m v
    | _, _ => i
    end.
  Definition add_at (i : list A) (mask : list bool) (v : list A) : res (list A) :=
    let n := List.length (filter (fun b : bool => b) mask) in
    if Nat.eqb (List.length v) n then Ok (spread i mask v)
    else match v with
         | [y] => Ok (spread i mask (repeat y n))
         | _ => Raise ValueError
         end.

  (** plotting.py:163-168: the loop over the elements. *)
  Fixpoint line_spectrum (around : A -> A) (grid : list A) (lines : list (line A)) (els : list string) (i : list A)
    : res (list A) :=
    match els with
    | [] => Ok i
    | e :: r =>
        let sel := filter (fun l => String.eqb (l_el l) e) lines in
        let ws := map (fun l => around (l_wl l)) sel in
        let mask := map (fun g => existsb (fun w => g ==' w) ws) grid in
        bind (add_at i mask (map l_int sel)) (fun i' => line_spectrum around grid lines r i')
    end.

  (** The arguments of plot_calibration_lines that matter here (elements a list of str). *)
  Record arc_args : Type := mkArc {
    ac_load : load_args A;            (* its intensity and distance limits are those of the call *)
    ac_show : show_args
  }.

  (** plotting.py:131-146: the lines are loaded without limits on intensity and
      distance. *)
  Definition arc_load (l : load_args A) : load_args A :=
    mkLoadArgs (la_elements l) (la_min_wl l) (la_max_wl l) (ThNum (nZ 0)) (nZ 0) (la_vacuum l) (la_pressure l)
      (la_temperature l) (la_rh l) (la_linelist l) (la_brightest_n l).

  (** plotting.py:63-252 plot_calibration_lines: the grid with the intensities before
      smoothing, the labelled lines, and the files.  min and max of an empty grid raise
      ValueError (line 228). *)
  Definition plot_calibration_lines (argsort : list A -> list nat) (around : A -> A) (cat : catalogue A) (a : arc_args)
    : res (list (A * A) * list (line A) * list (string * string)) :=
    let l := ac_load a in
    bind (load_calibration_lines argsort cat (arc_load l)) (fun lines =>
    let grid := wave_grid around (la_min_wl l) (la_max_wl l) in
    bind (line_spectrum around grid lines (la_elements l) (map (fun _ => nZ 0) grid)) (fun i =>
    bind (filter_intensity (la_elements l) lines (la_min_intensity l)) (fun m =>
    let lines1 := mask_select m lines in
    bind (filter_separation (map l_wl lines1) (la_min_distance l)) (fun m' =>
    match grid with
    | [] => Raise ValueError
    | _ => Ok (combine grid i, mask_select m' lines1,
               files_written Matplotlib (sh_save (ac_show a)) (sh_type (ac_show a)) (sh_name (ac_show a)) "rascal_arc")
    end)))).
End Chart.
Arguments space A : clear implicits.
Arguments arc_args A : clear implicits.

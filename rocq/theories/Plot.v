(** * Plot: model of /repo/src/rascal/plotting.py: what the plotting functions draw in
    the residual panel, what they write, and what they change.

    Modelled elsewhere: the marks, labels, curves and axis ranges (Chart.v, Panel.v) and
    the interpolator pix_to_rawpix (RawPix.v).  Not modelled: colours, legends, renderer. *)

From Coq Require Import ZArith Bool List String Ascii Lia.
From Verif Require Import Num Py Np Util Models Atlas Hough PolyEval Calib Cand Ransac MatchPeaks.
Import ListNotations.
Local Open Scope num_scope.

(* ------------------------------------------------------------------ *)
(** ** The files *)

(** fig_type.split("+"): the first part and the others. *)
Fixpoint split_plus (s : string) : string * list string :=
  match s with
  | EmptyString => (EmptyString, [])
  | String c r =>
      let (h, t) := split_plus r in
      if Ascii.eqb c "+"%char then (EmptyString, h :: t) else (String c h, t)
  end.

Inductive library : Type := Matplotlib | Plotly.

(** plotting.py:245-247, 458-460, 915-917, 1260-1262 (matplotlib) and 658-663, 1131-1136,
    1357-1362 (plotly): is a file written for this part? *)
Definition writes (lib : library) (t : string) : bool :=
  match lib with
  | Matplotlib => existsb (String.eqb t) ["jpg"; "png"; "svg"; "pdf"]%string
  | Plotly => String.eqb t "iframe" || existsb (String.eqb t) ["jpg"; "png"; "svg"; "pdf"]%string
  end.

(** The same lines: the files written, with their formats, in order. *)
Definition files_written (lib : library) (save : bool) (fig_type : string) (filename : option string)
    (default : string) : list (string * string) :=
  if save then
    let base := match filename with None => default | Some f => f end in
    let (h, t) := split_plus fig_type in
    map (fun t => ((base ++ "." ++ t)%string, t)) (filter (writes lib) (h :: t))
  else [].

Section Plot.
  Context {A : Type} {N : Num A}.

  (** The arguments the plotting functions have in common. *)
  Record show_args : Type := mkShow {
    sh_save : bool; sh_type : string; sh_name : option string; sh_json : bool; sh_display : bool
  }.

  (** What a call does: the points of the residual panel (or of the spectrum), the rms
      line, the files written, whether the figure is displayed, whether JSON is
      returned. *)
  Record outcome : Type := mkOut {
    ou_points : list (A * A); ou_rms : option A; ou_files : list (string * string);
    ou_shown : bool; ou_json : bool
  }.

  Definition finish (lib : library) (default : string) (a : show_args) (pts : list (A * A)) (rms : option A) : outcome :=
    mkOut pts rms (files_written lib (sh_save a) (sh_type a) (sh_name a) default) (sh_display a)
      (match lib with Matplotlib => false | Plotly => sh_json a end).

  (* ---------------------------------------------------------------- *)
  (** ** plot_fit *)

  (** plotting.py:745: spectrum[spectrum < 0] = 1e-100, in place. *)
  Definition clip_spectrum (s : list A) : list A := map (fun v => if v <' nZ 0 then nlit 1 (-100) else v) s.

  (** plotting.py:800-808: the residual drawn for each matched pair by matplotlib: the
      nearest atlas line minus the matched wavelength. *)
  Fixpoint drawn_matches (lines : list A) (m : list (A * A)) : res (list (A * A)) :=
    match m with
    | [] => Ok []
    | (p, x) :: r =>
        match np_argmin (map (fun l => nabs (l -' x)) lines) with
        | None => Raise ValueError
        | Some i =>
            match nth_error lines i with
            | None => Raise IndexError
            | Some l => bind (drawn_matches lines r) (fun rest => Ok ((p, l -' x) :: rest))
            end
        end
    end.

  (** plotting.py:843, 1001: np.sqrt(np.mean(np.array(fitted_diff)**2)). *)
  Definition drawn_rms (d : list A) : A := nsqrt (np_mean (map (fun v => v *' v) d)).

  Record plot_fit_args : Type := mkPF {
    pf_coeff : option (list A); pf_spectrum : option (list A); pf_tol : A; pf_log : bool; pf_show : show_args
  }.

  (** plotting.py:743-745: the spectrum after the call. *)
  Definition plot_spectrum (a : plot_fit_args) (s : option (list A)) : option (list A) :=
    match s with
    | Some s => Some (if pf_log a then clip_spectrum s else s)
    | None => None
    end.

  (** The residual panel: plotting.py:787, 795-862 (matplotlib), 946-1011
      (plotly).  The polynomial is evaluated again at the fitted peaks (lines 859, 987). *)
  Definition residual_panel (lib : library) (c : calib A) (co : list A) (tol : A) : res (list (A * A)) :=
    match c_atlas c with
    | None => Raise AttributeError
    | Some at_ =>
        match lib with
        | Matplotlib =>
            match c_mpeaks c, c_matlas c with
            | MNone, _ | _, MNone => Raise TypeError
            | p, w =>
                bind (drawn_matches (get_lines at_) (combine (mseq_vals p) (mseq_vals w))) (fun d =>
                bind (polyvals_of (c_kind c) (map fst d) co) (fun xs => Ok (combine xs (map snd d))))
            end
        | Plotly =>
            bind (nearest_lines (c_kind c) (get_lines at_) co tol (c_peaks c)) (fun m =>
            bind (polyvals_of (c_kind c) (map fst m) co) (fun xs =>
            Ok (combine xs (map (fun q => snd (fst q) -' snd q) (combine m xs)))))
        end
    end.

  (** calibrator.py:2251-2324 and plotting.py:676-1155 plot_fit: the calibrator and the
      caller's spectrum after the call, and what is drawn.  Without any library the
      assertion of line 1149 fails (matplotlib_imported stays False, calibrator.py:39).
      Without matched (or, in plotly, fitted) peaks min raises ValueError (lines 900,
      1111); matplotlib's plot raises ValueError when the pixels and the spectrum differ
      in number (line 770); max of an empty spectrum raises ValueError (lines 747-752). *)
  Definition plot_fit (c : calib A) (a : plot_fit_args) : calib A * option (list A) * res outcome :=
    let c' := match pf_spectrum a with None => set_c_spectrum (plot_spectrum a (c_spectrum c)) c | Some _ => c end in
    let caller := plot_spectrum a (pf_spectrum a) in
    let s := match pf_spectrum a with None => plot_spectrum a (c_spectrum c) | Some _ => caller end in
    (c', caller,
     match s with
     | Some [] => Raise ValueError
     | _ =>
         match c_kind c, match pf_coeff a with None => c_coeff c | Some l => Some l end, g_pixels (c_gp c) with
         | None, _, _ => Raise AttributeError
         | _, None, _ | _, _, None => Raise TypeError
         | Some k, Some co, Some px =>
             bind (polyvals_of (Some k) px co) (fun _ =>
             match (if g_mpl (c_gp c) then Some Matplotlib else if g_plotly (c_gp c) then Some Plotly else None) with
             | None => Raise AssertionError
             | Some lib =>
                 bind (match lib, s with
                       | Matplotlib, Some v => if Nat.eqb (List.length px) (List.length v) then Ok tt else Raise ValueError
                       | _, _ => Ok tt
                       end) (fun _ =>
                 bind (residual_panel lib c co (pf_tol a)) (fun pts =>
                 match pts with
                 | [] => Raise ValueError
                 | _ => Ok (finish lib "rascal_solution" (pf_show a) pts (Some (drawn_rms (map snd pts))))
                 end))
             end)
         end
     end).

  (* ---------------------------------------------------------------- *)
  (** ** plot_arc *)

  (** plotting.py:1205-1372 plot_arc with log_spectrum=False: the points are those of the
      spectrum.  A plotting call with neither library returns None. *)
  Definition plot_arc (c : calib A) (pixel_list : option (list A)) (a : show_args) : res (option outcome) :=
    match (match pixel_list, c_spectrum c with
           | Some px, _ => Ok px
           | None, Some s => Ok (map nnat (seq 0 (List.length s)))
           | None, None => Raise TypeError
           end) with
    | Raise e => Raise e
    | Ok px =>
        if g_mpl (c_gp c) then
          match c_spectrum c with
          | None => match c_peaks c with
                    | [] => Raise ValueError
                    | _ => Ok (Some (finish Matplotlib "rascal_arc" a [] None))
                    end
          | Some s =>
              bind (np_amax s) (fun m =>
              if Nat.eqb (List.length px) (List.length s)
              then Ok (Some (finish Matplotlib "rascal_arc" a (combine px (map (fun v => v /' m) s)) None))
              else Raise ValueError)
          end
        else if g_plotly (c_gp c) then
          match c_spectrum c with
          | None => Raise AttributeError
          | Some s =>
              bind (np_amax s) (fun m =>
              Ok (Some (finish Plotly "rascal_arc" a (combine px (map (fun v => v /' m) s)) None)))
          end
        else Ok None
    end.

  (* ---------------------------------------------------------------- *)
  (** ** plot_search_space *)

  (** plotting.py:319-335: the line y_1 and the two lines y_2, y_3 of the tolerance
      region. *)
  Definition region_line (minw maxw pmax x : A) : A := (maxw -' minw) /' pmax *' x +' minw.
  Definition region_upper (minw maxw rt pmax x : A) : A :=
    (maxw +' rt -' (minw +' rt)) /' pmax *' x +' minw +' rt.
  Definition region_lower (minw maxw rt pmax x : A) : A :=
    (maxw -' rt -' (minw -' rt)) /' pmax *' x +' (minw -' rt).
End Plot.
Arguments plot_fit_args A : clear implicits.
Arguments outcome A : clear implicits.

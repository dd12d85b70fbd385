(** * Cand: model of the candidate selection of the calibrator,
    /repo/src/rascal/calibrator.py:135-380. *)

From Coq Require Import ZArith Bool List String Lia.
From Verif Require Import Num Py Np Util Atlas Hough PolyEval Calib.
Import ListNotations.
Local Open Scope num_scope.

Section Cand.
  Context {A : Type} {N : Num A}.

  (** An element of self.candidates: the code keeps three equally long arrays
      (peaks, wavelengths, weights), the model a list of rows. *)
  Definition cand : Type := list (A * A * A).
  Definition row_x (r : A * A * A) : A := fst (fst r).
  Definition row_y (r : A * A * A) : A := snd (fst r).
  Definition row_w (r : A * A * A) : A := snd r.

  (** calibrator.py:135-152 _merge_candidates: each pair is a row of three numbers;
      np.sort sorts along the last axis, i.e. inside each row. *)
  Definition merge_candidates (cs : list cand) : list (list A) :=
    map (fun r => np_sort [row_x r; row_y r; row_w r]) (List.concat cs).

  (** calibrator.py:190-215: the wavelengths returned for one peak.  All arrays are
      arrays of floats. *)
  Definition common_for (argsort : list A -> list nat) (rows : cand) (top : nat) (weighted : bool)
      (peak : A) : list A :=
    let sel := filter (fun r => row_x r ==' peak) rows in
    let wm := map row_y sel in
    let counts := if weighted then map row_w sel else map (fun _ => nZ 1) sel in
    let uw := np_unique wm in
    let n := Nat.min top (List.length uw) in
    let agg := map (fun w => np_sum (mask_select (map (fun v => v ==' w) wm) counts)) uw in
    gather wm (firstn n (argsort (map nopp agg))).

  (** calibrator.py:154-217 _get_most_common_candidates: candidate_peak and
      candidate_arc. *)
  Definition most_common_candidates (argsort : list A -> list nat) (cs : list cand) (top : nat)
      (weighted : bool) : list A * list A :=
    let rows := List.concat cs in
    let per := map (fun p => (p, common_for argsort rows top weighted p)) (np_unique (map row_x rows)) in
    let n p := Nat.min top (List.length (np_unique (map row_y (filter (fun r => row_x r ==' p) rows)))) in
    (flat_map (fun q => repeat (fst q) (n (fst q))) per, flat_map snd per).

  (** calibrator.py:244-260: the candidates near one Hough line. *)
  Definition line_candidates (rt lt tol : A) (pairs : list (A * A)) (line : A * A) : cand :=
    map (fun q => let predicted := fst line *' fst q +' snd line in
                  (fst q, snd q, gauss (snd q) (nZ 1) predicted ((rt +' lt) *' nlit 11775 (-4))))
        (filter (fun q => nabs ((fst line *' fst q +' snd line) -' snd q) <=' tol) pairs).

  (** calibrator.py:219-261 _get_candidate_points_linear. *)
  Definition candidates_linear (c : calib A) (tol : A) : res (list cand) :=
    match c_lines c, h_rt (c_hp c), h_lt (c_hp c) with
    | None, _, _ => Raise TypeError
    | Some [], _, _ => Ok []
    | Some lines, Some rt, Some lt =>
        match c_pairs c with
        | PMissing => Raise AttributeError
        | PFlat => Raise IndexError
        | PArr pairs => Ok (map (line_candidates rt lt tol pairs) lines)
        end
    | _, _, _ => Raise TypeError
    end.

  (** numpy broadcasting of two 1D arrays. *)
  Definition broadcast (f : A -> A -> A) (a b : list A) : res (list A) :=
    if Nat.eqb (List.length a) (List.length b) then Ok (map (fun p => f (fst p) (snd p)) (combine a b))
    else match a, b with
         | [x], _ => Ok (map (f x) b)
         | _, [y] => Ok (map (fun x => f x y) a)
         | _, _ => Raise ValueError
         end.
  (** a[mask] with numpy's check of the lengths. *)
  Definition mask_index {T} (l : list T) (m : list bool) : res (list T) :=
    if Nat.eqb (List.length l) (List.length m) then Ok (mask_select m l) else Raise IndexError.

  (** calibrator.py:303-315: one offset d; None when nothing is near. *)
  Definition offset_candidates (rt tol : A) (ev : A -> A) (peaks actual : list A) (d : A)
    : res (option cand) :=
    let predicted := map (fun p => ev p +' d) peaks in
    bind (broadcast nsub actual predicted) (fun df =>
    let mask := map (fun v => nabs v <' tol) df in
    if existsb (fun b => b) mask then
      bind (mask_index actual mask) (fun ma =>
      bind (mask_index predicted mask) (fun mp =>
      bind (mask_index peaks mask) (fun mx =>
      Ok (Some (map (fun q => (fst q, fst (snd q), gauss (fst (snd q)) (nZ 1) (snd (snd q)) rt))
                    (combine mx (combine ma mp)))))))
    else Ok None).

  (** calibrator.py:263-315 _get_candidate_points_poly; [rnd n] is
      np.random.random(n); self.peaks is an ndarray. *)
  Definition candidates_poly (rnd : nat -> list A) (c : calib A) (tol : A) : res (list cand) :=
    match c_coeff c with
    | None => Raise ValueError
    | Some co =>
        match c_atlas c, c_lines c, h_rt (c_hp c), c_kind c with
        | Some at_, Some lines, Some rt, Some k =>
            let delta := map (fun u => u *' rt *' nZ 2 -' rt) (rnd (List.length lines)) in
            (fix loop ds := match ds with
                            | [] => Ok []
                            | d :: r =>
                                bind (offset_candidates rt tol (fun p => eval_kind k p co) (c_peaks c)
                                        (get_lines at_) d) (fun o =>
                                bind (loop r) (fun cs =>
                                Ok (match o with Some x => x :: cs | None => cs end)))
                            end) delta
        | _, _, _, _ => Raise AttributeError
        end
    end.

  (** The dict candidates[p]: the first entry whose key equals p. *)
  Fixpoint dict_get (d : list (A * list A)) (p : A) : res (list A) :=
    match d with
    | [] => Raise KeyError
    | (k, v) :: r => if k ==' p then Ok v else dict_get r p
    end.

  (** calibrator.py:345-354: the nearest candidate of each peak, as rows
      (err, x, y). *)
  Fixpoint nearest_rows (ev : A -> A) (d : list (A * list A)) (peaks : list A)
    : res (list (A * A * A)) :=
    match peaks with
    | [] => Ok []
    | p :: r =>
        bind (dict_get d p) (fun ys =>
        let errs := map (fun y => nabs (ev p -' y)) ys in
        match np_argmin errs with
        | None => Raise ValueError
        | Some i =>
            match nth_error errs i, nth_error ys i with
            | Some e, Some y => bind (nearest_rows ev d r) (fun rs => Ok ((e, p, y) :: rs))
            | _, _ => Raise IndexError
            end
        end)
    end.

  (** calibrator.py:365-371: for each distinct wavelength the row with least error. *)
  Fixpoint resolve_rows (rows : list (A * A * A)) (ws : list A) : res (list (A * A * A)) :=
    match ws with
    | [] => Ok []
    | w :: r =>
        let sel := filter (fun q => snd q ==' w) rows in
        match np_argmin (map (fun q => fst (fst q)) sel) with
        | None => Raise ValueError
        | Some i =>
            match nth_error sel i with
            | Some q => bind (resolve_rows rows r) (fun qs => Ok ((fst q, w) :: qs))
            | None => Raise IndexError
            end
        end
    end.

  (** calibrator.py:317-380 _match_bijective: (err, matched_x, matched_y). *)
  Definition match_bijective (ev : A -> A) (d : list (A * list A)) (peaks : list A)
    : res (list A * list A * list A) :=
    bind (nearest_rows ev d peaks) (fun rows =>
    bind (resolve_rows rows (np_unique (map snd rows))) (fun qs =>
    let err := map (fun q => fst (fst q)) qs in
    let mx := map (fun q => snd (fst q)) qs in
    let my := map snd qs in
    if Nat.eqb (List.length (np_unique mx)) (List.length (np_unique my))
    then Ok (err, mx, my) else Raise AssertionError)).
End Cand.
Arguments cand A : clear implicits.

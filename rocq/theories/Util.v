(** * Util: model of /repo/src/rascal/util.py. *)

From Coq Require Import ZArith Bool List String Lia.
From Verif Require Import Num Py Np.
Import ListNotations.
Local Open Scope num_scope.

Section Util.
  Context {A : Type} {N : Num A}.

  (* ---------------------------------------------------------------- *)
  (** ** Refraction *)

  (** util.py:8-28 get_vapour_pressure.  Powers with the literal exponents 2.0
      and 4.0 are written as products (exact in real arithmetic). *)
  Definition get_vapour_pressure (t : A) : A :=
    let K1 := nlit 116705214528 (-8) in
    let K2 := nlit (-724213167032) (-6) in
    let K3 := nlit (-170738469401) (-10) in
    let K4 := nlit 120208247025 (-7) in
    let K5 := nlit (-323255503223) (-5) in
    let K6 := nlit 149151086135 (-10) in
    let K7 := nlit (-482326573616) (-8) in
    let K8 := nlit 405113405421 (-6) in
    let K9 := nlit (-238555575678) (-12) in
    let K10 := nlit 650175348448 (-9) in
    let omega := t +' K9 /' (t -' K10) in
    let a := omega *' omega +' K1 *' omega +' K2 in
    let b := K3 *' (omega *' omega) +' K4 *' omega +' K5 in
    let c := K6 *' (omega *' omega) +' K7 *' omega +' K8 in
    let x := nopp b +' nsqrt (b *' b -' nZ 4 *' a *' c) in
    let q := nZ 2 *' c /' x in
    nlit 1 6 *' (q *' q *' (q *' q)).

  (** util.py:31-36 get_vapour_partial_pressure. *)
  Definition get_vapour_partial_pressure (rh vp : A) : A := rh /' nZ 100 *' vp.

  (** util.py:39-80 edlen_refraction, for one wavelength (the code broadcasts
      over arrays; see [vacuum_to_air]).  w ** -2.0 is written 1/(w*w). *)
  Definition edlen_refraction (wl t p vpp : A) : A :=
    let w := wl /' nlit 1 4 in
    let T := t +' nlit 27315 (-2) in
    let cA := nlit 834254 (-2) in
    let cB := nZ 2406147 in
    let cC := nZ 15998 in
    let cD := nlit 9609543 (-2) in
    let cE := nlit 601 (-3) in
    let cF := nlit 972 (-5) in
    let cG := nlit 3661 (-6) in
    let s := nZ 1 /' (w *' w) in
    let n_s := nZ 1 +' nlit 1 (-8) *' (cA +' cB /' (nZ 130 -' s) +' cC /' (nlit 389 (-1) -' s)) in
    let X := (nZ 1 +' nlit 1 (-8) *' (cE -' cF *' t) *' p) /' (nZ 1 +' cG *' t) in
    let n_tp := nZ 1 +' p *' (n_s -' nZ 1) *' X /' cD in
    n_tp -' nlit 1 (-10) *' (nlit 29275 (-2) /' T) *' (nlit 37345 (-4) -' nlit 401 (-4) *' s) *' vpp.

  (** util.py:114-123: the index of refraction used by both conversions, from
      temperature in Kelvin and relative humidity in percent. *)
  Definition refraction_at (wl temperature pressure rh : A) : A :=
    let t := temperature -' nlit 27315 (-2) in
    let vp := get_vapour_pressure t in
    let vpp := get_vapour_partial_pressure rh vp in
    edlen_refraction wl t pressure vpp.

  (** util.py:83-123 vacuum_to_air_wavelength on an array of wavelengths. *)
  Definition vacuum_to_air (wls : list A) (temperature pressure rh : A) : list A :=
    map (fun w => w /' refraction_at w temperature pressure rh) wls.

  (** util.py:126-162 air_to_vacuum_wavelength on an array of wavelengths. *)
  Definition air_to_vacuum (wls : list A) (temperature pressure rh : A) : list A :=
    map (fun w => w *' refraction_at w temperature pressure rh) wls.

  (* ---------------------------------------------------------------- *)
  (** ** Line lists *)

  (** One row (element, wavelength, intensity) of a line list; util.py:355-363.
      Reading the csv and converting the text columns to floats
      (.astype(float64), float(...)) is not modelled: rows carry numbers. *)
  Record line : Type := mkLine { l_el : string; l_wl : A; l_int : A }.

  (** util.py:165-195 filter_wavelengths. *)
  Definition filter_wavelengths (lines : list line) (lo hi : A) : list line :=
    let wavelengths := map l_wl lines in
    let index := np_unique_index wavelengths in
    let wl := gather wavelengths index in
    let mask := map (fun w => (lo <=' w) && (w <=' hi)) wl in
    mask_select mask (gather lines index).

  (** l[-1] = v *)
  Definition set_last {T} (l : list T) (v : T) : list T :=
    match l with [] => [] | _ => removelast l ++ [v] end.
  (** l[0] = v *)
  Definition set_first {T} (l : list T) (v : T) : list T :=
    match l with [] => [] | _ :: r => v :: r end.

  (** util.py:198-229 filter_separation.  On an empty array right_dists[0]
      raises IndexError. *)
  Definition filter_separation (w : list A) (min_separation : A) : res (list bool) :=
    match w with
    | [] => Raise IndexError
    | _ :: _ =>
        let d := np_diff w in
        let left_dists := nZ 0 :: d in
        let right_dists := d ++ [nZ 0] in
        let distances := map (fun p => np_minimum (fst p) (snd p)) (combine right_dists left_dists) in
        let distances := set_first distances (hd (nZ 0) right_dists) in
        let distances := set_last distances (last left_dists (nZ 0)) in
        Ok (map (fun x => min_separation <=' nabs x) distances)
    end.

  (** The possible types of the min_intensity argument; util.py:248-277. *)
  Inductive thr : Type :=
  | ThNone                      (* None *)
  | ThNum (a : A)               (* int or float *)
  | ThList (l : list A)         (* list or ndarray *)
  | ThOther.                    (* any other type *)

  (** A dict from element to threshold, filled in order (a later assignment to
      the same key replaces the earlier one); util.py:249-270. *)
  Fixpoint dict_get (d : list (string * A)) (k : string) : option A :=
    match d with
    | [] => None
    | (e, v) :: r => match dict_get r k with
                     | Some v' => Some v'
                     | None => if String.eqb e k then Some v else None
                     end
    end.

  (** util.py:248-277: the dictionary of thresholds. *)
  Definition intensity_dict (elements : list string) (m : thr) : res (list (string * A)) :=
    match m with
    | ThNone => Ok (map (fun e => (e, nZ 0)) elements)
    | ThNum a => Ok (map (fun e => (e, a)) elements)
    | ThList l => if Nat.eqb (List.length l) (List.length elements)
                  then Ok (combine elements l)
                  else Raise AssertionError
    | ThOther => Raise ValueError
    end.

  (** util.py:279-290: the loop over the lines; an element that is not a key
      raises KeyError. *)
  Fixpoint intensity_loop (d : list (string * A)) (lines : list line) : res (list bool) :=
    match lines with
    | [] => Ok []
    | l :: r =>
        match dict_get d (l_el l) with
        | None => Raise KeyError
        | Some t => bind (intensity_loop d r) (fun out => Ok ((t <=' l_int l) :: out))
        end
    end.

  (** util.py:232-290 filter_intensity. *)
  Definition filter_intensity (elements : list string) (lines : list line) (m : thr)
    : res (list bool) :=
    bind (intensity_dict elements m) (fun d => intensity_loop d lines).

  (** util.py:390-393: which types of min_intensity are filtered at all. *)
  Definition intensity_mask (elements : list string) (lines : list line) (m : thr)
    : res (list bool) :=
    match m with
    | ThNum _ | ThList _ => filter_intensity elements lines m
    | ThNone | ThOther => Ok (map (fun _ => true) lines)
    end.

  (** The linelist argument: a str or anything else; util.py:356-369. *)
  Inductive linelist_arg : Type := LLStr (s : string) | LLOther.

  (** The readable line lists: the bundled NIST list and the files on disk. *)
  Record catalogue : Type := mkCatalogue {
    cat_nist : list line;
    cat_file : string -> option (list line)   (* None: path does not exist *)
  }.

  (** util.py:356-369. *)
  Definition read_linelist (cat : catalogue) (a : linelist_arg) : res (list line) :=
    match a with
    | LLStr s => if String.eqb (str_lower s) "nist" then Ok (cat_nist cat)
                 else match cat_file cat s with
                      | Some l => Ok l
                      | None => Raise ValueError
                      end
    | LLOther => Raise ValueError
    end.

  Record load_args : Type := mkLoadArgs {
    la_elements : list string;   (* a single str is wrapped in a list, util.py:352 *)
    la_min_wl : A;
    la_max_wl : A;
    la_min_intensity : thr;
    la_min_distance : A;
    la_vacuum : bool;
    la_pressure : A;
    la_temperature : A;
    la_rh : A;
    la_linelist : linelist_arg;
    la_brightest_n : option nat  (* negative numbers are not modelled *)
  }.

  (** util.py:376-382: the wavelength limits used for the selection. *)
  Definition load_limits (a : load_args) : A * A :=
    if la_vacuum a then (la_min_wl a, la_max_wl a)
    else (la_min_wl a *' refraction_at (la_min_wl a) (la_temperature a) (la_pressure a) (la_rh a),
          la_max_wl a *' refraction_at (la_max_wl a) (la_temperature a) (la_pressure a) (la_rh a)).

  (** util.py:371-397: element, wavelength and intensity filters. *)
  Definition load_select (cat : catalogue) (a : load_args) : res (list line) :=
    bind (read_linelist cat (la_linelist a)) (fun lines0 =>
    let lines1 := mask_select (map (fun l => str_in (l_el l) (la_elements a)) lines0) lines0 in
    let (lo, hi) := load_limits a in
    let lines2 := filter_wavelengths lines1 lo hi in
    bind (intensity_mask (la_elements a) lines2 (la_min_intensity a)) (fun m =>
    Ok (mask_select m lines2))).

  (** util.py:399-405: the n brightest; [argsort] is numpy's. *)
  Definition load_brightest (argsort : list A -> list nat) (n : option nat) (lines : list line)
    : list line :=
    match n with
    | None => lines
    | Some k => gather lines (firstn k (rev (argsort (map l_int lines))))
    end.

  (** util.py:407-415: the separation filter. *)
  Definition load_separate (min_distance : A) (lines : list line) : res (list line) :=
    if nZ 0 <' min_distance
    then bind (filter_separation (map l_wl lines) min_distance) (fun m => Ok (mask_select m lines))
    else Ok (mask_select (map (fun _ => true) lines) lines).

  (** util.py:293-423 load_calibration_lines; the three returned columns are
      given as one list of rows. *)
  Definition load_calibration_lines (argsort : list A -> list nat) (cat : catalogue)
      (a : load_args) : res (list line) :=
    bind (load_select cat a) (fun lines3 =>
    bind (load_separate (la_min_distance a)
            (load_brightest argsort (la_brightest_n a) lines3)) (fun lines5 =>
    if la_vacuum a then Ok lines5
    else Ok (map (fun p => mkLine (l_el (fst p)) (snd p) (l_int (fst p)))
                 (combine lines5
                    (vacuum_to_air (map l_wl lines5) (la_temperature a) (la_pressure a) (la_rh a)))))).

  (* ---------------------------------------------------------------- *)
  (** ** Peaks *)

  (** util.py:426-447 gauss, for one x. *)
  Definition gauss (x a x0 sigma : A) : A :=
    a *' nexp (nopp ((x -' x0) *' (x -' x0)) /' (nZ 2 *' (sigma *' sigma) +' nlit 1 (-9))).

  (** l[a:b] with python's treatment of negative bounds. *)
  Definition slice_bound (n b : Z) : nat :=
    Z.to_nat (Z.min n (if (b <? 0)%Z then Z.max 0 (n + b) else b)).
  Definition slice_range (n a b : Z) : nat * nat :=
    let i := slice_bound n a in let j := slice_bound n b in (i, j - i)%nat.

  (** np.nanmax: ValueError on an empty array, NaN if all entries are NaN. *)
  Definition np_nanmax (l : list A) : res A :=
    match l with
    | [] => Raise ValueError
    | x :: _ => match filter (fun v => negb (nisnan v)) l with
                | [] => Ok x
                | y :: r => Ok (fold_left np_maximum r y)
                end
    end.

  (** What curve_fit may do with (x, y, mean, sigma): return (height, centre) or
      raise.  util.py:501-502. *)
  Definition curve_fitter : Type := list A -> list A -> A -> A -> res (A * A).

  (** util.py:483-487: where the window of a peak starts and how long it is. *)
  Definition peak_window (len width : Z) (peak : A) : res (nat * nat) :=
    match ntrunc peak with
    | None => Raise ValueError   (* int(nan); int(inf) raises OverflowError *)
    | Some ip => Ok (slice_range len (Z.max 0 (ip - width)) (Z.min (ip + width) len))
    end.

  (** util.py:482-513: one turn of the loop.  The first component is the local
      array [spectrum] after the in-place normalisation [y /= ...] of the view
      [y]; the second is the appended value, if any. *)
  Definition refine_one (cf : curve_fitter) (spectrum : list A) (width : Z) (peak : A)
    : list A * res (option A) :=
    let len := Z.of_nat (List.length spectrum) in
    match peak_window len width peak with
    | Raise e => (spectrum, Raise e)
    | Ok (start, cnt) =>
        let y := firstn cnt (skipn start spectrum) in
        match np_nanmax y with
        | Raise e => (spectrum, Raise e)
        | Ok m =>
            let y := map (fun v => v /' m) y in
            let spectrum' := firstn start spectrum ++ y ++ skipn (start + cnt) spectrum in
            let x := map nnat (seq 0 (List.length y)) in
            let mask := map (fun v => nisfinite v && negb (nisnan v)) y in
            let n := List.length (filter (fun b : bool => b) mask) in
            if Nat.eqb n 0 then (spectrum', Ok None) else
            let mean := np_sum (map (fun p => fst p *' snd p) (combine x y)) /' nnat n in
            let sigma := np_sum (map (fun p => snd p *' ((fst p -' mean) *' (fst p -' mean)))
                                     (combine x y)) /' nnat n in
            match cf (mask_select mask x) (mask_select mask y) mean sigma with
            | Raise RuntimeError => (spectrum', Ok None)
            | Raise e => (spectrum', Raise e)
            | Ok (height, centre) =>
                if height <' nZ 0 then (spectrum', Ok None)
                else if (nZ len <' centre) || (centre <' nZ 0) then (spectrum', Ok None)
                else (spectrum', Ok (Some (peak -' nZ width +' centre)))
            end
        end
    end.

  (** util.py:482-513: the loop over the peaks. *)
  Fixpoint refine_loop (cf : curve_fitter) (spectrum : list A) (width : Z) (peaks : list A)
    : res (list A) :=
    match peaks with
    | [] => Ok []
    | p :: r =>
        let (spectrum', o) := refine_one cf spectrum width p in
        bind o (fun v =>
        bind (refine_loop cf spectrum' width r) (fun rest =>
        Ok (match v with Some c => c :: rest | None => rest end)))
    end.

  (** np.isclose(a, b) with default tolerances; util.py:520. *)
  Definition np_isclose (a b : A) : bool :=
    if nisfinite a && nisfinite b
    then nabs (a -' b) <=' nlit 1 (-8) +' nlit 1 (-5) *' nabs b
    else a ==' b.

  (** util.py:520-521: False followed by isclose of each adjacent pair. *)
  Fixpoint close_to_prev (prev : A) (l : list A) : list bool :=
    match l with
    | [] => []
    | x :: r => np_isclose prev x :: close_to_prev x r
    end.
  Definition distance_mask (l : list A) : list bool :=
    match l with [] => [] | x :: r => false :: close_to_prev x r end.

  (** util.py:450-523 refine_peaks ([distance] is unused in the code). *)
  Definition refine_peaks (cf : curve_fitter) (spectrum : list A) (peaks : list A) (width : Z)
    : res (list A) :=
    bind (refine_loop cf spectrum width peaks) (fun r =>
    let mask := map (fun p => (nZ 0 <' p) && (p <' nZ (Z.of_nat (List.length spectrum)))) r in
    Ok (mask_select (map (fun q => fst q && negb (snd q)) (combine mask (distance_mask r))) r)).

  (** util.py:526-545 _derivative. *)
  Definition derivative (p : list A) : list A :=
    map (fun q => nnat (fst q) *' snd q) (combine (seq 1 (List.length p - 1)) (tl p)).
End Util.

Arguments line A : clear implicits.
Arguments thr A : clear implicits.
Arguments catalogue A : clear implicits.
Arguments load_args A : clear implicits.
Arguments curve_fitter A : clear implicits.

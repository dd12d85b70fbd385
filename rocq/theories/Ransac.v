(** * Ransac: model of Calibrator._solve_candidate_ransac,
    /repo/src/rascal/calibrator.py:382-752.

    Random choices, the polynomial fitters and the spline are oracles.  The unbounded
    [while] loops take fuel; running out of it is an explicit outcome. *)

From Coq Require Import ZArith Bool List String Lia.
From Verif Require Import Num Py Np Util Models Atlas Hough PolyEval Calib Cand.
Import ListNotations.
Local Open Scope num_scope.

Section Ransac.
  Context {A : Type} {N : Num A}.

  (** What the search takes from libraries:
      np.argsort;
      np.random.random(n) (calibrator.py:299);
      polyfit / legfit / chebfit (x, y, deg) (calibrator.py:1615-1632);
      scipy.optimize.least_squares;
      the t-th random decision, used as np.random.choice(peaks, size, replace=False, p=prob)
      (calibrator.py:537) or as np.random.choice(y_choice) (calibrator.py:549, 552);
      scipy.interpolate.RectBivariateSpline(x, y, z), evaluated with grid=False;
      whether numpy is 1.23 or later. *)
  Record oracle : Type := mkO {
    o_argsort : list A -> list nat;
    o_random : nat -> list A;
    o_polyfit : fit_kind -> list A -> list A -> nat -> res (list A);
    o_ls : optimiser A;
    o_sample : nat -> list A -> nat -> list A -> list A;
    o_pick : nat -> list A -> A;
    o_spline : list A -> list A -> list (list nat) -> res (A -> A -> A);
    o_np123 : bool
  }.

  (** The local variable twoditp: not assigned, None, or a spline. *)
  Inductive spline : Type := SpUnbound | SpNone | Sp (f : A -> A -> A).

  (** What stays fixed during the search: fit_type; fit_deg; x; y; peaks; the dict
      candidates; ransac_tolerance; min_intercept; max_intercept; pixel_list;
      hough_weight; twoditp; minimum_fit_error; minimum_matches;
      minimum_peak_utilisation; len(self.peaks); (pix_known, wave_known); brute_force;
      sample_size; prob. *)
  Record cfg : Type := mkCfg {
    f_kind : fit_kind; f_deg : nat; f_x : list A; f_y : list A; f_peaks : list A;
    f_dict : list (A * list A); f_tol : A; f_ilo : A; f_ihi : A; f_pixels : list A;
    f_hw : option A; f_spline : spline; f_minerr : A; f_minmatch : A; f_minutil : A;
    f_npeaks : nat; f_known : option (list A * list A); f_brute : bool; f_size : nat;
    f_prob : list A
  }.

  (** best_p, best_cost, best_err, best_residual, best_inliers, self.matched_peaks,
      self.matched_atlas; the number of random decisions made; and, to be able to speak
      about them, the data of the trial fits made so far (latest first). *)
  Record rstate : Type := mkRS {
    s_p : option (list A); s_cost : A; s_err : A; s_resid : option (list A); s_inl : nat;
    s_mp : mseq A; s_ma : mseq A; s_rng : nat; s_log : list (list A * list A)
  }.
  Definition set_rng (t : nat) (s : rstate) : rstate :=
    mkRS (s_p s) (s_cost s) (s_err s) (s_resid s) (s_inl s) (s_mp s) (s_ma s) t (s_log s).
  Definition log_fit (d : list A * list A) (s : rstate) : rstate :=
    mkRS (s_p s) (s_cost s) (s_err s) (s_resid s) (s_inl s) (s_mp s) (s_ma s) (s_rng s) (d :: s_log s).

  (* ---------------------------------------------------------------- *)
  (** ** Preparation *)

  (** calibrator.py:458-461: the values whose successor in the sorted list is nearer
      than 3 ransac_tolerance. *)
  Fixpoint close_lower (tol : A) (uy : list A) : list A :=
    match uy with
    | a :: ((b :: _) as r) => if (b -' a) <' (nZ 3 *' tol) then a :: close_lower tol r else close_lower tol r
    | _ => []
    end.
  (** calibrator.py:457-464. *)
  Definition filter_close (tol : A) (x y : list A) : list A * list A :=
    let bad := close_lower tol (np_unique y) in
    let keep := map (fun v => negb (existsb (fun b => v ==' b) bad)) y in
    (mask_select keep x, mask_select keep y).

  (** itertools.combinations(l, k). *)
  Fixpoint combinations {T} (l : list T) (k : nat) : list (list T) :=
    match k with
    | O => [[]]
    | S k' => match l with
              | [] => []
              | a :: r => map (cons a) (combinations r k') ++ combinations r k
              end
    end.

  (** calibrator.py:520-523: np.histogram(peaks, bins=10), the inverse number of peaks
      in the bin found by np.digitize(right=True), normalised. *)
  Definition hist10 (edges peaks : list A) : list nat :=
    map (fun i => List.length (filter (fun p => Nat.eqb (bin_number edges p) (S i)) peaks)) (seq 0 10).
  (** a[i - 1] with python's meaning of the index -1. *)
  Definition index_pred {T} (l : list T) (i : nat) : option T :=
    match i with O => nth_error l (List.length l - 1) | S k => nth_error l k end.
  Fixpoint inverse_counts (h : list nat) (edges peaks : list A) : res (list A) :=
    match peaks with
    | [] => Ok []
    | p :: r => match index_pred h (searchsorted_left edges p) with
                | Some n => bind (inverse_counts h edges r) (fun l => Ok (nZ 1 /' nnat n :: l))
                | None => Raise IndexError
                end
    end.
  Definition sampling_prob (peaks : list A) : res (list A) :=
    bind (bin_edges peaks 10) (fun edges =>
    bind (inverse_counts (hist10 edges peaks) edges peaks) (fun w =>
    Ok (map (fun v => v /' np_sum w) w))).

  (** calibrator.py:471-478 (np.sort of np.unique changes nothing). *)
  Definition build_dict (x y : list A) : list (A * list A) :=
    map (fun p => (p, mask_select (map (fun v => v ==' p) x) y)) (np_unique x).

  (* ---------------------------------------------------------------- *)
  (** ** Drawing a sample *)

  Section Run.
  Variable o : oracle.

  (** calibrator.py:549-552: draw until the wavelength is new. *)
  Fixpoint pick_new (fuel t : nat) (choices seen : list A) : option (A * nat) :=
    match fuel with
    | O => None
    | S n => let y := o_pick o t choices in
             if existsb (fun v => v ==' y) seen then pick_new n (S t) choices seen
             else Some (y, S t)
    end.

  (** Out of fuel; the set of wavelengths cannot be completed; an exception; a
      sample. *)
  Inductive drawn : Type :=
  | DOut | DStop (t : nat) | DRaise (e : exn) | DOk (t : nat) (xh yh : list A).

  (** calibrator.py:541-562. *)
  Fixpoint draw_ys (fuel : nat) (f : cfg) (t : nat) (xh xs seen : list A) : drawn :=
    match xs with
    | [] => DOk t xh seen
    | x :: r =>
        match dict_get (f_dict f) x with
        | Raise e => DRaise e
        | Ok choices =>
            if forallb (fun y => existsb (fun v => v ==' y) seen) choices then DStop t
            else match pick_new fuel t choices seen with
                 | None => DOut
                 | Some (y, t') => draw_ys fuel f t' xh r (seen ++ [y])
                 end
        end
    end.

  (** calibrator.py:532-562.  np.random.choice raises ValueError if a probability is
      NaN or fewer than size entries are non-zero.  x[[sample]] means x[sample] before
      numpy 1.23; later it is two-dimensional, which concatenate (with known pairs)
      or polyfit rejects. *)
  Definition draw (fuel : nat) (f : cfg) (t : nat) (sample : list nat) : drawn :=
    if f_brute f then
      if o_np123 o then DRaise (match f_known f with Some _ => ValueError | None => TypeError end)
      else DOk t (gather (f_x f) sample) (gather (f_y f) sample)
    else if existsb nisnan (f_prob f) ||
            Nat.ltb (List.length (filter (fun p => negb (p ==' nZ 0)) (f_prob f))) (f_size f)
    then DRaise ValueError
    else let xh := o_sample o t (f_peaks f) (f_size f) (f_prob f) in
         draw_ys fuel f (S t) xh xh [].

  (** calibrator.py:567-570. *)
  Definition add_known (f : cfg) (xh yh : list A) : list A * list A :=
    match f_known f with
    | Some (kx, ky) => (xh ++ kx, yh ++ ky)
    | None => (xh, yh)
    end.

  (* ---------------------------------------------------------------- *)
  (** ** Judging a trial fit *)

  (** calibrator.py:617-634: the weight from the Hough space. *)
  Definition hough_bonus (f : cfg) (co : list A) : res A :=
    match derivative co with
    | [] => Raise IndexError
    | d =>
        let pts := map (fun p => let wave := eval_kind (f_kind f) p co in
                                 let gradient := eval_kind (f_kind f) p d in
                                 (wave -' gradient *' p, gradient)) (f_pixels f) in
        match f_spline f with
        | SpUnbound => Raise UnboundLocalError
        | SpNone => Ok (nZ 1)
        | Sp sp => match f_hw f with
                   | None => Ok (nZ 1)
                   | Some w => Ok (w *' np_sum (map (fun q => sp (fst q) (snd q)) pts))
                   end
        end
    end.

  (** calibrator.py:614-615: err[err > tol] = tol. *)
  Definition clip_err (tol : A) (err : list A) : list A :=
    map (fun e => if tol <' e then tol else e) err.
  (** calibrator.py:636-640.  The number of degrees of freedom may be zero or
      negative here. *)
  Definition trial_cost (err co : list A) (weight : A) : A :=
    np_sum err /' nZ (Z.of_nat (List.length err) - Z.of_nat (List.length co) + 1)
      /' (weight +' nlit 1 (-9)).

  (** calibrator.py:667-672: residuals of the robust fit, large ones replaced. *)
  Definition robust_residual (k : fit_kind) (tol : A) (co xs ys : list A) : list A :=
    map (fun q => let r := eval_kind k (fst q) co -' snd q in if tol <' nabs r then tol else r)
        (combine xs ys).
  (** calibrator.py:674: np.sqrt(np.mean(residual ** 2)). *)
  Definition rms_of (r : list A) : A := nsqrt (np_mean (map (fun v => v *' v) r)).

  (** [continue]; on to the next sample; an exception. *)
  Inductive tried : Type := TContinue | TNext (s : rstate) | TRaise (s : rstate) (e : exn).

  (** calibrator.py:643-735: a fit that may be a new best one. *)
  Definition consider (f : cfg) (s : rstate) (cost : A) (err mx my : list A) : tried :=
    let mask := map (fun e => e <' f_tol f) err in
    let xs := mask_select mask mx in
    let ys := mask_select mask my in
    let n := List.length xs in
    if Nat.leb n (f_deg f) then TContinue else
    match robust_polyfit (o_ls o) xs ys (f_deg f) None with
    | Raise LinAlgError => TContinue
    | Raise e => TRaise s e
    | Ok co =>
        let resid := robust_residual (f_kind f) (f_tol f) co xs ys in
        let rms := rms_of resid in
        if rms <' f_minerr f then TContinue else
        if nnat n <' f_minmatch f then TContinue else
        if nnat n <' f_minutil f *' nnat (f_npeaks f) then TContinue else
        let s' := mkRS (Some co) cost rms (Some resid) n (MList xs) (MList ys) (s_rng s) (s_log s) in
        if Nat.eqb (List.length (np_unique xs)) n && Nat.eqb (List.length (np_unique ys)) (List.length ys)
           && Nat.eqb (List.length (np_unique ys)) (List.length (np_unique xs))
        then TNext s' else TRaise s' AssertionError
    end.

  (** calibrator.py:572-738: from the trial fit to the decision. *)
  Definition trial (f : cfg) (s : rstate) (xh yh : list A) : tried :=
    match o_polyfit o (f_kind f) xh yh (f_deg f) with
    | Raise e => TRaise s e
    | Ok co =>
        match co, f_peaks f with
        | [], _ | _, [] => TRaise s IndexError
        | c0 :: _, p0 :: _ =>
            if (c0 <' f_ilo f) || (f_ihi f <' c0) then TContinue else
            match np_ptp (f_peaks f) with
            | Raise e => TRaise s e
            | Ok w =>
                let lo := p0 -' w *' nlit 2 (-1) in
                let hi := last (f_peaks f) p0 +' w *' nlit 2 (-1) in
                match nceil (hi -' lo) with
                | None => TRaise s ValueError
                | Some _ =>
                    if negb (all_positive (np_diff (map (fun p => eval_kind (f_kind f) p co) (np_arange1 lo hi))))
                    then TContinue else
                    match match_bijective (fun p => eval_kind (f_kind f) p co) (f_dict f) (f_peaks f) with
                    | Raise e => TRaise s e
                    | Ok (err0, mx, my) =>
                        if Nat.eqb (List.length mx) 0 then TContinue else
                        let err := clip_err (f_tol f) err0 in
                        match hough_bonus f co with
                        | Raise e => TRaise s e
                        | Ok weight =>
                            let cost := trial_cost err co weight in
                            if cost <=' s_cost s then consider f s cost err mx my else TNext s
                        end
                    end
                end
            end
        end
    end.

  (* ---------------------------------------------------------------- *)
  (** ** The loops *)

  (** Finished; an exception; out of fuel. *)
  Inductive outcome : Type :=
  | Done (s : rstate) | Fail (s : rstate) (e : exn) | Out (s : rstate).

  (** calibrator.py:526-738: the [while keep_trying] loop for one sample. *)
  Fixpoint try_sample (fuel : nat) (f : cfg) (s : rstate) (sample : list nat) : outcome :=
    match fuel with
    | O => Out s
    | S n =>
        match draw n f (s_rng s) sample with
        | DOut => Out s
        | DStop t => Done (set_rng t s)
        | DRaise e => Fail s e
        | DOk t xh0 yh0 =>
            let (xh, yh) := add_known f xh0 yh0 in
            let s1 := log_fit (xh, yh) (set_rng t s) in
            match trial f s1 xh yh with
            | TContinue => try_sample n f s1 sample
            | TNext s2 => Done s2
            | TRaise s2 e => Fail s2 e
            end
        end
    end.

  (** calibrator.py:525: [for sample in sampler_list]. *)
  Fixpoint run_samples (fuel : nat) (f : cfg) (s : rstate) (samples : list (list nat)) : outcome :=
    match samples with
    | [] => Done s
    | smp :: r => match try_sample fuel f s smp with
                  | Done s' => run_samples fuel f s' r
                  | out => out
                  end
    end.

  (* ---------------------------------------------------------------- *)
  (** ** The whole search *)

  Definition need {T} (v : option T) : res T :=
    match v with Some x => Ok x | None => Raise TypeError end.

  (** calibrator.py:480-494: the interpolated Hough histogram. *)
  Definition make_spline (ht : hough A) (hw : option A) : res spline :=
    match ho_xedges ht with
    | None => Ok SpNone
    | Some xe =>
        bind (need (ho_yedges ht)) (fun ye =>
        match xe, ye with
        | x0 :: x1 :: _, y0 :: y1 :: _ =>
            let xb := (x1 -' x0) /' nZ 2 in
            let yb := (y1 -' y0) /' nZ 2 in
            match hw with
            | None => Raise TypeError
            | Some w =>
                if nisfinite w then
                  bind (need (ho_hist ht)) (fun h =>
                  bind (o_spline o (map (fun e => e -' xb) (tl xe)) (map (fun e => e -' yb) (tl ye)) h) (fun sp =>
                  Ok (Sp sp)))
                else Ok SpUnbound
            end
        | _, _ => Raise IndexError
        end)
    end.

  (** calibrator.py:426-442: self.candidate_peak and self.candidate_arc. *)
  Definition ransac_candidates (c : calib A) (ctol : A) : res (list A * list A) :=
    bind (need (r_linear (c_rp c))) (fun linear =>
    bind (need (r_top (c_rp c))) (fun top =>
    bind (need (r_weighted (c_rp c))) (fun weighted =>
    bind (if (linear : bool) then candidates_linear c ctol else candidates_poly (o_random o) c ctol)
      (fun cs => Ok (most_common_candidates (o_argsort o) cs top weighted))))).

  (** calibrator.py:453-464: x and y. *)
  Definition ransac_xy (c : calib A) (ctol : A) : res (list A * list A) :=
    bind (ransac_candidates c ctol) (fun q =>
    bind (need (r_close (c_rp c))) (fun close =>
    bind (need (r_tol (c_rp c))) (fun tol =>
    Ok (if (close : bool) then filter_close tol (fst q) (snd q) else q)))).

  (** calibrator.py:468-513: what the loops need, the samples and the state before the
      first sample. *)
  Definition ransac_setup (c : calib A) (x y : list A) (deg size max_tries : nat) (coeff : option (list A))
      (brute : bool) : res (cfg * list (list nat) * rstate) :=
    let r := c_rp c in
    let peaks := np_unique x in
    let all := brute || Nat.leb (List.length peaks) size in
    let samples := if all then combinations (seq 0 (List.length x)) size
                   else map (fun i => [i]) (seq 0 max_tries) in
    let d := build_dict x y in
    bind (make_spline (c_ht c) (r_hweight r)) (fun sp =>
    bind (need (c_kind c)) (fun k =>
    bind (match coeff with
          | Some co =>
              bind (match_bijective (fun p => eval_kind k p co) d peaks) (fun m =>
              let err := fst (fst m) in
              Ok (np_sum err, rms_of err))
          | None => Ok (nlit 1 50, nlit 1 50)
          end) (fun best =>
    bind (if brute then Ok [] else sampling_prob peaks) (fun prob =>
    bind (need (r_tol r)) (fun tol =>
    bind (need (h_min_intercept (c_hp c))) (fun ilo =>
    bind (need (h_max_intercept (c_hp c))) (fun ihi =>
    bind (need (g_pixels (c_gp c))) (fun pixels =>
    bind (need (r_fit_error r)) (fun minerr =>
    bind (need (r_matches r)) (fun minmatch =>
    bind (need (r_util r)) (fun minutil =>
    Ok (mkCfg k deg x y peaks d tol ilo ihi pixels (r_hweight r) sp minerr minmatch minutil
          (List.length (c_peaks c)) (c_known c) brute (if all then List.length peaks else size) prob,
        samples,
        mkRS None (fst best) (snd best) None 0 (c_mpeaks c) (c_matlas c) 0 [])))))))))))).

  (** best_p, best_err, best_residual, best_inliers, valid_solution *)
  Record rresult : Type := mkRR {
    rr_p : option (list A); rr_err : A; rr_resid : option (list A); rr_inl : nat; rr_valid : bool
  }.

  Definition set_sample (n : nat) (c : calib A) : calib A :=
    let r := c_rp c in
    set_c_rp (mkR (Some n) (r_top r) (r_linear r) (r_close r) (r_tol r) (r_weighted r) (r_hweight r)
                (r_matches r) (r_util r) (r_fit_error r)) c.

  Definition mseq_len (m : mseq A) : option nat :=
    match m with MNone => None | _ => Some (List.length (mseq_vals m)) end.

  (** calibrator.py:740-752: the checks after the loop. *)
  Definition ransac_result (deg : nat) (s : rstate) : res rresult :=
    match mseq_len (s_mp s), mseq_len (s_ma s) with
    | Some np, Some na =>
        if Nat.eqb (s_inl s) np && Nat.eqb (s_inl s) na &&
           Nat.eqb (List.length (np_unique (mseq_vals (s_ma s)))) na
        then Ok (mkRR (s_p s) (s_err s) (s_resid s) (s_inl s) (negb (Nat.leb (s_inl s) (deg + 1))))
        else Raise AssertionError
    | _, _ => Raise TypeError
    end.

  (** calibrator.py:382-752 _solve_candidate_ransac; None: out of fuel.  The attributes
      candidates, candidate_peak and candidate_arc are left out.  The early return
      gives 0 for the residuals. *)
  Definition solve_ransac (fuel : nat) (c : calib A) (deg max_tries : nat) (coeff : option (list A)) (ctol : A)
      (brute : bool) : option (calib A * res rresult) :=
    match ransac_candidates c ctol with
    | Raise e => Some (c, Raise e)
    | Ok _ =>
        let c1 := set_c_deg (Some deg) c in
        match ransac_xy c1 ctol with
        | Raise e => Some (c1, Raise e)
        | Ok (x, y) =>
            if Nat.leb (List.length (np_unique x)) deg
            then Some (c1, Ok (mkRR None (nlit 1 50) None 0 false)) else
            match r_sample (c_rp c1) with
            | None => Some (c1, Raise TypeError)
            | Some size =>
                let c2 := if brute || Nat.leb (List.length (np_unique x)) size
                          then set_sample (List.length (np_unique x)) c1 else c1 in
                match ransac_setup c1 x y deg size max_tries coeff brute with
                | Raise e => Some (c2, Raise e)
                | Ok (f, samples, s0) =>
                    match run_samples fuel f s0 samples with
                    | Out _ => None
                    | Fail s e => Some (set_c_matlas (s_ma s) (set_c_mpeaks (s_mp s) c2), Raise e)
                    | Done s => Some (set_c_matlas (s_ma s) (set_c_mpeaks (s_mp s) c2), ransac_result deg s)
                    end
                end
            end
        end
    end.
  End Run.
End Ransac.
Arguments oracle A : clear implicits.
Arguments cfg A : clear implicits.
Arguments rstate A : clear implicits.
Arguments rresult A : clear implicits.

(** * Seed: the random numbers of calibrators, /repo/src/rascal/calibrator.py:299, 538, 550-553,
    859-866, 951-952.

    numpy has one generator for the whole program: set_calibrator_properties(seed=...) seeds it
    (np.random.seed) and fit draws from it, whichever calibrator they are called on. *)

From Coq Require Import ZArith Bool List String.
From Verif Require Import Num Py Np Util Atlas Hough PolyEval Calib SpecCalib Cand Ransac Fit.
Import ListNotations.

Section Seed.
  Context {A : Type} {N : Num A}.

  (** What a fit takes from the generator: np.random.random (calibrator.py:299) and the two
      uses of np.random.choice (calibrator.py:538-541, 550-553). *)
  Record draws : Type := mkDraws {
    d_random : nat -> list A;
    d_sample : nat -> list A -> nat -> list A -> list A;
    d_pick : nat -> list A -> A
  }.
  Definition with_draws (o : oracle A) (d : draws) : oracle A :=
    mkO (o_argsort o) (d_random d) (o_polyfit o) (o_ls o) (d_sample d) (d_pick d) (o_spline o) (o_np123 o).

  (** A generator: its states; the state np.random.seed(k) puts it in; what a fit that begins
      in a state draws; the state a fit of a calibrator leaves it in; and the state after the
      program itself has drawn n numbers.  Nothing is assumed about them. *)
  Record generator : Type := mkGen {
    g_state : Type;
    g_seed : Z -> g_state;
    g_draws : g_state -> draws;
    g_after : g_state -> calib A -> fit_args A -> g_state;
    g_use : g_state -> nat -> g_state
  }.

  (** The program: the state of the generator and its calibrators. *)
  Record program (g : generator) : Type := mkProg { p_rng : g_state g; p_cals : list (calib A) }.
  Arguments mkProg {g}.
  Arguments p_rng {g}.
  Arguments p_cals {g}.

  (** Calls: a new Calibrator; set_calibrator_properties of calibrator i with or without a
      seed; another configuring call; fit; and numbers drawn by the program itself. *)
  Inductive prog_op : Type :=
  | PNew (peaks : list A) (spectrum : option (list A))
  | PSet (i : nat) (num_pix : option A) (pixel_list : option (list A)) (library : option string) (seed : option Z)
  | PCall (i : nat) (p : cal_op A)
  | PFit (i : nat) (a : fit_args A)
  | PUse (n : nat).

  Definition put_cal (l : list (calib A)) (i : nat) (c : calib A) : list (calib A) :=
    (firstn i l ++ c :: skipn (S i) l)%list.

  (** One call, and what it returned if it was a fit (None: it does not end within [fuel]
      draws; the state is then left as it was). *)
  Definition prog_step {g : generator} (o : oracle A) (fuel : nat) (e : env A) (w : program g) (p : prog_op)
      : program g * list (option (res (fit_value A))) :=
    match p with
    | PNew peaks spectrum =>
        match calib_init (e_hull e) peaks spectrum with
        | Ok c => (mkProg (p_rng w) (p_cals w ++ [c])%list, [])
        | Raise _ => (w, [])
        end
    | PSet i n px lib seed =>
        match nth_error (p_cals w) i with
        | None => (w, [])
        | Some c =>
            let (c', r) := set_calibrator_properties c n px lib in
            (mkProg (match r, seed with Ok _, Some k => g_seed g k | _, _ => p_rng w end)
                    (put_cal (p_cals w) i c'), [])
        end
    | PCall i q =>
        match nth_error (p_cals w) i with
        | None => (w, [])
        | Some c => (mkProg (p_rng w) (put_cal (p_cals w) i (fst (cal_step e c q))), [])
        end
    | PFit i a =>
        match nth_error (p_cals w) i with
        | None => (w, [])
        | Some c =>
            match fit (with_draws o (g_draws g (p_rng w))) fuel c a with
            | None => (w, [None])
            | Some (c', r) => (mkProg (g_after g (p_rng w) c a) (put_cal (p_cals w) i c'), [Some r])
            end
        end
    | PUse n => (mkProg (g_use g (p_rng w) n) (p_cals w), [])
    end.

  (** A program: its last state and what its fits returned, in order. *)
  Fixpoint prog_run {g : generator} (o : oracle A) (fuel : nat) (e : env A) (w : program g) (h : list prog_op)
      : program g * list (option (res (fit_value A))) :=
    match h with
    | [] => (w, [])
    | p :: r =>
        let (w', x) := prog_step o fuel e w p in
        let (w'', y) := prog_run o fuel e w' r in (w'', (x ++ y)%list)
    end.
End Seed.
Arguments draws A : clear implicits.
Arguments generator A : clear implicits.
Arguments prog_op A : clear implicits.
Arguments program {A} g.
Arguments mkProg {A g}.
Arguments p_rng {A g}.
Arguments p_cals {A g}.

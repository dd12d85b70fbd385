(** * Whole: arguments that are integer arrays.  The other model files take arrays of
    floats; here numpy's rule matters that an in-place division of an array of integers
    raises, and that assigning a float to one of its elements cuts off the decimals. *)

From Coq Require Import ZArith Bool List Lia.
From Verif Require Import Num Py Np Util Models.
Import ListNotations.
Local Open Scope num_scope.

Section Whole.
  Context {A : Type} {N : Num A}.

  (** A spectrum: python or numpy integers (np.array makes an integer array of them,
      util.py:479), or floats. *)
  Inductive counts : Type := Ints (l : list Z) | Floats (l : list A).

  (** util.py:450-523 refine_peaks.  For integers the first peak decides: the window is
      cut out (482-487), its maximum taken (ValueError if it is empty), and y /= ... raises
      numpy's UFuncTypeError, a TypeError (488).  Without peaks the loop does nothing. *)
  Definition refine_peaks_of (cf : curve_fitter A) (spectrum : counts) (peaks : list A) (width : Z) : res (list A) :=
    match spectrum with
    | Floats l => refine_peaks cf l peaks width
    | Ints l =>
        match peaks with
        | [] => Ok []
        | p :: _ =>
            bind (peak_window (Z.of_nat (length l)) width p) (fun w =>
            match firstn (snd w) (skipn (fst w) l) with
            | [] => Raise ValueError
            | _ => Raise TypeError
            end)
        end
    end.

  (** Assignment of a float to an element of an integer array. *)
  Definition cut (v : A) : res Z :=
    match ntrunc v with
    | Some z => Ok z
    | None => Raise (if nisnan v then ValueError else OverflowError)
    end.

  (** models.py:101-102 on an integer array: p_init[i] *= x.std() ** i. *)
  Fixpoint scale_start (sx : A) (i n : nat) (p : list Z) : res (list Z) :=
    match n, p with
    | O, _ => Ok p
    | S _, [] => Raise IndexError
    | S n, z :: r =>
        bind (cut (nZ z *' npow sx i)) (fun z' =>
        bind (scale_start sx (S i) n r) (fun r' => Ok (z' :: r')))
    end.

  (** models.py:70-123 robust_polyfit with the initial coefficients in an integer array:
      p_init /= y.std() raises (104). *)
  Definition robust_polyfit_from (x : list A) (degree : nat) (x0 : list Z) : res (list A) :=
    bind (scale_start (np_std x) 0 degree x0) (fun _ => Raise TypeError).
End Whole.

Arguments counts A : clear implicits.

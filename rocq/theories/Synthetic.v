(** * Synthetic: model of /repo/src/rascal/synthetic.py. *)

From Coq Require Import ZArith Bool List Lia.
From Verif Require Import Num Py Np Models.
Import ListNotations.
Local Open Scope num_scope.

Section Synthetic.
  Context {A : Type} {N : Num A}.

  (** A limit argument: None, a float (numpy.float64 included), or any other
      type, ints included; synthetic.py:50-53,68-71. *)
  Inductive lim_arg : Type := LNone | LFloat (v : A) | LOther.

  (** A coefficients argument: None, a list or ndarray, or another type. *)
  Inductive coef_arg : Type := CNone | CSeq (c : list A) | COther.

  (** The attributes of a SyntheticSpectrum.  [sy_coef] is None while the
      attribute self.coefficients does not exist.  self.model and self.degree
      (= number of coefficients minus one) are set together, synthetic.py:39-40,
      and are represented by the coefficients the model was made from. *)
  Record synth : Type := mkSynth {
    sy_min : A; sy_max : A;
    sy_coef : option (list A);
    sy_model : option (list A)
  }.

  (** synthetic.py:45-92 set_wavelength_limit; [old] are the limits the object
      has (None inside the constructor, where the attributes do not exist yet).
      Returns the new limits. *)
  Definition new_limits (old : option (A * A)) (mn mx : lim_arg) : res (A * A) :=
    let get (which : A * A -> A) (a : lim_arg) : res A :=
      match a with
      | LOther => Raise TypeError
      | LFloat v => Ok v
      | LNone => match old with Some p => Ok (which p) | None => Raise AttributeError end
      end in
    bind (get fst mn) (fun lo =>
    bind (get snd mx) (fun hi =>
    if lo <' hi then Ok (lo, hi) else Raise RuntimeError)).

  Definition set_wavelength_limit (s : synth) (mn mx : lim_arg) : synth * res unit :=
    match new_limits (Some (sy_min s, sy_max s)) mn mx with
    | Ok (lo, hi) => (mkSynth lo hi (sy_coef s) (sy_model s), Ok tt)
    | Raise e => (s, Raise e)
    end.

  (** synthetic.py:33-43 set_model.  models.polynomial's assertion on the number
      of coefficients always holds here (degree = length - 1). *)
  Definition set_model (s : synth) (c : coef_arg) : synth * res unit :=
    match c with
    | CSeq l => (mkSynth (sy_min s) (sy_max s) (sy_coef s) (Some l), Ok tt)
    | CNone | COther => (s, Raise TypeError)
    end.

  (** synthetic.py:7-31 __init__; self.coefficients is stored before set_model
      may raise, but then no object comes to exist. *)
  Definition synth_init (c : coef_arg) (mn mx : lim_arg) : res synth :=
    bind (new_limits None mn mx) (fun p =>
    match c with
    | CNone => Ok (mkSynth (fst p) (snd p) None None)
    | CSeq l => Ok (mkSynth (fst p) (snd p) (Some l) (Some l))
    | COther => Raise TypeError
    end).

  (** pynverse.inversefunc(model, wavelengths): the pixels, or an exception.  The
      model is given by its coefficients (None: the attribute is None). *)
  Definition inverter : Type := option (list A) -> list A -> res (list A).

  (** synthetic.py:94-118 get_pixels on a list or ndarray of numbers ([None]: any
      other type).  Returns (pixels, wavelengths). *)
  Definition get_pixels (inv : inverter) (s : synth) (wavelengths : option (list A))
    : res (list A * list A) :=
    match wavelengths with
    | None => Raise TypeError
    | Some w =>
        let w := filter (fun x => sy_min s <' x) w in
        let w := filter (fun x => x <' sy_max s) w in
        let coef (i : nat) : res A :=
          match sy_coef s with
          | None => Raise AttributeError
          | Some c => match nth_error c i with Some v => Ok v | None => Raise IndexError end
          end in
        bind (match sy_model s with
              | Some [_] => bind (coef 0%nat) (fun c0 => Ok (map (fun _ => c0 *' nZ 1) w))
              | Some [_; _] => bind (coef 0%nat) (fun c0 => bind (coef 1%nat) (fun c1 =>
                                 Ok (map (fun x => (x -' c0) /' c1) w)))
              | m => inv m w
              end) (fun px => Ok (px, w))
    end.

  (** The fitted model self.model(x), synthetic.py:40 and models.py:19-25. *)
  Definition model_at (s : synth) (x : A) : res A :=
    match sy_model s with
    | None => Raise TypeError
    | Some [] => Raise IndexError
    | Some c => bind (polynomial c (List.length c - 1)) (fun f => Ok (f x))
    end.
End Synthetic.

Arguments lim_arg A : clear implicits.
Arguments coef_arg A : clear implicits.
Arguments synth A : clear implicits.
Arguments inverter A : clear implicits.

(** * Refs: the lists and arrays that pass between a caller and a Calibrator, as python
    objects.  In the other files they are values; here it is explicit which of the
    calibrator's attributes are the caller's own objects. *)

From Coq Require Import ZArith Bool List.
From Verif Require Import Num Py Np Hough Calib World.
Import ListNotations.

Section Refs.
  Context {A : Type} {N : Num A}.

  (** A python list, an integer array or a float array. *)
  Inductive kind : Type := PyList | IntArray | FloatArray.
  Record obj : Type := mkObj { ob_kind : kind; ob_vals : list A }.

  (** The objects by address; the addresses the caller knows; the attributes of the
      calibrator: peaks, pixel_list (None: made by the calibrator itself), the table
      inside pix_to_rawpix, pix_known and wave_known, fit_coeff, matched_peaks and
      matched_atlas. *)
  Record refs : Type := mkRefs {
    rf_heap : list obj; rf_held : list nat;
    rf_peaks : nat; rf_pixels : option nat; rf_table : option (list A); rf_known : option (nat * nat);
    rf_coeff : option nat; rf_mpeaks : option nat; rf_matlas : option nat
  }.

  Definition vals (s : refs) (r : nat) : list A :=
    match nth_error (rf_heap s) r with Some b => ob_vals b | None => [] end.

  (** A new object; its address. *)
  Definition alloc (h : list obj) (b : obj) : list obj * nat := ((h ++ [b])%list, length h).

  (** copy.deepcopy. *)
  Definition deepcopy (h : list obj) (r : nat) : list obj * nat :=
    alloc h match nth_error h r with Some b => b | None => mkObj PyList [] end.

  (** np.asarray(v), calibrator.py:934: an array is taken as it is. *)
  Definition as_array (h : list obj) (r : nat) : list obj * nat :=
    match nth_error h r with
    | Some (mkObj PyList l) => alloc h (mkObj FloatArray l)
    | _ => (h, r)
    end.

  (** np.asarray(v, dtype="float").reshape(-1), calibrator.py:1531-1532: a float array is
      taken as it is (reshape gives a view of the same memory). *)
  Definition as_float (h : list obj) (r : nat) : list obj * nat :=
    match nth_error h r with
    | Some (mkObj FloatArray _) => (h, r)
    | Some (mkObj _ l) => alloc h (mkObj FloatArray l)
    | None => (h, r)
    end.

  (** What the caller can do: make an object, change one it knows in place (f is any
      change), or call a method.  RFit and RMatch stand for a successful fit or match_peaks
      with the given results, RRefit for a manual_refit of the given lists. *)
  Inductive ref_op : Type :=
  | RMake (b : obj)
  | REdit (r : nat) (f : list A -> list A)
  | RPixels (r : nat)
  | RKnown (p w : nat)
  | RFit (co mp ma : list A)
  | RMatch (co mp ma : list A)
  | RRefit (p w : nat) (co : list A)
  | RSetPairs (mp ma : list A).

  (** calibrator.py:21-84: Calibrator(peaks) for the caller's object b. *)
  Definition ref_init (b : obj) : refs :=
    mkRefs [b; b] [0%nat] 1 None None None None None None.

  Definition set_heap (h : list obj) (held : list nat) (s : refs) : refs :=
    mkRefs h held (rf_peaks s) (rf_pixels s) (rf_table s) (rf_known s) (rf_coeff s) (rf_mpeaks s) (rf_matlas s).

  (** Results: three new objects, which are returned to the caller. *)
  Definition results (s : refs) (a b c : obj) : refs :=
    let n := length (rf_heap s) in
    mkRefs (rf_heap s ++ [a; b; c])%list (n :: S n :: S (S n) :: rf_held s)
      (rf_peaks s) (rf_pixels s) (rf_table s) (rf_known s) (Some n) (Some (S n)) (Some (S (S n))).

  Definition ref_step (s : refs) (o : ref_op) : refs :=
    match o with
    | RMake b => let (h, r) := alloc (rf_heap s) b in set_heap h (r :: rf_held s) s
    | REdit r f =>
        if existsb (Nat.eqb r) (rf_held s) then
          match nth_error (rf_heap s) r with
          | Some b => set_heap (put_nth (rf_heap s) r (mkObj (ob_kind b) (f (ob_vals b)))) (rf_held s) s
          | None => s
          end
        else s
    | RPixels r =>
        (* calibrator.py:933-949; interp1d copies its arguments *)
        let (h, q) := as_array (rf_heap s) r in
        mkRefs h (rf_held s) (rf_peaks s) (Some q) (Some (vals s r)) (rf_known s) (rf_coeff s) (rf_mpeaks s) (rf_matlas s)
    | RKnown p w =>
        (* calibrator.py:1531-1550; nothing is stored if the check fails *)
        if Nat.eqb (length (vals s p)) (length (vals s w)) && negb (existsb nisnan (vals s p)) && negb (existsb nisnan (vals s w))
        then
          let (h1, a) := as_float (rf_heap s) p in
          let (h2, b) := as_float h1 w in
          mkRefs h2 (rf_held s) (rf_peaks s) (rf_pixels s) (rf_table s) (Some (a, b)) (rf_coeff s) (rf_mpeaks s) (rf_matlas s)
        else s
    | RFit co mp ma =>
        (* calibrator.py:708-709, 1701-1715 *)
        results s (mkObj FloatArray co) (mkObj PyList mp) (mkObj PyList ma)
    | RMatch co mp ma =>
        (* calibrator.py:1883-1894, 1916-1956 *)
        results s (mkObj FloatArray co) (mkObj FloatArray mp) (mkObj FloatArray ma)
    | RRefit p w co =>
        (* calibrator.py:2110-2124 *)
        let get r := match nth_error (rf_heap s) r with Some b => b | None => mkObj PyList [] end in
        results s (mkObj FloatArray co) (get p) (get w)
    | RSetPairs mp ma =>
        (* add_pix_wave_pair, remove_pix_wave_pair, calibrator.py:1998-2026: np.insert and
           np.delete make new arrays, which are not returned *)
        let n := length (rf_heap s) in
        mkRefs (rf_heap s ++ [mkObj FloatArray mp; mkObj FloatArray ma])%list (rf_held s)
          (rf_peaks s) (rf_pixels s) (rf_table s) (rf_known s) (rf_coeff s) (Some n) (Some (S n))
    end.

  Definition ref_run (s : refs) (l : list ref_op) : refs := fold_left ref_step l s.

  (** What the methods of the calibrator see. *)
  Definition peaks_seen (s : refs) : list A := vals s (rf_peaks s).
  Definition pixels_seen (s : refs) : option (list A) := option_map (vals s) (rf_pixels s).
  Definition known_seen (s : refs) : option (list A * list A) :=
    option_map (fun q => (vals s (fst q), vals s (snd q))) (rf_known s).
  Definition coeff_seen (s : refs) : option (list A) := option_map (vals s) (rf_coeff s).
  Definition matched_seen (s : refs) : option (list A) * option (list A) :=
    (option_map (vals s) (rf_mpeaks s), option_map (vals s) (rf_matlas s)).
End Refs.

Arguments obj A : clear implicits.
Arguments refs A : clear implicits.
Arguments ref_op A : clear implicits.

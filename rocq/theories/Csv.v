(** * Csv: reading a line list from the text of its file, util.py:355-423.

    The text is taken after python's newline translation (lines end in one
    newline character).  float(...) and .astype(float64) of one field are given
    by an argument [parse] ([None]: ValueError).  Quoting does not exist in
    np.loadtxt's default format and white space around a field is kept. *)

From Coq Require Import ZArith Bool List String Ascii Lia Arith.
From Verif Require Import Num Py Np Util.
Import ListNotations.

Definition newline : ascii := ascii_of_nat 10.

(** s.split(c) for one character c. *)
Fixpoint split_on (c : ascii) (s : string) : list string :=
  match s with
  | EmptyString => [EmptyString]
  | String x r =>
      if Ascii.eqb x c then EmptyString :: split_on c r
      else match split_on c r with
           | [] => [String x EmptyString]
           | f :: fs => String x f :: fs
           end
  end.

(** np.loadtxt (comments='#'): what stands before the first '#'. *)
Fixpoint strip_comment (s : string) : string :=
  match s with
  | EmptyString => EmptyString
  | String x r => if Ascii.eqb x "#"%char then EmptyString else String x (strip_comment r)
  end.

(** The first n characters (dtype ">U12" keeps 12 of them). *)
Fixpoint str_take (n : nat) (s : string) : string :=
  match n, s with
  | O, _ => EmptyString
  | S _, EmptyString => EmptyString
  | S m, String x r => String x (str_take m r)
  end.

(** util.py:361,363 np.loadtxt(path, delimiter=",", dtype=">U12"): comments are
    dropped, empty lines skipped, every other line is cut at the commas, every
    line must have as many fields as the first (ValueError). *)
Definition loadtxt (text : string) : res (list (list string)) :=
  let body := filter (fun s => negb (String.eqb s EmptyString))
                     (map strip_comment (split_on newline text)) in
  let rows := map (split_on ","%char) body in
  match rows with
  | [] => Ok []
  | r0 :: _ =>
      if forallb (fun r => Nat.eqb (List.length r) (List.length r0)) rows
      then Ok (map (map (str_take 12)) rows)
      else Raise ValueError
  end.

(** The files: the bundled list and those on disk (None: no such path). *)
Record disk : Type := mkDisk {
  dk_nist : string;
  dk_file : string -> option string
}.

(** util.py:356-369. *)
Definition read_text (d : disk) (a : linelist_arg) : res string :=
  match a with
  | LLStr s => if String.eqb (str_lower s) "nist" then Ok (dk_nist d)
               else match dk_file d s with Some t => Ok t | None => Raise ValueError end
  | LLOther => Raise ValueError
  end.

Section Csv.
  Context {A : Type} {N : Num A}.
  Variable parse : string -> option A.
  Local Open Scope num_scope.

  (** One field to a float; a bad text raises ValueError. *)
  Definition to_float (s : string) : res A :=
    match parse s with Some v => Ok v | None => Raise ValueError end.

  (** lines[:, j] of one row; a missing column raises IndexError. *)
  Definition field (j : nat) (r : list string) : res string :=
    match nth_error r j with Some s => Ok s | None => Raise IndexError end.

  (** .astype(float64) of column j. *)
  Fixpoint float_column (j : nat) (rows : list (list string)) : res (list A) :=
    match rows with
    | [] => Ok []
    | r :: rs => bind (field j r) (fun s => bind (to_float s) (fun v =>
                 bind (float_column j rs) (fun vs => Ok (v :: vs))))
    end.

  (** util.py:165-195 filter_wavelengths on rows of text; the result keeps the
      wavelength already converted beside each row. *)
  Definition text_wavelengths (rows : list (list string)) (lo hi : A)
    : res (list (list string * A)) :=
    bind (float_column 1 rows) (fun wavelengths =>
    let index := np_unique_index wavelengths in
    let wl := gather wavelengths index in
    let mask := map (fun w => (lo <=' w) && (w <=' hi)) wl in
    Ok (mask_select mask (gather (combine rows wavelengths) index))).

  (** util.py:279-288: the loop of filter_intensity on rows of text. *)
  Fixpoint text_intensity_loop (d : list (string * A)) (rows : list (list string * A))
    : res (list bool) :=
    match rows with
    | [] => Ok []
    | r :: rs =>
        bind (field 0 (fst r)) (fun el =>
        bind (field 2 (fst r)) (fun s => bind (to_float s) (fun v =>
        match dict_get d el with
        | None => Raise KeyError
        | Some t => bind (text_intensity_loop d rs) (fun out => Ok ((t <=' v) :: out))
        end)))
    end.

  (** util.py:389-393. *)
  Definition text_intensity_mask (elements : list string) (rows : list (list string * A)) (m : thr A)
    : res (list bool) :=
    match m with
    | ThNum _ | ThList _ => bind (intensity_dict elements m) (fun d => text_intensity_loop d rows)
    | ThNone | ThOther => Ok (map (fun _ => true) rows)
    end.

  (** util.py:395-397: the three columns of the rows that are left. *)
  Fixpoint text_lines (rows : list (list string * A)) : res (list (line A)) :=
    match rows with
    | [] => Ok []
    | r :: rs =>
        bind (field 0 (fst r)) (fun el =>
        bind (field 2 (fst r)) (fun s => bind (to_float s) (fun v =>
        bind (text_lines rs) (fun ls => Ok (mkLine el (snd r) v :: ls)))))
    end.

  (** How many columns the array has (all rows have equally many). *)
  Definition columns (rows : list (list string)) : nat :=
    match rows with [] => 0 | r :: _ => List.length r end.

  (** util.py:371-373: does the first field name a requested element? *)
  Definition asked (elements : list string) (r : list string) : bool :=
    match r with [] => false | el :: _ => str_in el elements end.

  (** util.py:355-397: read the file and filter.  np.loadtxt squeezes its
      result: one row alone, or one column alone, is a one-dimensional array, on
      which lines[:, 1] raises IndexError; a single field is an array without
      dimensions, which cannot be iterated over (TypeError); no row at all is an
      empty one-dimensional array (IndexError).  With two columns lines[:, 2]
      raises IndexError when it is reached. *)
  Definition text_select (d : disk) (a : load_args A) : res (list (line A)) :=
    bind (read_text d (la_linelist a)) (fun text =>
    bind (loadtxt text) (fun rows0 =>
    if Nat.eqb (List.length rows0) 1 && Nat.eqb (columns rows0) 1 then Raise TypeError
    else if Nat.leb (List.length rows0) 1 || Nat.leb (columns rows0) 1 then Raise IndexError
    else
    let rows1 := filter (asked (la_elements a)) rows0 in
    let (lo, hi) := load_limits a in
    bind (text_wavelengths rows1 lo hi) (fun rows2 =>
    bind (text_intensity_mask (la_elements a) rows2 (la_min_intensity a)) (fun m =>
    if Nat.leb (columns rows0) 2 then Raise IndexError
    else text_lines (mask_select m rows2))))).

  (** util.py:293-423 load_calibration_lines, from the text of the file. *)
  Definition load_text (argsort : list A -> list nat) (d : disk) (a : load_args A)
    : res (list (line A)) :=
    bind (text_select d a) (fun lines3 =>
    bind (load_separate (la_min_distance a)
            (load_brightest argsort (la_brightest_n a) lines3)) (fun lines5 =>
    if la_vacuum a then Ok lines5
    else Ok (map (fun p => mkLine (l_el (fst p)) (snd p) (l_int (fst p)))
                 (combine lines5
                    (vacuum_to_air (map l_wl lines5) (la_temperature a) (la_pressure a) (la_rh a)))))).

  (** float() on an unsigned decimal such as 5460.735 (what the fields of
      nist_clean.csv look like); signs, exponents, inf and nan are left out.
      Used in examples. *)
  Fixpoint decimal (s : string) (m : Z) (point : bool) (e : Z) : option A :=
    match s with
    | EmptyString => Some (nlit m e)
    | String x r =>
        let k := nat_of_ascii x in
        if (Nat.leb 48 k && Nat.leb k 57)%bool
        then decimal r (10 * m + Z.of_nat (k - 48))%Z point (if point then e - 1 else e)%Z
        else if (Ascii.eqb x "."%char && negb point)%bool then decimal r m true e
        else None
    end.
  Definition parse_decimal (s : string) : option A :=
    if String.eqb s EmptyString then None else decimal s 0%Z false 0%Z.
End Csv.

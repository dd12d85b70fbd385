(** * Props_Csv: property theorems only.  The proofs are in Main_Csv.v. *)

From Coq Require Import ZArith Bool List String Ascii Lia Arith.
From Verif Require Import Num F64 Py Np NpFacts Util Atlas SpecUtil SpecAtlas LoadFacts Csv SpecCsv CsvFacts.
From Verif Require Import Main_Csv.
Import ListNotations.
Local Open Scope string_scope.
Local Open Scope num_scope.

(** C131: "nist" in any capitalisation is the bundled list, any other string is
    the file of that name; nothing else has an influence.  A name without a file
    and an argument that is not a string raise ValueError. *)
Theorem linelist_argument :
  forall (A : Type) (N : Num A) argsort (cat : catalogue A) (a : load_args A),
    (forall s, la_linelist a = LLStr s -> spells_nist s ->
       load_calibration_lines argsort cat a = load_calibration_lines argsort (always (cat_nist cat)) a) /\
    (forall s rows, la_linelist a = LLStr s -> ~ spells_nist s -> cat_file cat s = Some rows ->
       load_calibration_lines argsort cat a = load_calibration_lines argsort (always rows) a) /\
    (forall s, la_linelist a = LLStr s -> ~ spells_nist s -> cat_file cat s = None ->
       load_calibration_lines argsort cat a = Raise ValueError) /\
    (la_linelist a = LLOther -> load_calibration_lines argsort cat a = Raise ValueError).
Proof. exact linelist_argument_main. Qed.
Print Assumptions linelist_argument.

(** C131, for an atlas: adding lines from a list that does not exist raises
    ValueError and leaves the atlas as it was. *)
Theorem unknown_linelist_keeps_atlas :
  forall (A : Type) (N : Num A) argsort (cat : catalogue A) (s : atlas A) (a : add_args A),
    (aa_linelist a = LLOther \/
     exists name, aa_linelist a = LLStr name /\ ~ spells_nist name /\ cat_file cat name = None) ->
    elements_of (aa_elements a) <> [] ->
    atlas_add argsort cat s a = (s, Raise ValueError).
Proof. exact unknown_linelist_keeps_atlas_main. Qed.
Print Assumptions unknown_linelist_keeps_atlas.

Example linelist_argument_example :
  spells_nist "NisT" /\ ~ spells_nist "my.csv" /\
  load_calibration_lines (fun l => seq 0 (List.length l)) ex_cat (ex_args (LLStr "NisT")) =
    Ok [mkLine "He" (fz 4000) (fz 5); mkLine "He" (fz 4200) (fz 7)] /\
  load_calibration_lines (fun l => seq 0 (List.length l)) ex_cat (ex_args (LLStr "my.csv")) =
    Ok [mkLine "He" (fz 5000) (fz 5); mkLine "He" (fz 5200) (fz 7)] /\
  load_calibration_lines (fun l => seq 0 (List.length l)) ex_cat (ex_args (LLStr "other.csv")) = Raise ValueError /\
  load_calibration_lines (fun l => seq 0 (List.length l)) ex_cat (ex_args LLOther) = Raise ValueError.
Proof. exact linelist_argument_example_main. Qed.

Example unknown_linelist_keeps_atlas_example :
  atlas_add (fun l => seq 0 (List.length l)) ex_cat
    (mkAtlas [mkAL (fz 4500) "Ar" (fz 1) None] (fz 3000) (fz 9000) (fz 10))
    (mkAddArgs (ElStr "He") None None (ThNum (fz 0)) (fz 0) true (fz 0) (fz 0) (fz 0) (LLStr "nsit") None) =
  (mkAtlas [mkAL (fz 4500) "Ar" (fz 1) None] (fz 3000) (fz 9000) (fz 10), Raise ValueError).
Proof. exact unknown_linelist_keeps_atlas_example_main. Qed.

(** C132: what load_calibration_lines makes of a file of at least two rows: every
    field is cut to twelve characters; the rows of the requested elements are
    then used as numbers.  Comments, empty lines and rows of other elements,
    whatever they hold, do not matter. *)
Theorem line_list_clipped :
  forall (A : Type) (N : Num A) parse argsort (d : disk) (a : load_args A) text rows n lines,
    names_text d (la_linelist a) text -> file_says text rows ->
    (2 <= List.length rows)%nat -> (3 <= n)%nat -> rows_of_width n rows ->
    rows_hold parse (la_elements a) (map (map (str_take 12)) rows) lines ->
    load_text parse argsort d a = load_calibration_lines argsort (always lines) a.
Proof. exact line_list_clipped_main. Qed.
Print Assumptions line_list_clipped.

(** C132, the part that holds: a file of at least two rows whose fields have at
    most twelve characters is used as it is written. *)
Theorem line_list_as_written_partial :
  forall (A : Type) (N : Num A) parse argsort (d : disk) (a : load_args A) text rows n lines,
    names_text d (la_linelist a) text -> file_says text rows ->
    (2 <= List.length rows)%nat -> (3 <= n)%nat -> rows_of_width n rows ->
    (forall r f, In r rows -> In f r -> (String.length f <= 12)%nat) ->
    rows_hold parse (la_elements a) rows lines ->
    load_text parse argsort d a = load_calibration_lines argsort (always lines) a.
Proof. exact line_list_as_written_partial_main. Qed.
Print Assumptions line_list_as_written_partial.

Example line_list_as_written_example :
  names_text ex_disk (LLStr "my.csv") ex_text /\ file_says ex_text ex_rows /\ rows_of_width 3 ex_rows /\
  rows_hold (A := f64) parse_decimal ["He"] ex_rows
    [mkLine "He" (fd 5875621 (-3)) (fz 500); mkLine "He" (fd 447148 (-2)) (fz 200)] /\
  load_text (A := f64) parse_decimal (fun l => seq 0 (List.length l)) ex_disk (ex_args (LLStr "my.csv")) =
    Ok [mkLine "He" (fd 447148 (-2)) (fz 200); mkLine "He" (fd 5875621 (-3)) (fz 500)].
Proof. exact line_list_as_written_example_main. Qed.

(** C132 fails for every file with a single row: loading it raises IndexError
    whatever is asked for.  And an element whose name is longer than twelve
    characters is never found: the file is used as if it had no row of it. *)
Theorem line_list_as_written_refuted :
  forall (A : Type) (N : Num A) parse argsort (d : disk) (a : load_args A) text,
    names_text d (la_linelist a) text ->
    (forall el w i rest, file_says text [el :: w :: i :: rest] ->
       load_text parse argsort d a = Raise IndexError) /\
    (forall rows n, file_says text rows -> (2 <= List.length rows)%nat -> (3 <= n)%nat ->
       rows_of_width n rows ->
       (forall el, In el (la_elements a) -> (12 < String.length el)%nat) ->
       load_text parse argsort d a = load_calibration_lines argsort (always []) a).
Proof. exact line_list_as_written_refuted_main. Qed.
Print Assumptions line_list_as_written_refuted.

Example line_list_as_written_refuted_example :
  file_says one_text [["He"; "5875.621"; "500"]] /\
  load_text (A := f64) parse_decimal (fun l => seq 0 (List.length l))
    (mkDisk "" (fun _ => Some one_text)) (ex_args (LLStr "my.csv")) = Raise IndexError /\
  file_says long_text [["Hollow cathode"; "5875.621"; "500"]; ["Hollow cathode"; "4471.48"; "200"]] /\
  load_text (A := f64) parse_decimal (fun l => seq 0 (List.length l))
    (mkDisk "" (fun _ => Some long_text))
    (mkLoadArgs ["Hollow cathode"] (fz 3000) (fz 9000) (ThNum (fz 0)) (fz 0) true (fz 0) (fz 0) (fz 0)
       (LLStr "my.csv") None) = Ok [].
Proof. exact line_list_as_written_refuted_example_main. Qed.

(** C132: a file that cannot be used is rejected with ValueError: rows of
    different lengths, or a requested element whose wavelength is not a number. *)
Theorem line_list_rejected :
  forall (A : Type) (N : Num A) parse argsort (d : disk) (a : load_args A) text rows,
    names_text d (la_linelist a) text -> file_says text rows ->
    ((exists r1 r2, In r1 rows /\ In r2 rows /\ List.length r1 <> List.length r2) \/
     (exists n el w rest, (2 <= List.length rows)%nat /\ (2 <= n)%nat /\ rows_of_width n rows /\
        In (el :: w :: rest) rows /\ In (str_take 12 el) (la_elements a) /\ parse (str_take 12 w) = None)) ->
    load_text parse argsort d a = Raise ValueError.
Proof. exact line_list_rejected_main. Qed.
Print Assumptions line_list_rejected.

Example line_list_rejected_example :
  load_text (A := f64) parse_decimal (fun l => seq 0 (List.length l)) ex_disk
    (mkLoadArgs ["Xe"] (fz 3000) (fz 9000) (ThNum (fz 0)) (fz 0) true (fz 0) (fz 0) (fz 0)
       (LLStr "my.csv") None) = Raise ValueError /\
  load_text (A := f64) parse_decimal (fun l => seq 0 (List.length l))
    (mkDisk "" (fun _ => Some ("He,4471.48" ++ nl ++ "He,5875.621,500"))) (ex_args (LLStr "my.csv")) = Raise ValueError.
Proof. exact line_list_rejected_example_main. Qed.

(** C132: a file whose rows have fewer than three fields is never accepted. *)
Theorem line_list_needs_three :
  forall (A : Type) (N : Num A) parse argsort (d : disk) (a : load_args A) text rows n,
    names_text d (la_linelist a) text -> file_says text rows -> rows_of_width n rows -> (n < 3)%nat ->
    exists e, load_text parse argsort d a = Raise e.
Proof. exact line_list_needs_three_main. Qed.
Print Assumptions line_list_needs_three.

(** Elements and wavelengths without intensities. *)
Example line_list_needs_three_example :
  load_text (A := f64) parse_decimal (fun l => seq 0 (List.length l))
    (mkDisk "" (fun _ => Some ("He,4471.48" ++ nl ++ "He,5875.621"))) (ex_args (LLStr "my.csv")) = Raise IndexError.
Proof. exact line_list_needs_three_example_main. Qed.

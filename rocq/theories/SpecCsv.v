(** * SpecCsv: what a line list file says, and which list an argument names. *)

From Coq Require Import ZArith Bool List String Ascii Lia Arith.
From Verif Require Import Num Py Np Util Csv.
Import ListNotations.

(** The character does not occur in the text. *)
Definition free_of (c : ascii) (s : string) : Prop := ~ In c (list_ascii_of_string s).

(** A field: no comma, no '#', no line break. *)
Definition plain (s : string) : Prop :=
  free_of ","%char s /\ free_of "#"%char s /\ free_of newline s.

(** Nothing, or a comment up to the end of the line. *)
Definition remark (s : string) : Prop :=
  s = EmptyString \/ exists c, s = String "#"%char c /\ free_of newline c.

(** The lines of a file and the rows of fields they hold: a line is empty, or a
    comment, or fields with commas between them (and perhaps a comment). *)
Inductive says : list string -> list (list string) -> Prop :=
| says_end : says [] []
| says_remark s ls rows : remark s -> says ls rows -> says (s :: ls) rows
| says_row fields s ls rows :
    Forall plain fields -> String.concat "," fields <> EmptyString -> remark s ->
    says ls rows -> says ((String.concat "," fields ++ s)%string :: ls) (fields :: rows).

(** The text of a file that holds these rows. *)
Definition file_says (text : string) (rows : list (list string)) : Prop :=
  exists ls, text = String.concat (String newline EmptyString) ls /\ says ls rows.

(** All rows have n fields. *)
Definition rows_of_width (n : nat) (rows : list (list string)) : Prop :=
  Forall (fun r => List.length r = n) rows.

(** "nist" in any capitalisation. *)
Definition spells_nist (s : string) : Prop :=
  exists a b c d, s = String a (String b (String c (String d EmptyString))) /\
    (a = "n"%char \/ a = "N"%char) /\ (b = "i"%char \/ b = "I"%char) /\
    (c = "s"%char \/ c = "S"%char) /\ (d = "t"%char \/ d = "T"%char).

(** The text a linelist argument stands for. *)
Definition names_text (d : disk) (a : linelist_arg) (text : string) : Prop :=
  exists s, a = LLStr s /\
    ((spells_nist s /\ text = dk_nist d) \/ (~ spells_nist s /\ dk_file d s = Some text)).

Section Spec.
  Context {A : Type} {N : Num A}.
  Variable parse : string -> option A.

  (** The rows of the requested elements, with their numbers: the first field is
      the element, the second the wavelength, the third the intensity. *)
  Inductive rows_hold (elements : list string) : list (list string) -> list (line A) -> Prop :=
  | rows_end : rows_hold elements [] []
  | rows_other r rows lines :
      (forall el rest, r = el :: rest -> ~ In el elements) ->
      rows_hold elements rows lines -> rows_hold elements (r :: rows) lines
  | rows_line el w i rest v u rows lines :
      In el elements -> parse w = Some v -> parse i = Some u ->
      rows_hold elements rows lines ->
      rows_hold elements ((el :: w :: i :: rest) :: rows) (mkLine el v u :: lines).

  (** A catalogue that gives these lines for every line list. *)
  Definition always (lines : list (line A)) : catalogue A := mkCatalogue lines (fun _ => Some lines).
End Spec.

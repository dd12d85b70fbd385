(** * Main_Csv: which line list an argument names and how its file is read. *)

From Coq Require Import ZArith Bool List String Ascii Lia Arith.
From Verif Require Import Num F64 Py Np NpFacts Util Atlas SpecUtil SpecAtlas LoadFacts Csv SpecCsv CsvFacts.
Import ListNotations.
Local Open Scope string_scope.
Local Open Scope num_scope.

(** C131: "nist" in any capitalisation is the bundled list, any other string is
    the file of that name; nothing else has an influence.  A name without a file
    and an argument that is not a string raise ValueError. *)
Lemma linelist_argument_main :
  forall (A : Type) (N : Num A) argsort (cat : catalogue A) (a : load_args A),
    (forall s, la_linelist a = LLStr s -> spells_nist s ->
       load_calibration_lines argsort cat a = load_calibration_lines argsort (always (cat_nist cat)) a) /\
    (forall s rows, la_linelist a = LLStr s -> ~ spells_nist s -> cat_file cat s = Some rows ->
       load_calibration_lines argsort cat a = load_calibration_lines argsort (always rows) a) /\
    (forall s, la_linelist a = LLStr s -> ~ spells_nist s -> cat_file cat s = None ->
       load_calibration_lines argsort cat a = Raise ValueError) /\
    (la_linelist a = LLOther -> load_calibration_lines argsort cat a = Raise ValueError).
Proof.
  intros A N argsort cat a.
  assert (E : forall cat' : catalogue A, read_linelist cat (la_linelist a) = read_linelist cat' (la_linelist a) ->
     load_calibration_lines argsort cat a = load_calibration_lines argsort cat' a).
  { intros cat' E. unfold load_calibration_lines, load_select. now rewrite E. }
  assert (V : read_linelist cat (la_linelist a) = Raise ValueError ->
     load_calibration_lines argsort cat a = Raise ValueError).
  { intros V. unfold load_calibration_lines, load_select. now rewrite V. }
  split; [|split; [|split]].
  - intros s Hs H. apply E. rewrite Hs. cbn. apply spells_lower in H. now rewrite H.
  - intros s rows Hs H Hr. apply E. rewrite Hs. cbn. apply spells_lower_no in H. now rewrite H, Hr.
  - intros s Hs H Hr. apply V. rewrite Hs. cbn. apply spells_lower_no in H. now rewrite H, Hr.
  - intros Hs. apply V. now rewrite Hs.
Qed.

(** C131, for an atlas: adding lines from a list that does not exist raises
    ValueError and leaves the atlas as it was. *)
Lemma unknown_linelist_keeps_atlas_main :
  forall (A : Type) (N : Num A) argsort (cat : catalogue A) (s : atlas A) (a : add_args A),
    (aa_linelist a = LLOther \/
     exists name, aa_linelist a = LLStr name /\ ~ spells_nist name /\ cat_file cat name = None) ->
    elements_of (aa_elements a) <> [] ->
    atlas_add argsort cat s a = (s, Raise ValueError).
Proof.
  intros A N argsort cat s a H He. unfold atlas_add.
  destruct (negb (nisfinite _)); [reflexivity|]. destruct (negb (nisfinite _)); [reflexivity|].
  destruct (elements_of (aa_elements a)) as [|e es]; [congruence|]. cbn [add_loop].
  match goal with |- context [load_calibration_lines argsort cat ?b] =>
    destruct (linelist_argument_main A N argsort cat b) as (_ & _ & H3 & H4) end.
  destruct H as [H|(name & H1 & H2 & E)].
  - rewrite H4 by exact H. now destruct s.
  - rewrite (H3 name H1 H2 E). now destruct s.
Qed.

Definition ex_list (w : Z) : list (line f64) :=
  [mkLine "He" (fz w) (fz 5); mkLine "Xe" (fz (w + 100)) (fz 2); mkLine "He" (fz (w + 200)) (fz 7)].
Definition ex_cat : catalogue f64 :=
  mkCatalogue (ex_list 4000) (fun s => if String.eqb s "my.csv" then Some (ex_list 5000) else None).
Definition ex_args (ll : linelist_arg) : load_args f64 :=
  mkLoadArgs ["He"] (fz 3000) (fz 9000) (ThNum (fz 0)) (fz 0) true (fz 0) (fz 0) (fz 0) ll None.

Example linelist_argument_example_main :
  spells_nist "NisT" /\ ~ spells_nist "my.csv" /\
  load_calibration_lines (fun l => seq 0 (List.length l)) ex_cat (ex_args (LLStr "NisT")) =
    Ok [mkLine "He" (fz 4000) (fz 5); mkLine "He" (fz 4200) (fz 7)] /\
  load_calibration_lines (fun l => seq 0 (List.length l)) ex_cat (ex_args (LLStr "my.csv")) =
    Ok [mkLine "He" (fz 5000) (fz 5); mkLine "He" (fz 5200) (fz 7)] /\
  load_calibration_lines (fun l => seq 0 (List.length l)) ex_cat (ex_args (LLStr "other.csv")) = Raise ValueError /\
  load_calibration_lines (fun l => seq 0 (List.length l)) ex_cat (ex_args LLOther) = Raise ValueError.
Proof.
  split; [apply spells_lower; reflexivity|]. split; [apply spells_lower_no; reflexivity|].
  split; [vm_compute; reflexivity|]. split; [vm_compute; reflexivity|].
  split; vm_compute; reflexivity.
Qed.

Example unknown_linelist_keeps_atlas_example_main :
  atlas_add (fun l => seq 0 (List.length l)) ex_cat
    (mkAtlas [mkAL (fz 4500) "Ar" (fz 1) None] (fz 3000) (fz 9000) (fz 10))
    (mkAddArgs (ElStr "He") None None (ThNum (fz 0)) (fz 0) true (fz 0) (fz 0) (fz 0) (LLStr "nsit") None) =
  (mkAtlas [mkAL (fz 4500) "Ar" (fz 1) None] (fz 3000) (fz 9000) (fz 10), Raise ValueError).
Proof. vm_compute. reflexivity. Qed.

(** C132: what load_calibration_lines makes of a file of at least two rows: every
    field is cut to twelve characters; the rows of the requested elements are
    then used as numbers.  Comments, empty lines and rows of other elements,
    whatever they hold, do not matter. *)
Lemma line_list_clipped_main :
  forall (A : Type) (N : Num A) parse argsort (d : disk) (a : load_args A) text rows n lines,
    names_text d (la_linelist a) text -> file_says text rows ->
    (2 <= List.length rows)%nat -> (3 <= n)%nat -> rows_of_width n rows ->
    rows_hold parse (la_elements a) (map (map (str_take 12)) rows) lines ->
    load_text parse argsort d a = load_calibration_lines argsort (always lines) a.
Proof.
  intros A N parse argsort d a text rows n lines Hn Hs Hl Hc Hw Hh.
  unfold load_text, load_calibration_lines.
  now rewrite (text_select_stands parse d a text rows n lines Hn Hs Hl Hc Hw Hh).
Qed.

(** C132, the part that holds: a file of at least two rows whose fields have at
    most twelve characters is used as it is written. *)
Lemma line_list_as_written_partial_main :
  forall (A : Type) (N : Num A) parse argsort (d : disk) (a : load_args A) text rows n lines,
    names_text d (la_linelist a) text -> file_says text rows ->
    (2 <= List.length rows)%nat -> (3 <= n)%nat -> rows_of_width n rows ->
    (forall r f, In r rows -> In f r -> (String.length f <= 12)%nat) ->
    rows_hold parse (la_elements a) rows lines ->
    load_text parse argsort d a = load_calibration_lines argsort (always lines) a.
Proof.
  intros A N parse argsort d a text rows n lines Hn Hs Hl Hc Hw Hf Hh.
  eapply line_list_clipped_main; eauto.
  replace (map (map (str_take 12)) rows) with rows; [exact Hh|].
  clear - Hf. induction rows as [|r rows IH]; [reflexivity|]. cbn [map]. f_equal.
  - assert (K : forall f, In f r -> (String.length f <= 12)%nat) by (intros f Hr; apply (Hf r f); [left|]; auto).
    clear - K. induction r as [|f r IH]; [reflexivity|]. cbn [map]. f_equal.
    + symmetry. apply take_short, K. left. reflexivity.
    + apply IH. intros g Hg. apply K. right. exact Hg.
  - apply IH. intros r' f Hr. apply Hf. right. exact Hr.
Qed.

Definition nl : string := String newline EmptyString.
Definition ex_text : string :=
  "#Element, Wavelength, Intensity" ++ nl ++ "Element,Wavelength,Intensity" ++ nl ++
  "He,5875.621,500" ++ nl ++ nl ++ "Xe,?,?" ++ nl ++ "He,4471.48,200#weak" ++ nl.
Definition ex_rows : list (list string) :=
  [["Element"; "Wavelength"; "Intensity"]; ["He"; "5875.621"; "500"]; ["Xe"; "?"; "?"];
   ["He"; "4471.48"; "200"]].
Definition ex_disk : disk := mkDisk "" (fun s => if String.eqb s "my.csv" then Some ex_text else None).

Ltac not_in := unfold free_of; cbn; intuition discriminate.

Example line_list_as_written_example_main :
  names_text ex_disk (LLStr "my.csv") ex_text /\ file_says ex_text ex_rows /\ rows_of_width 3 ex_rows /\
  rows_hold (A := f64) parse_decimal ["He"] ex_rows
    [mkLine "He" (fd 5875621 (-3)) (fz 500); mkLine "He" (fd 447148 (-2)) (fz 200)] /\
  load_text (A := f64) parse_decimal (fun l => seq 0 (List.length l)) ex_disk (ex_args (LLStr "my.csv")) =
    Ok [mkLine "He" (fd 447148 (-2)) (fz 200); mkLine "He" (fd 5875621 (-3)) (fz 500)].
Proof.
  split; [exists "my.csv"; split; [reflexivity|right; split; [apply spells_lower_no; reflexivity|reflexivity]]|].
  split.
  { exists ["#Element, Wavelength, Intensity"; "Element,Wavelength,Intensity"; "He,5875.621,500"; "";
            "Xe,?,?"; "He,4471.48,200#weak"; ""]. split; [reflexivity|].
    apply says_remark; [right; eexists; split; [reflexivity|not_in]|].
    apply (says_row ["Element"; "Wavelength"; "Intensity"] ""); [repeat constructor; not_in|discriminate|left; reflexivity|].
    apply (says_row ["He"; "5875.621"; "500"] ""); [repeat constructor; not_in|discriminate|left; reflexivity|].
    apply says_remark; [left; reflexivity|].
    apply (says_row ["Xe"; "?"; "?"] ""); [repeat constructor; not_in|discriminate|left; reflexivity|].
    apply (says_row ["He"; "4471.48"; "200"] "#weak"); [repeat constructor; not_in|discriminate|right; eexists; split; [reflexivity|not_in]|].
    apply says_remark; [left; reflexivity|]. constructor. }
  split; [repeat constructor|]. split.
  - apply rows_other; [intros el rest [= <- _]; cbn; intuition discriminate|].
    apply rows_line; [left; reflexivity|reflexivity|reflexivity|].
    apply rows_other; [intros el rest [= <- _]; cbn; intuition discriminate|].
    apply rows_line; [left; reflexivity|reflexivity|reflexivity|]. constructor.
  - vm_compute. reflexivity.
Qed.

(** C132 fails for every file with a single row: loading it raises IndexError
    whatever is asked for.  And an element whose name is longer than twelve
    characters is never found: the file is used as if it had no row of it. *)
Lemma line_list_as_written_refuted_main :
  forall (A : Type) (N : Num A) parse argsort (d : disk) (a : load_args A) text,
    names_text d (la_linelist a) text ->
    (forall el w i rest, file_says text [el :: w :: i :: rest] ->
       load_text parse argsort d a = Raise IndexError) /\
    (forall rows n, file_says text rows -> (2 <= List.length rows)%nat -> (3 <= n)%nat ->
       rows_of_width n rows ->
       (forall el, In el (la_elements a) -> (12 < String.length el)%nat) ->
       load_text parse argsort d a = load_calibration_lines argsort (always []) a).
Proof.
  intros A N parse argsort d a text Hn. split.
  - intros el w i rest Hs. unfold load_text, text_select. rewrite (names_read _ _ _ Hn). cbn [bind].
    rewrite (loadtxt_even _ _ (List.length (el :: w :: i :: rest)) Hs) by (repeat constructor).
    cbn [bind map columns List.length]. reflexivity.
  - intros rows n Hs Hl Hc Hw Hlong. eapply line_list_clipped_main; eauto.
    clear - Hlong. induction rows as [|r rows IH]; cbn [map]; constructor; auto.
    intros el rest E Hin. apply Hlong in Hin. destruct r as [|f r]; [discriminate|].
    change (str_take 12 f :: map (str_take 12) r = el :: rest) in E.
    pose proof (take_length 12 f) as L. revert E L. generalize (str_take 12 f). intros g E L.
    injection E as -> _. lia.
Qed.

Definition one_text : string := "He,5875.621,500" ++ nl.
Definition long_text : string :=
  "Hollow cathode,5875.621,500" ++ nl ++ "Hollow cathode,4471.48,200" ++ nl.

Example line_list_as_written_refuted_example_main :
  file_says one_text [["He"; "5875.621"; "500"]] /\
  load_text (A := f64) parse_decimal (fun l => seq 0 (List.length l))
    (mkDisk "" (fun _ => Some one_text)) (ex_args (LLStr "my.csv")) = Raise IndexError /\
  file_says long_text [["Hollow cathode"; "5875.621"; "500"]; ["Hollow cathode"; "4471.48"; "200"]] /\
  load_text (A := f64) parse_decimal (fun l => seq 0 (List.length l))
    (mkDisk "" (fun _ => Some long_text))
    (mkLoadArgs ["Hollow cathode"] (fz 3000) (fz 9000) (ThNum (fz 0)) (fz 0) true (fz 0) (fz 0) (fz 0)
       (LLStr "my.csv") None) = Ok [].
Proof.
  split.
  { exists ["He,5875.621,500"; ""]. split; [reflexivity|].
    apply (says_row ["He"; "5875.621"; "500"] ""); [repeat constructor; not_in|discriminate|left; reflexivity|].
    apply says_remark; [left; reflexivity|]. constructor. }
  split; [vm_compute; reflexivity|]. split; [|vm_compute; reflexivity].
  exists ["Hollow cathode,5875.621,500"; "Hollow cathode,4471.48,200"; ""]. split; [reflexivity|].
  apply (says_row ["Hollow cathode"; "5875.621"; "500"] ""); [repeat constructor; not_in|discriminate|left; reflexivity|].
  apply (says_row ["Hollow cathode"; "4471.48"; "200"] ""); [repeat constructor; not_in|discriminate|left; reflexivity|].
  apply says_remark; [left; reflexivity|]. constructor.
Qed.

(** C132: a file that cannot be used is rejected with ValueError: rows of
    different lengths, or a requested element whose wavelength is not a number. *)
Lemma line_list_rejected_main :
  forall (A : Type) (N : Num A) parse argsort (d : disk) (a : load_args A) text rows,
    names_text d (la_linelist a) text -> file_says text rows ->
    ((exists r1 r2, In r1 rows /\ In r2 rows /\ List.length r1 <> List.length r2) \/
     (exists n el w rest, (2 <= List.length rows)%nat /\ (2 <= n)%nat /\ rows_of_width n rows /\
        In (el :: w :: rest) rows /\ In (str_take 12 el) (la_elements a) /\ parse (str_take 12 w) = None)) ->
    load_text parse argsort d a = Raise ValueError.
Proof.
  intros A N parse argsort d a text rows Hn Hs H. unfold load_text, text_select.
  rewrite (names_read _ _ _ Hn). cbn [bind].
  destruct H as [(r1 & r2 & H1 & H2 & H3)|(n & el & w & rest & Hl & Hn2 & Hw & Hin & Hel & Hp)].
  - rewrite (loadtxt_body _ _ Hs). destruct rows as [|r0 rows]; [destruct H1|].
    replace (forallb _ _) with false; [reflexivity|]. symmetry.
    destruct (forallb _ (r0 :: rows)) eqn:E; [|reflexivity]. exfalso. apply H3.
    rewrite forallb_forall in E. transitivity (List.length r0).
    + apply Nat.eqb_eq, E, H1.
    + symmetry. apply Nat.eqb_eq, E, H2.
  - rewrite (loadtxt_even _ _ _ Hs Hw). cbn [bind]. rewrite map_length.
    assert (C : columns (map (map (str_take 12)) rows) = n).
    { destruct rows as [|r0 rows]; [cbn in Hl; lia|]. cbn [map columns]. rewrite map_length.
      inversion Hw; subst; auto. }
    rewrite C.
    replace (Nat.eqb (List.length rows) 1) with false by (symmetry; apply Nat.eqb_neq; lia).
    replace (Nat.leb (List.length rows) 1) with false by (symmetry; apply Nat.leb_gt; lia).
    replace (Nat.leb n 1) with false by (symmetry; apply Nat.leb_gt; lia). cbn [andb orb].
    destruct (load_limits a) as [lo hi]. unfold text_wavelengths.
    replace (float_column parse 1 _) with (@Raise (list A) ValueError); [reflexivity|]. symmetry.
    unfold rows_of_width in Hw. clear - Hn2 Hw Hin Hel Hp.
    induction rows as [|r rows IH]; [destruct Hin|]. inversion Hw as [|? ? Hw1 Hw2]; subst. cbn [map filter].
    destruct Hin as [->|Hin].
    + cbn [map asked]. replace (str_in _ _) with true.
      2:{ symmetry. unfold str_in. apply existsb_exists. exists (str_take 12 el). split; [auto|apply String.eqb_refl]. }
      cbn [float_column field nth_error bind]. unfold to_float. now rewrite Hp.
    + specialize (IH Hw2 Hin). destruct (asked _ _); [|exact IH].
      destruct r as [|f0 [|f1 r]]; [cbn in Hn2; lia|cbn in Hn2; lia|].
      cbn [map float_column field nth_error bind]. unfold to_float.
      destruct (parse (str_take 12 f1)); cbn [bind]; [|reflexivity]. now rewrite IH.
Qed.

Example line_list_rejected_example_main :
  load_text (A := f64) parse_decimal (fun l => seq 0 (List.length l)) ex_disk
    (mkLoadArgs ["Xe"] (fz 3000) (fz 9000) (ThNum (fz 0)) (fz 0) true (fz 0) (fz 0) (fz 0)
       (LLStr "my.csv") None) = Raise ValueError /\
  load_text (A := f64) parse_decimal (fun l => seq 0 (List.length l))
    (mkDisk "" (fun _ => Some ("He,4471.48" ++ nl ++ "He,5875.621,500"))) (ex_args (LLStr "my.csv")) = Raise ValueError.
Proof. split; vm_compute; reflexivity. Qed.

(** C132: a file whose rows have fewer than three fields is never accepted. *)
Lemma line_list_needs_three_main :
  forall (A : Type) (N : Num A) parse argsort (d : disk) (a : load_args A) text rows n,
    names_text d (la_linelist a) text -> file_says text rows -> rows_of_width n rows -> (n < 3)%nat ->
    exists e, load_text parse argsort d a = Raise e.
Proof.
  intros A N parse argsort d a text rows n Hn Hs Hw H3. unfold load_text, text_select.
  rewrite (names_read _ _ _ Hn). cbn [bind]. rewrite (loadtxt_even _ _ _ Hs Hw). cbn [bind].
  match goal with |- context[if ?b then Raise TypeError else _] => destruct b end; [cbn; eauto|].
  match goal with |- context[if ?b then Raise IndexError else _] => destruct b end; [cbn; eauto|].
  destruct (load_limits a) as [lo hi].
  match goal with |- context[text_wavelengths ?p ?r ?l ?h] => destruct (text_wavelengths p r l h) as [rows2|] end;
    cbn [bind]; [|eauto].
  match goal with |- context[text_intensity_mask ?p ?r ?l ?h] => destruct (text_intensity_mask p r l h) end;
    cbn [bind]; [|eauto].
  assert (C : (columns (map (map (str_take 12)) rows) <= 2)%nat).
  { destruct rows as [|r0 rows]; [cbn; lia|]. cbn [map columns]. rewrite map_length. inversion Hw; subst; lia. }
  apply Nat.leb_le in C. rewrite C. cbn. eauto.
Qed.

(** Elements and wavelengths without intensities. *)
Example line_list_needs_three_example_main :
  load_text (A := f64) parse_decimal (fun l => seq 0 (List.length l))
    (mkDisk "" (fun _ => Some ("He,4471.48" ++ nl ++ "He,5875.621"))) (ex_args (LLStr "my.csv")) = Raise IndexError.
Proof. vm_compute. reflexivity. Qed.

(** * Props_Load: property theorems only.  The proofs are in Main_Load.v. *)

From Coq Require Import ZArith Bool List String Lia Sorted Permutation.
From Verif Require Import Num F64 Py Np NpFacts ArgsortFacts Util SpecUtil UtilFacts LoadFacts Main_Util RansacFacts.
From Verif Require Import Main_Load.
Import ListNotations.
Local Open Scope string_scope.
Local Open Scope num_scope.

(** C102: the order in which elements are given, and repetitions, do not matter. *)
Theorem load_elements_order :
  forall (A : Type) (N : Num A) argsort (cat : catalogue A) (a : load_args A) els,
    (forall e, In e els <-> In e (la_elements a)) ->
    (match la_min_intensity a with ThList _ => False | _ => True end) ->
    load_calibration_lines argsort cat
      (mkLoadArgs els (la_min_wl a) (la_max_wl a) (la_min_intensity a) (la_min_distance a) (la_vacuum a) (la_pressure a)
         (la_temperature a) (la_rh a) (la_linelist a) (la_brightest_n a)) =
    load_calibration_lines argsort cat a.
Proof. exact load_elements_order_main. Qed.
Print Assumptions load_elements_order.

Example load_elements_order_example :
  let a := ex_args ["He"; "Xe"] (ThNum (fz 2)) (fz 5) None in
  (forall e, In e ["Xe"; "He"; "Xe"]%string <-> In e (la_elements a)) /\
  load_calibration_lines argsort_stable (ex_cat ex_lines) (ex_args ["Xe"; "He"; "Xe"] (ThNum (fz 2)) (fz 5) None)
  = Ok [mkLine "Xe" (fz 10) (fz 2); mkLine "He" (fz 30) (fz 5)].
Proof. exact load_elements_order_example_main. Qed.

(** C102 with a list of thresholds: elements and thresholds may be permuted together. *)
Theorem load_elements_permuted :
  forall (A : Type) (N : Num A) argsort (cat : catalogue A) (a : load_args A) l els l',
    la_min_intensity a = ThList l -> NoDup (la_elements a) ->
    List.length l = List.length (la_elements a) -> List.length l' = List.length els ->
    Permutation (combine els l') (combine (la_elements a) l) ->
    load_calibration_lines argsort cat
      (mkLoadArgs els (la_min_wl a) (la_max_wl a) (ThList l') (la_min_distance a) (la_vacuum a) (la_pressure a)
         (la_temperature a) (la_rh a) (la_linelist a) (la_brightest_n a)) =
    load_calibration_lines argsort cat a.
Proof. exact load_elements_permuted_main. Qed.
Print Assumptions load_elements_permuted.

Example load_elements_permuted_example :
  NoDup ["He"; "Xe"]%string /\
  Permutation (combine ["Xe"; "He"]%string [fz 2; fz 5]) (combine ["He"; "Xe"]%string [fz 5; fz 2]) /\
  load_calibration_lines argsort_stable (ex_cat ex_lines) (ex_args ["Xe"; "He"] (ThList [fz 2; fz 5]) (fz 0) None) =
  Ok [mkLine "Xe" (fz 10) (fz 2); mkLine "He" (fz 30) (fz 5)].
Proof. exact load_elements_permuted_example_main. Qed.

(** C103: without brightest_n_lines, narrowing the range (in vacuum) or raising the
    threshold of a call without min_distance only leaves lines out. *)
Theorem load_narrower :
  forall (A : Type) (N : Num A) (O : NumOrder A) argsort (cat : catalogue A) (a a' : load_args A) t t' out out',
    same_source a a' -> la_elements a' = la_elements a ->
    la_brightest_n a = None -> la_brightest_n a' = None ->
    nZ 0 <' la_min_distance a = false ->
    ((la_min_wl a' = la_min_wl a /\ la_max_wl a' = la_max_wl a) \/
     (la_vacuum a = true /\ la_min_wl a <=' la_min_wl a' = true /\ la_max_wl a' <=' la_max_wl a = true)) ->
    la_min_intensity a = ThNum t -> la_min_intensity a' = ThNum t' -> t <=' t' = true ->
    load_calibration_lines argsort cat a = Ok out ->
    load_calibration_lines argsort cat a' = Ok out' ->
    subseq out' out.
Proof. exact load_narrower_main. Qed.
Print Assumptions load_narrower.

(** C103: raising min_distance only leaves lines out. *)
Theorem load_distance_monotone :
  forall (A : Type) (N : Num A) (O : NumOrder A) argsort (cat : catalogue A) (a : load_args A) d' out out',
    la_min_distance a <=' d' = true ->
    load_calibration_lines argsort cat a = Ok out ->
    load_calibration_lines argsort cat
      (mkLoadArgs (la_elements a) (la_min_wl a) (la_max_wl a) (la_min_intensity a) d' (la_vacuum a) (la_pressure a)
         (la_temperature a) (la_rh a) (la_linelist a) (la_brightest_n a)) = Ok out' ->
    subseq out' out.
Proof. exact load_distance_monotone_main. Qed.
Print Assumptions load_distance_monotone.

(** Non-vacuity of C103. *)
Example load_monotone_example :
  let load t d := load_calibration_lines argsort_stable (ex_cat ex_lines) (ex_args ["He"; "Xe"] (ThNum (fz t)) (fz d) None) in
  load 1%Z 0%Z = Ok [mkLine "Xe" (fz 10) (fz 2); mkLine "He" (fz 30) (fz 5); mkLine "Xe" (fz 70) (fz 1)] /\
  load 2%Z 0%Z = Ok [mkLine "Xe" (fz 10) (fz 2); mkLine "He" (fz 30) (fz 5)] /\
  load 1%Z 30%Z = Ok [mkLine "Xe" (fz 70) (fz 1)].
Proof. exact load_monotone_example_main. Qed.

(** C104 fails with min_distance: raising the threshold from 1 to 5 brings in a line,
    because its faint neighbour is no longer there. *)
Theorem load_intensity_monotone_refuted :
  let lines := [mkLine "Xe" (fz 100) (fz 10); mkLine "Xe" (fz 101) (fz 1); mkLine "Xe" (fz 120) (fz 10)] in
  let load t := load_calibration_lines argsort_stable (ex_cat lines) (ex_args ["Xe"] (ThNum (fz t)) (fz 5) None) in
  load 1%Z = Ok [mkLine "Xe" (fz 120) (fz 10)] /\
  load 5%Z = Ok [mkLine "Xe" (fz 100) (fz 10); mkLine "Xe" (fz 120) (fz 10)].
Proof. exact load_intensity_monotone_refuted_main. Qed.
Print Assumptions load_intensity_monotone_refuted.

(** * Main_Delim: the delimiter between the formats (C154). *)

From Coq Require Import ZArith Bool List String Ascii Lia.
From Verif Require Import Num F64 Py Np Util Atlas Hough Calib Delim.
Import ListNotations.
Local Open Scope string_scope.

(** A text without the character c. *)
Fixpoint lacks (c : ascii) (s : string) : Prop :=
  match s with EmptyString => True | String d r => d <> c /\ lacks c r end.

Lemma cut_plus s : cut_at "+" 0 s = split_plus s.
Proof.
  induction s as [|c r IH]; [reflexivity|]. cbn [cut_at split_plus String.length Nat.sub]. rewrite IH.
  cbn [prefix]. destruct (ascii_dec "+" c) as [<-|H].
  - rewrite Ascii.eqb_refl. destruct r; reflexivity.
  - destruct (Ascii.eqb_spec c "+") as [->|_]; [congruence|reflexivity].
Qed.

Lemma cut_skip sep u s : cut_at sep (String.length u) (u ++ s) = cut_at sep 0 s.
Proof. induction u as [|c u IH]; [reflexivity|]. exact IH. Qed.

Lemma prefix_self u s : prefix u (u ++ s) = true.
Proof. induction u as [|c u IH]; [destruct s; reflexivity|]. cbn. destruct (ascii_dec c c); congruence. Qed.

Lemma str_nil_r s : s ++ "" = s.
Proof. induction s; cbn; congruence. Qed.

Lemma cut_head d u n rest :
  lacks d n ->
  cut_at (String d u) 0 (n ++ rest) =
    match cut_at (String d u) 0 rest with [] => [n] | h :: t => (n ++ h) :: t end.
Proof.
  assert (NE : forall k s, cut_at (String d u) k s <> []).
  { intros k s. revert k. induction s as [|c r IH]; intros k; [discriminate|]. cbn [cut_at]. destruct k; [|apply IH].
    destruct (prefix _ _); [discriminate|]. destruct (cut_at (String d u) 0 r); discriminate. }
  induction n as [|c n IH]; intros H.
  - cbn [append]. specialize (NE 0%nat rest). destruct (cut_at _ 0 rest); [congruence|reflexivity].
  - destruct H as [H1 H2]. cbn [append cut_at]. cbn [prefix]. destruct (ascii_dec d c); [congruence|].
    rewrite (IH H2). destruct (cut_at _ 0 rest); reflexivity.
Qed.

Lemma cut_join d u names :
  names <> [] -> Forall (lacks d) names -> cut_at (String d u) 0 (String.concat (String d u) names) = names.
Proof.
  induction names as [|n r IH]; intros Hn Hf; [congruence|]. inversion Hf as [|? ? H1 H2]; subst.
  destruct r as [|m r].
  - cbn [String.concat]. rewrite <- (str_nil_r n) at 1. rewrite cut_head by exact H1. cbn [cut_at]. rewrite str_nil_r. reflexivity.
  - change (String.concat (String d u) (n :: m :: r)) with (n ++ (String d u ++ String.concat (String d u) (m :: r))).
    rewrite cut_head by exact H1.
    assert (E : cut_at (String d u) 0 (String d u ++ String.concat (String d u) (m :: r)) =
                "" :: cut_at (String d u) 0 (String.concat (String d u) (m :: r))).
    { pose proof (prefix_self (String d u) (String.concat (String d u) (m :: r))) as P.
      set (rest := String.concat (String d u) (m :: r)) in *. change (String d u ++ rest) with (String d (u ++ rest)) in *.
      cbn [cut_at]. rewrite P. f_equal. cbn [String.length]. replace (S (String.length u) - 1)%nat with (String.length u) by lia. apply cut_skip. }
    rewrite E, IH; [|discriminate|exact H2]. cbn. rewrite str_nil_r. reflexivity.
Qed.

(** C154: "+" is the default.  With any other delimiter the call does what the formats
    joined by "+" do, provided the first character of the delimiter is in none of the
    names; with an empty delimiter it raises ValueError and writes nothing. *)
Lemma save_delimiter_partial_main :
  forall (A : Type) (N : Num A) (h : hough A) fs filename to_disk,
    (forall fileformat, hough_save_with "+" h fs filename fileformat to_disk = hough_save h fs filename fileformat to_disk) /\
    (forall fileformat, hough_save_with "" h fs filename fileformat to_disk = (fs, Raise ValueError)) /\
    (forall d u names, names <> [] -> Forall (lacks d) names -> Forall (lacks "+") names ->
       hough_save_with (String d u) h fs filename (String.concat (String d u) names) to_disk =
       hough_save h fs filename (String.concat "+" names) to_disk).
Proof.
  intros A N h fs filename to_disk.
  assert (E : forall f, hough_save_with "+" h fs filename f to_disk = hough_save h fs filename f to_disk).
  { intros f. unfold hough_save_with, py_split. rewrite cut_plus. reflexivity. }
  split; [exact E|]. split; [reflexivity|].
  intros d u names Hn H1 H2. rewrite <- E. unfold hough_save_with, py_split.
  rewrite !cut_join by assumption. reflexivity.
Qed.

(** C154: the same for a Calibrator, which also passes the delimiter on. *)
Lemma calibrator_delimiter_main :
  forall (A : Type) (N : Num A) (c : calib A) fs filename to_disk,
    (forall fileformat, save_hough_transform_with "+" c fs filename fileformat to_disk = save_hough_transform c fs filename fileformat to_disk) /\
    (forall d u names, names <> [] -> Forall (lacks d) names -> Forall (lacks "+") names ->
       save_hough_transform_with (String d u) c fs filename (String.concat (String d u) names) to_disk =
       save_hough_transform c fs filename (String.concat "+" names) to_disk).
Proof.
  intros A N c fs filename to_disk. destruct (save_delimiter_partial_main A N (c_ht c) fs filename to_disk) as (E1 & _ & E3).
  unfold save_hough_transform_with, save_hough_transform. split.
  - intros f. rewrite E1. reflexivity.
  - intros d u names H1 H2 H3. rewrite E3 by assumption. reflexivity.
Qed.

(** C154 fails for a delimiter that occurs in the names: with "n" the formats "npy" and
    "json" are cut to pieces, nothing is written and nothing is raised. *)
Lemma save_delimiter_refuted_main :
  forall (A : Type) (N : Num A) (h : hough A) fs filename to_disk,
    hough_save_with "n" h fs filename (String.concat "n" ["npy"; "json"]) to_disk = (fs, Ok SvNone).
Proof. intros A N h fs filename to_disk. destruct to_disk; reflexivity. Qed.

Example save_delimiter_example_main :
  String.concat ", " ["npy"; "json"] = "npy, json" /\
  Forall (lacks ",") ["npy"; "json"] /\ Forall (lacks "+") ["npy"; "json"] /\
  py_split ", " "npy, json" = Ok ["npy"; "json"] /\ py_split "," "npy, json" = Ok ["npy"; " json"] /\
  py_split "ab" "xabaabb" = Ok ["x"; "a"; "b"].
Proof. repeat split; repeat constructor; discriminate. Qed.

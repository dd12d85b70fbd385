(** * Props_Symbol: property theorems only.  The proofs are in Main_Symbol.v. *)

From Coq Require Import ZArith String Ascii List Bool Arith Lia.
From Verif Require Import Num F64 XReal Py Np Util Models Atlas RansacFacts.
From Verif Require Import Main_Symbol.
Import ListNotations.
Local Open Scope string_scope.
Local Open Scope list_scope.
Local Open Scope num_scope.

(** C82 fails for every wavelength given as a number, and for every symbol that has not
    exactly one character: the call raises and the atlas stays as it was. *)
Theorem add_symbol_refuted :
  forall (A : Type) (N : Num A) (s : atlas A) name (u : user_args A),
    ua_elements u = UElStr name ->
    (ua_wavelengths u = SeqBad -> add_user_atlas s u = (s, Raise TypeError)) /\
    (forall w, ua_wavelengths u = SeqList [w] -> String.length name <> 1%nat ->
       ua_intensities u <> Some SeqBad ->
       add_user_atlas s u = (s, Raise AssertionError)).
Proof. exact add_symbol_refuted_main. Qed.
Print Assumptions add_symbol_refuted.

(** What a str of elements means: one label per character.  A successful call adds as
    many lines as the str has characters, each labelled with one of them, in order, and
    needs as many wavelengths. *)
Theorem add_symbol_partial :
  forall (A : Type) (N : Num A) (s s' : atlas A) name (u : user_args A) ws,
    ua_elements u = UElStr name -> ua_wavelengths u = SeqList ws ->
    add_user_atlas s u = (s', Ok tt) ->
    exists new, at_lines s' = at_lines s ++ new /\
      List.length new = String.length name /\ List.length ws = String.length name /\
      forall k c, String.get k name = Some c ->
        exists l, nth_error new k = Some l /\ al_el l = String c EmptyString /\ al_src l = None /\
          (ua_vacuum u = false -> nth_error ws k = Some (al_wl l)).
Proof. exact add_symbol_partial_main. Qed.
Print Assumptions add_symbol_partial.

(** 'Hg' with two wavelengths. *)
Example add_symbol_example :
  let s := mkAtlas [] (fz 3000) (fz 5000) (fz 500) in
  let u := mkUserArgs (UElStr "Hg") (SeqList [fz 4358; fz 5461]) None false (fz 101325) (fz 293) (fz 0) in
  snd (add_user_atlas s u) = Ok tt /\
  get_elements (fst (add_user_atlas s u)) = ["H"; "g"] /\
  snd (add_user_atlas s (mkUserArgs (UElStr "Hg") (SeqList [fz 4358]) None false (fz 101325) (fz 293) (fz 0))) = Raise AssertionError.
Proof. exact add_symbol_example_main. Qed.

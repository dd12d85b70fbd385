(** * Main_Symbol: add_user_atlas with a str of elements or a bare number (C82). *)
From Coq Require Import ZArith String Ascii List Bool Arith Lia.
From Verif Require Import Num F64 XReal Py Np Util Models Atlas RansacFacts.
Import ListNotations.
Local Open Scope string_scope.
Local Open Scope list_scope.
Local Open Scope num_scope.

Lemma str_chars_length s : List.length (str_chars s) = String.length s.
Proof. induction s; cbn; auto. Qed.

(** C82 fails for every wavelength given as a number, and for every symbol that has not
    exactly one character: the call raises and the atlas stays as it was. *)
Lemma add_symbol_refuted_main :
  forall (A : Type) (N : Num A) (s : atlas A) name (u : user_args A),
    ua_elements u = UElStr name ->
    (ua_wavelengths u = SeqBad -> add_user_atlas s u = (s, Raise TypeError)) /\
    (forall w, ua_wavelengths u = SeqList [w] -> String.length name <> 1%nat ->
       ua_intensities u <> Some SeqBad ->
       add_user_atlas s u = (s, Raise AssertionError)).
Proof.
  intros A N s name u He. unfold add_user_atlas. rewrite He. cbn [user_elements_list]. split.
  - intros ->. reflexivity.
  - intros w -> Hn Hi. cbn [seq_list List.length].
    replace (Nat.eqb (List.length (str_chars name)) 1) with false
      by (symmetry; apply Nat.eqb_neq; rewrite str_chars_length; exact Hn).
    destruct (ua_intensities u) as [[l|]|]; [reflexivity|contradiction|reflexivity].
Qed.

(** What a str of elements means: one label per character.  A successful call adds as
    many lines as the str has characters, each labelled with one of them, in order, and
    needs as many wavelengths. *)
Lemma add_symbol_partial_main :
  forall (A : Type) (N : Num A) (s s' : atlas A) name (u : user_args A) ws,
    ua_elements u = UElStr name -> ua_wavelengths u = SeqList ws ->
    add_user_atlas s u = (s', Ok tt) ->
    exists new, at_lines s' = at_lines s ++ new /\
      List.length new = String.length name /\ List.length ws = String.length name /\
      forall k c, String.get k name = Some c ->
        exists l, nth_error new k = Some l /\ al_el l = String c EmptyString /\ al_src l = None /\
          (ua_vacuum u = false -> nth_error ws k = Some (al_wl l)).
Proof.
  intros A N s s' name u ws He Hw H. unfold add_user_atlas in H. rewrite He, Hw in H. cbn [user_elements_list seq_list] in H.
  destruct (match ua_intensities u with None => Ok (map (fun _ => nZ 0) ws) | Some a => seq_list a end) as [ints|e]; [|discriminate].
  destruct (Nat.eqb_spec (List.length (str_chars name)) (List.length ws)) as [E1|E1]; cbn [negb] in H; [|discriminate].
  destruct (Nat.eqb_spec (List.length (str_chars name)) (List.length ints)) as [E2|E2]; cbn [negb] in H; [|discriminate].
  set (wls := if ua_vacuum u then vacuum_to_air ws (ua_temperature u) (ua_pressure u) (ua_rh u) else ws) in H.
  assert (L : List.length wls = List.length ws) by (unfold wls, vacuum_to_air; destruct (ua_vacuum u); [rewrite map_length|]; reflexivity).
  destruct (py_min wls); [|discriminate]. destruct (py_max wls); [|discriminate].
  assert (El : at_lines s' = at_lines s ++ user_lines (str_chars name) wls ints) by (injection H as <-; reflexivity). clear H.
  exists (user_lines (str_chars name) wls ints). split; [exact El|]. unfold user_lines.
  rewrite map_length, !combine_length, str_chars_length. rewrite str_chars_length in E1, E2.
  split; [lia|]. split; [lia|].
  assert (Hv : ua_vacuum u = false -> wls = ws) by (intros E; unfold wls; rewrite E; reflexivity).
  assert (E1' : List.length wls = String.length name) by lia.
  clearbody wls. clear El E1 L.
  assert (K : forall name (wls ints : list A), List.length wls = String.length name -> String.length name = List.length ints ->
     forall k c, String.get k name = Some c ->
     exists w i, nth_error (combine (combine (str_chars name) wls) ints) k = Some (String c EmptyString, w, i) /\ nth_error wls k = Some w).
  { clear. induction name as [|c0 r IH]; intros wls ints L1 L2 k c Hk; [destruct k; discriminate|].
    destruct wls as [|w wls]; [discriminate|]. destruct ints as [|i ints]; [discriminate|]. cbn in L1, L2.
    destruct k as [|k]; cbn in Hk |- *.
    - exists w, i. split; congruence.
    - apply IH; auto. }
  intros k c Hk. destruct (K name wls ints E1' E2 k c Hk) as (w & i & Hn & Hw').
  exists (mkAL w (String c EmptyString) i None). split; [|split; [reflexivity|split; [reflexivity|]]].
  - rewrite nth_error_map, Hn. reflexivity.
  - intros Ev. rewrite <- (Hv Ev). exact Hw'.
Qed.

(** 'Hg' with two wavelengths. *)
Example add_symbol_example_main :
  let s := mkAtlas [] (fz 3000) (fz 5000) (fz 500) in
  let u := mkUserArgs (UElStr "Hg") (SeqList [fz 4358; fz 5461]) None false (fz 101325) (fz 293) (fz 0) in
  snd (add_user_atlas s u) = Ok tt /\
  get_elements (fst (add_user_atlas s u)) = ["H"; "g"] /\
  snd (add_user_atlas s (mkUserArgs (UElStr "Hg") (SeqList [fz 4358]) None false (fz 101325) (fz 293) (fz 0))) = Raise AssertionError.
Proof. vm_compute. auto. Qed.

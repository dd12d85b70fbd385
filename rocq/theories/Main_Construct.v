(** * Main_Construct: the lines of an Atlas made from elements (C148), and how far apart the
    lines of an atlas are (C149). *)

From Coq Require Import ZArith Bool List String Lia Arith Reals Lra Sorted Permutation.
From Verif Require Import Num F64 XReal Py Np NpFacts ArgsortFacts Util SpecUtil UtilFacts SepFacts LoadFacts Main_Util.
From Verif Require Import Atlas SpecAtlas AtlasFacts Main_Atlas Hough Calib SpecCalib CalibFacts SpecAdd Main_Add.
Import ListNotations.
Local Open Scope string_scope.
Local Open Scope list_scope.
Local Open Scope num_scope.

Section Construct.
  Context {A : Type} {N : Num A} {O : NumOrder A}.

  Lemma gather_brightest (lines : list (line A)) p :
    (forall r, In r lines -> nisnan (l_int r) = false) ->
    StronglySorted (fun i j => forall x y, nth_error (map l_int lines) j = Some x -> nth_error (map l_int lines) i = Some y ->
       np_lt y x = false) p ->
    StronglySorted (fun r q => l_int q <=' l_int r = true) (gather lines p).
  Proof.
    intros Hn. induction p as [|i p IH]; intros S; [constructor|].
    inversion S as [|? ? S1 S2]; subst. unfold gather. cbn [flat_map]. fold (gather lines p).
    destruct (nth_error lines i) as [r|] eqn:Er.
    2:{ cbn [app]. apply IH; auto. }
    cbn [app]. constructor; [apply IH; auto|].
    apply Forall_forall. intros q Hq. apply gather_In in Hq. destruct Hq as (j & Hj & Ej).
    rewrite Forall_forall in S2. specialize (S2 j Hj (l_int q) (l_int r)).
    rewrite !nth_error_map, Er, Ej in S2. specialize (S2 eq_refl eq_refl).
    assert (nisnan (l_int r) = false) by (apply Hn; eapply nth_error_In; eauto).
    assert (nisnan (l_int q) = false) by (apply Hn; eapply nth_error_In; eauto).
    rewrite np_lt_ltb in S2 by auto. apply ltb_false_leb; auto.
  Qed.

  (** What one load with brightest_n_lines = n and no minimum distance gives. *)
  Lemma load_brightest_all argsort (cat : catalogue A) (a : load_args A) rows n out :
    (forall l, is_argsort l (argsort l)) ->
    la_brightest_n a = Some n -> nZ 0 <' la_min_distance a = false ->
    read_linelist cat (la_linelist a) = Ok rows ->
    (forall r, In r rows -> nisnan (l_wl r) = false /\ nisnan (l_int r) = false) ->
    load_calibration_lines argsort cat a = Ok out ->
    exists l h sel kept rest,
      vacuum_limits a l h /\ selection rows (la_elements a) l h (la_min_intensity a) sel /\
      Permutation (kept ++ rest) sel /\ List.length kept = Nat.min n (List.length sel) /\
      (forall r q, In r rest -> In q kept -> l_int r <=' l_int q = true) /\
      StronglySorted (fun r q => l_int q <=' l_int r = true) kept /\
      Forall2 (presented a) kept out.
  Proof.
    intros Ha Hn Hd Hr Hf H.
    apply load_unfold in H. destruct H as (sel & kept & H1 & H2 & ->).
    destruct (load_select_spec cat a rows sel Hr) as [SL I]; auto.
    { intros r Hin. apply Hf; auto. }
    rewrite Hn in H2. destruct (load_brightest_spec argsort n sel (Ha _)) as (L & rest & P & B).
    { intros r Hin. apply Hf, I; auto. }
    unfold load_separate in H2. rewrite Hd in H2.
    assert (E : kept = load_brightest argsort (Some n) sel).
    { assert (K : forall l : list (line A), mask_select (map (fun _ => true) l) l = l).
      { induction l as [|x l IH]; [reflexivity|]. cbn [map]. rewrite mask_select_cons, IH. reflexivity. }
      rewrite K in H2. congruence. }
    exists (fst (load_limits a)), (snd (load_limits a)), sel, kept, rest. rewrite E.
    split; [apply load_limits_vacuum|]. split; [exact SL|]. split; [exact P|]. split; [exact L|]. split; [exact B|].
    split; [|apply presented_map].
    unfold load_brightest. destruct (Ha (map l_int sel)) as [HP HS].
    apply gather_brightest; [intros r Hin; apply Hf, I; auto|].
    apply SS_firstn. apply SS_rev in HS. exact HS.
  Qed.

  Lemma loaded_blocks argsort (cat : catalogue A) mk es rows :
    loaded argsort cat mk es rows ->
    exists blocks, rows = map (fun r => (l_el r, l_wl r, l_int r)) (List.concat blocks) /\
      Forall2 (fun e block => load_calibration_lines argsort cat (mk e) = Ok block) es blocks.
  Proof.
    induction 1 as [|e es rows rest H1 H2 (blocks & E & F)].
    - exists []. split; [reflexivity|constructor].
    - exists (rows :: blocks). split; [|constructor; auto]. cbn [List.concat]. rewrite map_app, E. reflexivity.
  Qed.
End Construct.

(** C148: an Atlas made from elements, without a minimum distance, holds for each element in
    turn the 1000 brightest of the lines of that element that are within the limits and
    bright enough, brightest first, in the requested medium; so never more than 1000 lines
    for each element given. *)
Lemma constructor_lines_main :
  forall (A : Type) (N : Num A) (O : NumOrder A) argsort (cat : catalogue A)
      els lo hi tol m d v p t rh ll rows s,
    (forall l, is_argsort l (argsort l)) ->
    nZ 0 <' d = false ->
    read_linelist cat ll = Ok rows ->
    (forall r, In r rows -> nisnan (l_wl r) = false /\ nisnan (l_int r) = false) ->
    atlas_init argsort cat els lo hi tol m d v p t rh ll = Ok s ->
    (exists blocks,
      map row_of (at_lines s) = map (fun r => (l_el r, l_wl r, l_int r)) (List.concat blocks) /\
      Forall2 (fun e block =>
        let a := mkLoadArgs [e] lo hi m d v p t rh ll None in
        exists l h sel kept rest,
          vacuum_limits a l h /\ selection rows [e] l h m sel /\
          Permutation (kept ++ rest) sel /\ List.length kept = Nat.min 1000 (List.length sel) /\
          (forall r q, In r rest -> In q kept -> l_int r <=' l_int q = true) /\
          StronglySorted (fun r q => l_int q <=' l_int r = true) kept /\
          Forall2 (presented a) kept block) (elements_of els) blocks) /\
    (atlas_len s <= 1000 * List.length (elements_of els))%nat.
Proof.
  intros A N O argsort cat els lo hi tol m d v p t rh ll rows s Ha Hd Hr Hf H.
  apply atlas_init_is_add in H. destruct H as (new & En & L).
  apply loaded_blocks in L. destruct L as (blocks & E & F).
  assert (G : Forall2 (fun e block =>
        let a := mkLoadArgs [e] lo hi m d v p t rh ll None in
        exists l h sel kept rest,
          vacuum_limits a l h /\ selection rows [e] l h m sel /\
          Permutation (kept ++ rest) sel /\ List.length kept = Nat.min 1000 (List.length sel) /\
          (forall r q, In r rest -> In q kept -> l_int r <=' l_int q = true) /\
          StronglySorted (fun r q => l_int q <=' l_int r = true) kept /\
          Forall2 (presented a) kept block) (elements_of els) blocks).
  { clear - O Ha Hd Hr Hf F. induction F as [|e block es bs H F IH]; constructor; auto.
    exact (load_brightest_all argsort cat (mkLoadArgs [e] lo hi m d v p t rh ll (Some 1000%nat)) rows 1000 block Ha eq_refl Hd Hr Hf H). }
  split.
  - exists blocks. split; [rewrite En; exact E|exact G].
  - assert (K : (List.length (List.concat blocks) <= 1000 * List.length (elements_of els))%nat).
    { clear - G. induction G as [|e block es bs H G IH]; [cbn; lia|].
      cbn [List.concat]. rewrite app_length. cbn [List.length].
      destruct H as (l & h & sel & kept & rest & _ & _ & _ & H & _ & _ & P).
      assert (Q : List.length kept = List.length block) by (clear - P; induction P; cbn; congruence). lia. }
    unfold atlas_len. rewrite En. apply (f_equal (@List.length _)) in E. rewrite !map_length in E. lia.
Qed.

(** Two elements; the lines of each come brightest first. *)
Definition two_cat : catalogue f64 :=
  mkCatalogue [mkLine "Xe" (fz 4000) (fz 50); mkLine "Xe" (fz 4005) (fz 30); mkLine "Xe" (fz 4700) (fz 40);
               mkLine "Kr" (fz 4004) (fz 20); mkLine "Kr" (fz 4800) (fz 70); mkLine "Kr" (fz 6000) (fz 90)] (fun _ => None).
Example constructor_lines_example_main :
  exists s, atlas_init argsort_stable two_cat (ElList ["Xe"; "Kr"]) (fz 3000) (fz 5000) (fz 500)
      (ThNum (fz 10)) (fz 0) true (fz 101325) (fd 27315 (-2)) (fz 0) (LLStr "nist") = Ok s /\
    get_lines s = [fz 4000; fz 4700; fz 4005; fz 4800; fz 4004].
Proof. eexists. split; vm_compute; reflexivity. Qed.

(** C149 REFUTED: an Atlas made with min_distance = 10 keeps two lines of one element that
    are 5 apart (no catalogue line is dropped for brightness here), and two lines of
    different elements that are 1 apart. *)
Lemma atlas_distance_refuted_main :
  exists s, atlas_init argsort_stable two_cat (ElList ["Xe"; "Kr"]) (fz 3000) (fz 5000) (fz 500)
      (ThNum (fz 10)) (fz 10) true (fz 101325) (fd 27315 (-2)) (fz 0) (LLStr "nist") = Ok s /\
    get_elements s = ["Xe"; "Xe"; "Xe"; "Kr"; "Kr"] /\
    get_lines s = [fz 4000; fz 4700; fz 4005; fz 4800; fz 4004] /\
    nabs (fz 4000 -' fz 4005) <' fz 10 = true /\ nabs (fz 4005 -' fz 4004) <' fz 10 = true.
Proof. eexists. split; [vm_compute; reflexivity|]. vm_compute. auto. Qed.

(** C149 (what holds): the lines that one call of Atlas.add without brightest_n_lines adds
    for one element, in vacuum, are at least min_distance apart. *)
Lemma atlas_distance_partial_main :
  forall argsort (cat : catalogue xr) (s s' : atlas xr) (a : add_args xr) rows (d : R),
    aa_brightest_n a = None -> aa_vacuum a = true ->
    aa_min_distance a = Fin d -> (0 < d)%R ->
    read_linelist cat (aa_linelist a) = Ok rows ->
    (forall r, In r rows -> exists w, l_wl r = Fin w) ->
    atlas_add argsort cat s a = (s', Ok tt) ->
    exists new blocks,
      at_lines s' = at_lines s ++ new /\
      map row_of new = map (fun r => (l_el r, l_wl r, l_int r)) (List.concat blocks) /\
      Forall2 (fun e block => forall r q, In r block -> In q block ->
                 l_el r = e /\ (r <> q -> apart d r q)) (elements_of (aa_elements a)) blocks.
Proof.
  intros argsort cat s s' a rows d Hb Hv Hd Hpos Hr Hf H.
  apply atlas_add_partial_main in H. destruct H as (_ & _ & _ & new & E & L).
  apply loaded_blocks in L. destruct L as (blocks & En & F).
  exists new, blocks. split; [exact E|]. split; [exact En|].
  clear - Hb Hv Hd Hpos Hr Hf F. induction F as [|e block es bs H F IH]; constructor; auto.
  destruct (load_exact_main argsort cat (request s a e) rows d block Hb Hd Hr Hf H)
    as (lo & hi & sel & kept & _ & SL & SB & _ & AP & P).
  assert (Q : kept = block).
  { clear - P Hv. induction P as [|x y l l' H P IH]; [reflexivity|]. f_equal; [|exact IH].
    destruct H as (H1 & H2 & H3). cbn [la_vacuum request] in H3. rewrite Hv in H3.
    destruct x, y; cbn in *; congruence. }
  subst block. intros r q Hi Hj. split; [|intros Hn; apply AP; auto].
  assert (Hs : In r sel) by (eapply subseq_incl; eauto).
  apply (proj2 SL) in Hs. destruct Hs as ((i & Hs) & _). cbn [la_elements request] in Hs.
  destruct Hs as [Hs _]. apply nth_error_In in Hs. unfold requested in Hs. apply filter_In in Hs.
  destruct Hs as [_ Hs]. destruct (in_dec string_dec (l_el r) [e]) as [K|]; [|discriminate].
  destruct K as [K|[]]; congruence.
Qed.

(** With min_distance = 10 and no limit on the number the two close lines of Xe are dropped. *)
Example atlas_distance_example_main :
  let s := mkAtlas [] (fz 3000) (fz 5000) (fz 500) in
  let (s', r) := atlas_add argsort_stable two_cat s (tol_add (ElList ["Xe"; "Kr"]) (fz 10)) in
  r = Ok tt /\ get_lines s' = [fz 4700; fz 4004; fz 4800].
Proof. vm_compute. auto. Qed.

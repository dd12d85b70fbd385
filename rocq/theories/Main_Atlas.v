(** * Main_Atlas: the properties of atlas.py with their proofs.  The statements
    are repeated, without proofs, in Props_Atlas.v. *)

From Coq Require Import ZArith Bool List String Lia Arith Sorted.
From Verif Require Import Num F64 XReal Py Np NpFacts Util SpecUtil UtilFacts LoadFacts ArgsortFacts.
From Verif Require Import Atlas SpecAtlas AtlasFacts.
Import ListNotations.
Local Open Scope string_scope.
Local Open Scope list_scope.
Local Open Scope num_scope.

(* ------------------------------------------------------------------ *)
(** ** C35 *)

(** C35: after any history of add_user_atlas (accepted or rejected),
    remove_atlas_lines_range and clear on an empty atlas the three getters list,
    aligned and in order, exactly the rows of the specification [contents], which
    are determined by the history. *)
Lemma atlas_history_main :
  forall (A : Type) (N : Num A) argsort (cat : catalogue A) lo hi tol (h : list (atlas_op A)),
    Forall (fun o => match o with OpAdd _ => False | _ => True end) h ->
    let s := atlas_run argsort cat (mkAtlas [] lo hi tol) h in
    exists rows, contents h rows /\ (forall rows', contents h rows' -> rows' = rows) /\
      get_elements s = map (fun r => fst (fst r)) rows /\
      get_lines s = map (fun r => snd (fst r)) rows /\
      get_intensities s = map snd rows /\
      atlas_len s = List.length rows.
Proof.
  intros A N argsort cat lo hi tol h Hh s.
  exists (map row_of (at_lines s)). split; [apply contents_run; auto|].
  split. { intros rows' H. eapply contents_unique; eauto. apply contents_run; auto. }
  unfold get_elements, get_lines, get_intensities, atlas_len.
  rewrite !map_map, map_length. auto.
Qed.

Definition uargs (els : user_elements) (ws : seq_arg f64) (ints : option (seq_arg f64)) : user_args f64 :=
  mkUserArgs els ws ints false (fz 101325) (fd 27315 (-2)) (fz 0).
Definition no_cat : catalogue f64 := mkCatalogue [] (fun _ => None).
Definition ex_history : list (atlas_op f64) :=
  [OpUser (uargs (UElSeq (SeqList ["A"])) (SeqList [fz 7]) None);
   OpClear;
   OpUser (uargs (UElSeq (SeqList ["Hg"; "Ar"])) (SeqList [fz 40; fz 20]) None);
   OpUser (uargs (UElSeq (SeqList ["Xe"])) (SeqList []) None);
   OpRemove (fz 21) (fz 5);
   OpUser (uargs (UElSeq (SeqList ["Xe"])) (SeqList [fz 90]) (Some (SeqList [fz 3])))].
Example atlas_history_example_main :
  Forall (fun o => match o with OpAdd _ => False | _ => True end) ex_history /\
  let s := atlas_run argsort_stable no_cat (mkAtlas [] (fz 0) (fz 9) (fz 1)) ex_history in
  get_elements s = ["Hg"; "Xe"] /\ get_lines s = [fz 40; fz 90] /\ get_intensities s = [fz 0; fz 3].
Proof. split; [repeat constructor|vm_compute; auto]. Qed.

(* ------------------------------------------------------------------ *)
(** ** C36 *)

(** C36: add_user_atlas either appends all supplied rows after the existing
    lines, or raises and leaves the atlas exactly as it was; the exception tells
    a wrong type, different lengths, or an empty list. *)
Lemma add_user_atlas_atomic_main :
  forall (A : Type) (N : Num A) (s s' : atlas A) (u : user_args A) r,
    add_user_atlas s u = (s', r) ->
    (r = Ok tt /\ exists rows new, supplied u rows /\
       at_lines s' = at_lines s ++ new /\ map row_of new = rows) \/
    (s' = s /\ (forall rows, ~ supplied u rows) /\
     ((r = Raise TypeError /\ bad_type u) \/
      (r = Raise AssertionError /\ length_mismatch u) \/
      (r = Raise ValueError /\ ua_wavelengths u = SeqList []))).
Proof.
  intros A N s s' u r E. pose proof (add_user_atlas_spec s u) as H. rewrite E in H.
  destruct H as [(H & rows & new & Hs & Hl & Hn & _)|H]; [left|right; exact H].
  split; auto. exists rows, new. auto.
Qed.

Example add_user_atlas_atomic_example_main :
  let s := mkAtlas [mkAL (fz 5) "He" (fz 1) None] (fz 5) (fz 5) (fz 500) in
  supplied (uargs (UElSeq (SeqList ["Hg"; "Ar"])) (SeqList [fz 40; fz 20]) None)
           [("Hg", fz 40, fz 0); ("Ar", fz 20, fz 0)] /\
  add_user_atlas s (uargs (UElSeq (SeqList ["Hg"; "Ar"])) (SeqList [fz 40]) None)
    = (s, Raise AssertionError) /\
  add_user_atlas s (uargs (UElSeq (SeqList [])) (SeqList []) None) = (s, Raise ValueError) /\
  get_lines (fst (add_user_atlas s (uargs (UElSeq (SeqList ["Hg"; "Ar"])) (SeqList [fz 40; fz 20]) None)))
    = [fz 5; fz 40; fz 20].
Proof.
  cbn zeta. split; [|vm_compute; auto].
  exists ["Hg"; "Ar"], [fz 40; fz 20]. split; [left; reflexivity|].
  split; [reflexivity|]. split; [reflexivity|]. split; [discriminate|]. repeat split; reflexivity.
Qed.

(* ------------------------------------------------------------------ *)
(** ** C37, C38 *)

(** C37: exactly the struck lines (in range, with an even number of in-range
    lines directly before them) disappear; all others stay in order. *)
Lemma remove_range_exact_main :
  forall (A : Type) (N : Num A) (s : atlas A) (w tol : A),
    let s' := remove_atlas_lines_range s w tol in
    strike (fun x => nabs (al_wl x -' w) <' tol) (at_lines s) (at_lines s') /\
    (forall l', strike (fun x => nabs (al_wl x -' w) <' tol) (at_lines s) l' -> l' = at_lines s') /\
    filter (fun x => negb (nabs (al_wl x -' w) <' tol)) (at_lines s')
      = filter (fun x => negb (nabs (al_wl x -' w) <' tol)) (at_lines s) /\
    at_min s' = at_min s /\ at_max s' = at_max s.
Proof.
  intros A N s w tol. cbn zeta. split; [apply remove_strike|].
  split. { intros l' H. eapply strike_unique; eauto. apply remove_strike. }
  split; [|auto]. rewrite remove_lines. unfold in_removed_range.
  set (f := fun x => nabs (al_wl x -' w) <' tol).
  assert (G : forall l skip, filter (fun x => negb (f x)) (survivors f skip l) = filter (fun x => negb (f x)) l).
  { induction l as [|x l IH]; intros skip; cbn; auto.
    destruct skip; cbn; [rewrite IH; auto|]. destruct (f x) eqn:F; cbn; rewrite ?F; cbn; rewrite IH; auto. }
  apply G.
Qed.

(** C37: each call removes at least half of the in-range lines, so n calls
    remove them all once 2^n exceeds their number. *)
Lemma remove_range_repeated_main :
  forall (A : Type) (N : Num A) (s : atlas A) (w tol : A) n,
    (List.length (filter (fun x => nabs (al_wl x -' w) <' tol) (at_lines s)) < 2 ^ n)%nat ->
    forall x, In x (at_lines (Nat.iter n (fun s => remove_atlas_lines_range s w tol) s)) ->
      (nabs (al_wl x -' w) <' tol) = false.
Proof.
  intros A N s w tol n.
  set (f := fun x => nabs (al_wl x -' w) <' tol).
  assert (G : forall m, (2 ^ m * List.length (filter f (at_lines (Nat.iter m (fun s => remove_atlas_lines_range s w tol) s)))
               <= List.length (filter f (at_lines s)))%nat).
  { induction m as [|k IH]; [change (1 * List.length (filter f (at_lines s)) <= List.length (filter f (at_lines s)))%nat; lia|].
    change (Nat.iter (S k) (fun s => remove_atlas_lines_range s w tol) s)
      with (remove_atlas_lines_range (Nat.iter k (fun s => remove_atlas_lines_range s w tol) s) w tol).
    rewrite remove_lines.
    pose proof (survivors_hits_half f (at_lines (Nat.iter k (fun s => remove_atlas_lines_range s w tol) s)) false) as H.
    unfold hits in H. fold f. change (in_removed_range w tol) with f.
    rewrite Nat.pow_succ_r'. nia. }
  intros Hlt x Hx. destruct (f x) eqn:F; [exfalso|exact F].
  specialize (G n).
  assert (0 < List.length (filter f (at_lines (Nat.iter n (fun s => remove_atlas_lines_range s w tol) s))))%nat.
  { assert (In x (filter f (at_lines (Nat.iter n (fun s => remove_atlas_lines_range s w tol) s))))
      by (apply filter_In; auto).
    destruct (filter f _); [destruct H|cbn; lia]. }
  nia.
Qed.

Definition five_lines : atlas f64 :=
  mkAtlas [mkAL (fz 10) "a" (fz 0) None; mkAL (fz 100) "b" (fz 0) None; mkAL (fz 102) "c" (fz 0) None;
           mkAL (fz 104) "d" (fz 0) None; mkAL (fz 300) "e" (fz 0) None] (fz 0) (fz 0) (fz 0).
Example remove_range_example_main :
  get_elements (remove_atlas_lines_range five_lines (fz 102) (fz 5)) = ["a"; "c"; "e"] /\
  (List.length (filter (fun x => nabs (al_wl x -' fz 102) <' fz 5) (at_lines five_lines)) < 2 ^ 2)%nat /\
  get_elements (Nat.iter 2 (fun s => remove_atlas_lines_range s (fz 102) (fz 5)) five_lines) = ["a"; "e"].
Proof. vm_compute. repeat split; try reflexivity. Qed.

(** C38: one call clears the range exactly when no two adjacent lines are in it. *)
Lemma remove_range_complete_partial_main :
  forall (A : Type) (N : Num A) (s : atlas A) (w tol : A),
    (forall x, In x (at_lines (remove_atlas_lines_range s w tol)) -> (nabs (al_wl x -' w) <' tol) = false)
    <-> (forall i x y, nth_error (at_lines s) i = Some x -> nth_error (at_lines s) (S i) = Some y ->
          (nabs (al_wl x -' w) <' tol) && (nabs (al_wl y -' w) <' tol) = false).
Proof.
  intros A N s w tol. rewrite remove_lines. split.
  - intros H i x y Hx Hy. destruct (_ && _) eqn:E; auto. apply andb_true_iff in E. destruct E as [Fx Fy].
    destruct (survivors_adjacent (in_removed_range w tol) (at_lines s) false i x y Hx Hy Fx Fy) as (z & Hz & Fz).
    apply H in Hz. unfold in_removed_range in Fz. congruence.
  - intros H x Hx. apply (survivors_isolated (in_removed_range w tol) (at_lines s) false); auto. discriminate.
Qed.

Example remove_range_complete_example_main :
  (forall i x y, nth_error (at_lines five_lines) i = Some x -> nth_error (at_lines five_lines) (S i) = Some y ->
     (nabs (al_wl x -' fz 300) <' fz 5) && (nabs (al_wl y -' fz 300) <' fz 5) = false) /\
  get_elements (remove_atlas_lines_range five_lines (fz 300) (fz 5)) = ["a"; "b"; "c"; "d"].
Proof.
  split; [|vm_compute; reflexivity].
  intros [|[|[|[|[|]]]]] x y Hx Hy; try discriminate; injection Hx as <-; injection Hy as <-;
    vm_compute; reflexivity.
Qed.

(** C38 REFUTED: the line at 102 survives the removal of [97, 107]. *)
Lemma remove_range_complete_refuted_main :
  ~ (forall (s : atlas f64) w tol x, In x (at_lines (remove_atlas_lines_range s w tol)) ->
       (nabs (al_wl x -' w) <' tol) = false).
Proof.
  intros H. specialize (H five_lines (fz 102) (fz 5) (mkAL (fz 102) "c" (fz 0) None)).
  assert (E : (nabs (al_wl (mkAL (fz 102) "c" (fz 0) None) -' fz 102) <' fz 5) = true) by (vm_compute; reflexivity).
  rewrite H in E; [discriminate|]. vm_compute. auto.
Qed.

(* ------------------------------------------------------------------ *)
(** ** C39 *)

Section MinMax.
  Context {A : Type} {N : Num A} {O : NumOrder A}.
  Lemma py_min_le (l : list A) m : py_min l = Ok m -> (forall x, In x l -> nisnan x = false) ->
    In m l /\ forall x, In x l -> m <=' x = true.
  Proof.
    destruct l as [|a r]; cbn; [discriminate|]. intros H Hn. injection H as <-.
    assert (Ha : nisnan a = false) by auto. assert (Hr : forall x, In x r -> nisnan x = false) by auto.
    clear Hn. revert a Ha. induction r as [|b r IH]; intros a Ha; cbn [fold_left].
    - split; [cbn; auto|]. intros x [<-|[]]. apply leb_refl; auto.
    - assert (Hb : nisnan b = false) by (apply Hr; cbn; auto).
      assert (Hr' : forall x, In x r -> nisnan x = false) by (intros; apply Hr; cbn; auto).
      destruct (b <' a) eqn:E.
      + destruct (IH Hr' b Hb) as [H1 H2]. split; [cbn in *; tauto|].
        intros x [<-|[<-|Hx]]; [|apply H2; cbn; auto|apply H2; cbn; auto].
        eapply leb_trans; [apply H2; cbn; auto|]. apply ltb_leb_weak; auto.
      + destruct (IH Hr' a Ha) as [H1 H2]. split; [cbn in *; tauto|].
        intros x [<-|[<-|Hx]]; [apply H2; cbn; auto| |apply H2; cbn; auto].
        eapply leb_trans; [apply H2; cbn; auto|]. apply ltb_false_leb; auto.
  Qed.
  Lemma py_max_ge (l : list A) m : py_max l = Ok m -> (forall x, In x l -> nisnan x = false) ->
    In m l /\ forall x, In x l -> x <=' m = true.
  Proof.
    destruct l as [|a r]; cbn; [discriminate|]. intros H Hn. injection H as <-.
    assert (Ha : nisnan a = false) by auto. assert (Hr : forall x, In x r -> nisnan x = false) by auto.
    clear Hn. revert a Ha. induction r as [|b r IH]; intros a Ha; cbn [fold_left].
    - split; [cbn; auto|]. intros x [<-|[]]. apply leb_refl; auto.
    - assert (Hb : nisnan b = false) by (apply Hr; cbn; auto).
      assert (Hr' : forall x, In x r -> nisnan x = false) by (intros; apply Hr; cbn; auto).
      destruct (a <' b) eqn:E.
      + destruct (IH Hr' b Hb) as [H1 H2]. split; [cbn in *; tauto|].
        intros x [<-|[<-|Hx]]; [|apply H2; cbn; auto|apply H2; cbn; auto].
        eapply leb_trans; [|apply H2; cbn; auto]. apply ltb_leb_weak; auto.
      + destruct (IH Hr' a Ha) as [H1 H2]. split; [cbn in *; tauto|].
        intros x [<-|[<-|Hx]]; [apply H2; cbn; auto| |apply H2; cbn; auto].
        eapply leb_trans; [|apply H2; cbn; auto]. apply ltb_false_leb; auto.
  Qed.
End MinMax.

(** C39: after a successful call the recorded range is the smallest interval that
    holds the lines of that call; so it covers the whole atlas if it was empty
    before. *)
Lemma recorded_range_partial_main :
  forall (A : Type) (N : Num A) (O : NumOrder A) (s s' : atlas A) (u : user_args A) rows,
    supplied u rows -> (forall r, In r rows -> nisnan (snd (fst r)) = false) ->
    add_user_atlas s u = (s', Ok tt) ->
    (exists r, In r rows /\ at_min s' = snd (fst r)) /\
    (exists r, In r rows /\ at_max s' = snd (fst r)) /\
    (forall r, In r rows -> at_min s' <=' snd (fst r) = true /\ snd (fst r) <=' at_max s' = true) /\
    (at_lines s = [] -> forall x, In x (at_lines s') ->
       at_min s' <=' al_wl x = true /\ al_wl x <=' at_max s' = true).
Proof.
  intros A N O s s' u rows Hs Hn E. pose proof (add_user_atlas_spec s u) as H. rewrite E in H.
  destruct H as [(_ & rows' & new & Hs' & Hl & Hr & _ & Hmin & Hmax & _)|(_ & H & _)];
    [|exfalso; eapply H; eauto].
  assert (Heq : rows' = rows) by (eapply supplied_unique; eauto). rewrite Heq in *. clear Heq.
  assert (Hn' : forall x, In x (map (fun r : row A => snd (fst r)) rows) -> nisnan x = false).
  { intros x Hx. apply in_map_iff in Hx. destruct Hx as (r & <- & Hr'). auto. }
  destruct (py_min_le _ _ Hmin Hn') as [M1 M2]. destruct (py_max_ge _ _ Hmax Hn') as [M3 M4].
  apply in_map_iff in M1. apply in_map_iff in M3.
  split; [destruct M1 as (r & <- & Hr'); eauto|]. split; [destruct M3 as (r & <- & Hr'); eauto|].
  assert (G : forall r, In r rows -> at_min s' <=' snd (fst r) = true /\ snd (fst r) <=' at_max s' = true).
  { intros r Hr'. split; [apply M2|apply M4]; apply in_map_iff; eauto. }
  split; auto.
  intros H0 x Hx. rewrite Hl, H0 in Hx. cbn in Hx.
  apply (G (row_of x)). rewrite <- Hr. apply in_map; auto.
Qed.

(** C39 REFUTED: two calls; the recorded range is that of the second only. *)
Lemma recorded_range_refuted_main :
  let h := [OpUser (uargs (UElSeq (SeqList ["a"])) (SeqList [fz 3000]) None);
            OpUser (uargs (UElSeq (SeqList ["b"])) (SeqList [fz 5000]) None)] in
  let s := atlas_run argsort_stable no_cat (mkAtlas [] (fz 3000) (fz 5000) (fz 500)) h in
  get_lines s = [fz 3000; fz 5000] /\ at_min s = fz 5000 /\
  (at_min s <=' fz 3000) = false.
Proof. vm_compute. auto. Qed.

(* ------------------------------------------------------------------ *)
(** ** C40 *)

(** C40: Atlas.add without limits loads every catalogue line of a requested
    element up to range_tolerance outside the atlas' limits that is bright
    enough, and nothing outside (vacuum wavelengths, no brightest-n or separation
    cut; a wavelength listed twice is loaded once). *)
Lemma add_range_tolerance_partial_main :
  forall (A : Type) (N : Num A) (O : NumOrder A) argsort (cat : catalogue A) (s s' : atlas A)
      (a : add_args A) rows e,
    aa_min a = None -> aa_max a = None -> aa_vacuum a = true -> aa_brightest_n a = None ->
    nZ 0 <' aa_min_distance a = false ->
    read_linelist cat (aa_linelist a) = Ok rows ->
    (forall r, In r rows -> nisnan (l_wl r) = false) ->
    In e (elements_of (aa_elements a)) ->
    atlas_add argsort cat s a = (s', Ok tt) ->
    (forall r i, earliest (requested [e] rows) i r ->
       at_min s -' at_range_tol s <=' l_wl r = true ->
       l_wl r <=' at_max s +' at_range_tol s = true ->
       bright_enough [e] (aa_min_intensity a) r ->
       In (l_el r, l_wl r, l_int r) (map row_of (at_lines s'))) /\
    (forall x, In x (at_lines s') -> In x (at_lines s) \/
       (at_min s -' at_range_tol s <=' al_wl x = true /\
        al_wl x <=' at_max s +' at_range_tol s = true)).
Proof.
  intros A N O argsort cat s s' a rows e Hmin Hmax Hv Hb Hd Hr Hn He H.
  unfold atlas_add in H. rewrite Hmin, Hmax in H.
  destruct (negb _); [discriminate|]. destruct (negb _); [discriminate|].
  set (lo := at_min s -' at_range_tol s) in *. set (hi := at_max s +' at_range_tol s) in *.
  destruct (add_loop_spec argsort cat a lo hi (elements_of (aa_elements a)) (at_lines s)) as (new & H1 & _ & H3).
  destruct (add_loop _ _ _ _ _ _ _) as [l r]. cbn [fst snd] in *.
  injection H as <- ->. cbn [at_set_lines at_lines]. subst l.
  assert (One : forall e' rs, load_calibration_lines argsort cat (add_load_args a lo hi e') = Ok rs ->
     selection rows [e'] lo hi (aa_min_intensity a) rs).
  { intros e' rs Hl. apply load_unfold in Hl. destruct Hl as (sel & kept & L1 & L2 & ->).
    cbn [add_load_args la_vacuum la_brightest_n la_min_distance load_brightest] in *.
    rewrite Hv, Hb in *. unfold load_separate in L2. rewrite Hd in L2. cbn [load_brightest] in L2.
    rewrite mask_select_all_true in L2. injection L2 as <-.
    destruct (load_select_spec cat (add_load_args a lo hi e') rows sel) as [S _]; auto.
    unfold load_limits in S. cbn in S. rewrite Hv in S. exact S. }
  split.
  - intros r i Hear Hlo Hhi Hbr. rewrite map_app. apply in_or_app. right.
    clear - H3 He One Hear Hlo Hhi Hbr.
    induction H3 as [|e' es rs rest Hl _ IH]; [destruct He|].
    apply in_or_app. destruct He as [->|He]; [left|right; auto].
    destruct (One e rs Hl) as [_ S]. apply in_map_iff. exists r. split; auto. apply S.
    split; eauto. split; auto. split; auto.
  - intros x Hx. apply in_app_or in Hx. destruct Hx as [Hx|Hx]; auto. right.
    assert (Hx' : In (row_of x) (map row_of new)) by (apply in_map; auto).
    change (lo <=' snd (fst (row_of x)) = true /\ snd (fst (row_of x)) <=' hi = true).
    revert Hx'. generalize (row_of x). clear - H3 One. intros q Hq.
    induction H3 as [|e' es rs rest Hl _ IH]; [destruct Hq|].
    apply in_app_or in Hq. destruct Hq as [Hq|Hq]; auto.
    apply in_map_iff in Hq. destruct Hq as (y & <- & Hy).
    destruct (One e' rs Hl) as [_ S]. apply S in Hy. cbn. destruct Hy as (_ & [? ?] & _). auto.
Qed.

Definition tol_cat : catalogue f64 :=
  mkCatalogue [mkLine "Xe" (fz 2800) (fz 50); mkLine "Xe" (fz 4000) (fz 50); mkLine "Xe" (fz 6000) (fz 50)] (fun _ => None).
Definition tol_add (els : elements_arg) (dist : f64) : add_args f64 :=
  mkAddArgs els None None (ThNum (fz 10)) dist true (fz 101325) (fd 27315 (-2)) (fz 0)
    (LLStr "nist") None.

(** A call that meets the hypotheses: the line at 2800 is loaded although the
    atlas starts at 3000. *)
Example add_range_tolerance_example_main :
  let s := mkAtlas [] (fz 3000) (fz 5000) (fz 500) in
  (nZ 0 <' aa_min_distance (tol_add (ElStr "Xe") (fz 0))) = false /\
  let (s', r) := atlas_add argsort_stable tol_cat s (tol_add (ElStr "Xe") (fz 0)) in
  r = Ok tt /\ get_lines s' = [fz 2800; fz 4000].
Proof. vm_compute. auto. Qed.

(** C40 REFUTED for the constructor: with range_tolerance 500 and the limits
    [3000, 5000] the line at 2800 is not loaded. *)
Lemma constructor_range_tolerance_refuted_main :
  exists s, atlas_init argsort_stable tol_cat (ElStr "Xe") (fz 3000) (fz 5000) (fz 500)
      (ThNum (fz 10)) (fz 0) true (fz 101325) (fd 27315 (-2)) (fz 0) (LLStr "nist") = Ok s /\
    get_lines s = [fz 4000].
Proof. eexists. split; vm_compute; reflexivity. Qed.

(** C40: the constructor's result does not depend on range_tolerance at all. *)
Lemma constructor_ignores_tolerance_main :
  forall (A : Type) (N : Num A) argsort (cat : catalogue A) els lo hi tol1 tol2 m d v p t rh ll,
    match atlas_init argsort cat els lo hi tol1 m d v p t rh ll,
          atlas_init argsort cat els lo hi tol2 m d v p t rh ll with
    | Ok s1, Ok s2 => at_lines s1 = at_lines s2
    | Raise e1, Raise e2 => e1 = e2
    | _, _ => False
    end.
Proof.
  intros. unfold atlas_init, atlas_add. destruct els; cbn [aa_min aa_max at_lines]; auto;
    destruct (negb (nisfinite lo)); try reflexivity; destruct (negb (nisfinite hi)); try reflexivity;
    match goal with |- context[add_loop ?a ?b ?c ?d ?e ?f ?g] =>
      destruct (add_loop a b c d e f g) as [l' [[]|ex]] end; cbn; auto.
Qed.

(* ------------------------------------------------------------------ *)
(** ** C41 *)

(** C41: Atlas.add never loses or changes lines or the recorded range; when it
    raises, only the lines of the elements before the offending one were added
    (none, if a limit is not finite or the first element is the offending one). *)
Lemma atlas_add_partial_main :
  forall (A : Type) (N : Num A) argsort (cat : catalogue A) (s s' : atlas A) (a : add_args A) r,
    atlas_add argsort cat s a = (s', r) ->
    at_min s' = at_min s /\ at_max s' = at_max s /\ at_range_tol s' = at_range_tol s /\
    exists new, at_lines s' = at_lines s ++ new /\
      match r with
      | Ok _ => loaded argsort cat (request s a) (elements_of (aa_elements a)) (map row_of new)
      | Raise ex => new = [] \/ exists before e after,
          before <> [] /\ elements_of (aa_elements a) = before ++ e :: after /\
          loaded argsort cat (request s a) before (map row_of new) /\
          load_calibration_lines argsort cat (request s a e) = Raise ex
      end.
Proof.
  intros A N argsort cat s s' a r. unfold atlas_add.
  change (match aa_min a with Some v => v | None => at_min s -' at_range_tol s end)
    with (la_min_wl (request s a EmptyString)).
  change (match aa_max a with Some v => v | None => at_max s +' at_range_tol s end)
    with (la_max_wl (request s a EmptyString)).
  set (lo := la_min_wl _). set (hi := la_max_wl _).
  destruct (negb (nisfinite lo)).
  { intros H; injection H as <- <-. repeat split; auto. exists []. rewrite app_nil_r. auto. }
  destruct (negb (nisfinite hi)).
  { intros H; injection H as <- <-. repeat split; auto. exists []. rewrite app_nil_r. auto. }
  destruct (add_loop_spec argsort cat a lo hi (elements_of (aa_elements a)) (at_lines s)) as (new & H1 & _ & H3).
  destruct (add_loop _ _ _ _ _ _ _) as [l r']. cbn [fst snd] in *.
  intros H; injection H as <- <-. cbn. repeat split; auto. exists new. split; auto.
  destruct r' as [[]|ex]; [exact H3|].
  destruct H3 as (before & e & after & E & L & F).
  destruct before as [|b before].
  - left. inversion L. destruct new; [auto|discriminate].
  - right. exists (b :: before), e, after. split; [discriminate|]. auto.
Qed.

Example atlas_add_example_main :
  let s := mkAtlas [mkAL (fz 5) "He" (fz 1) None] (fz 3000) (fz 5000) (fz 500) in
  let (s', r) := atlas_add argsort_stable tol_cat s (tol_add (ElStr "Xe") (fz 0)) in
  r = Ok tt /\ get_lines s' = [fz 5; fz 2800; fz 4000].
Proof. vm_compute. auto. Qed.

(** C41 REFUTED: adding ["Xe"; "Kr"] raises (no Kr line is known), yet the lines
    of Xe have been added. *)
Lemma atlas_add_refuted_main :
  let s := mkAtlas [] (fz 3000) (fz 5000) (fz 500) in
  let (s', r) := atlas_add argsort_stable tol_cat s (tol_add (ElList ["Xe"; "Kr"]) (fz 10)) in
  r = Raise IndexError /\ get_lines s' = [fz 2800; fz 4000].
Proof. vm_compute. auto. Qed.

(* ------------------------------------------------------------------ *)
(** ** C82, C83 *)

(** C82 REFUTED: a single line (element str, wavelength float) as documented is
    rejected, and a two-letter symbol with two wavelengths is split into letters. *)
Lemma add_single_user_line_refuted_main :
  let s := mkAtlas [] (fz 3000) (fz 5000) (fz 500) in
  add_user_atlas s (uargs (UElStr "Hg") SeqBad None) = (s, Raise TypeError) /\
  add_user_atlas s (uargs (UElStr "Hg") (SeqList [fz 4358]) None) = (s, Raise AssertionError) /\
  get_elements (fst (add_user_atlas s (uargs (UElStr "Hg") (SeqList [fz 4358; fz 5461]) None))) = ["H"; "g"].
Proof. vm_compute. auto. Qed.

(** C82: a one-character symbol with a one-element list is accepted. *)
Lemma add_single_user_line_partial_main :
  forall (A : Type) (N : Num A) (s : atlas A) c (w p t rh : A),
    exists s', add_user_atlas s (mkUserArgs (UElStr (String c EmptyString)) (SeqList [w]) None false p t rh)
      = (s', Ok tt) /\
    at_lines s' = at_lines s ++ [mkAL w (String c EmptyString) (nZ 0) None].
Proof. intros. eexists. split; reflexivity. Qed.

(** C83 REFUTED: element names are compared with case. *)
Lemma element_case_insensitive_refuted_main :
  let s := mkAtlas [] (fz 3000) (fz 5000) (fz 500) in
  (let (s', r) := atlas_add argsort_stable tol_cat s (tol_add (ElStr "xe") (fz 0)) in
   r = Ok tt /\ get_lines s' = []) /\
  (let (s', r) := atlas_add argsort_stable tol_cat s (tol_add (ElStr "Xe") (fz 0)) in
   r = Ok tt /\ get_lines s' = [fz 2800; fz 4000]).
Proof. vm_compute. auto. Qed.

Lemma gather_incl {T} (l : list T) idx : incl (gather l idx) l.
Proof. intros x Hx. apply gather_In in Hx. destruct Hx as (i & _ & Hi). eapply nth_error_In; eauto. Qed.

Lemma load_spelled {A} {N : Num A} argsort (cat : catalogue A) (a : load_args A) rows out :
  read_linelist cat (la_linelist a) = Ok rows -> load_calibration_lines argsort cat a = Ok out ->
  forall x, In x out -> In (l_el x) (la_elements a) /\ exists r, In r rows /\ l_el r = l_el x.
Proof.
  intros Hr H x Hx. apply load_unfold in H. destruct H as (sel & kept & Hs & Hk & ->).
  assert (K : exists y, In y kept /\ l_el y = l_el x).
  { destruct (la_vacuum a); [eauto|]. apply in_map_iff in Hx. destruct Hx as (y & <- & Hy). exists y. auto. }
  clear Hx. destruct K as (y & Hy & <-).
  assert (S : In y sel).
  { assert (B : In y (load_brightest argsort (la_brightest_n a) sel)).
    { unfold load_separate in Hk. destruct (nZ 0 <' la_min_distance a).
      - destruct (filter_separation _ _) as [m|e]; cbn [bind] in Hk; [|discriminate]. injection Hk as <-.
        eapply mask_select_incl; eauto.
      - injection Hk as <-. eapply mask_select_incl; eauto. }
    unfold load_brightest in B. destruct (la_brightest_n a); auto. eapply gather_incl; eauto. }
  unfold load_select in Hs. rewrite Hr in Hs. cbn [bind] in Hs. rewrite requested_eq in Hs.
  destruct (load_limits a) as [lo hi].
  destruct (intensity_mask _ _ _) as [m|e]; cbn [bind] in Hs; [|discriminate]. injection Hs as <-.
  apply mask_select_incl in S. apply filter_wavelengths_incl in S. pose proof (requested_incl _ _ _ S) as R.
  unfold requested in S. apply filter_In in S. destruct S as [_ S]. split; eauto.
  destruct (in_dec string_dec (l_el y) (la_elements a)); auto; discriminate.
Qed.

(** C83 (part that holds): every line that Atlas.add adds belongs to a requested
    symbol spelled exactly as in the line list; a call none of whose symbols is
    spelled as in the list adds nothing. *)
Lemma element_spelling_partial_main :
  forall (A : Type) (N : Num A) argsort (cat : catalogue A) (s s' : atlas A) (a : add_args A) rows,
    atlas_add argsort cat s a = (s', Ok tt) -> read_linelist cat (aa_linelist a) = Ok rows ->
    (exists new, at_lines s' = at_lines s ++ new /\
       forall x, In x new -> In (al_el x) (elements_of (aa_elements a)) /\ exists r, In r rows /\ l_el r = al_el x) /\
    ((forall e r, In e (elements_of (aa_elements a)) -> In r rows -> l_el r <> e) -> at_lines s' = at_lines s).
Proof.
  intros A N argsort cat s s' a rows H Hr.
  destruct (atlas_add_partial_main _ _ _ _ _ _ _ _ H) as (_ & _ & _ & new & Hn & L).
  assert (G : forall x, In x new -> In (al_el x) (elements_of (aa_elements a)) /\ exists r, In r rows /\ l_el r = al_el x).
  { assert (K : forall es rs, loaded argsort cat (request s a) es rs -> forall q, In q rs ->
        In (fst (fst q)) es /\ exists r, In r rows /\ l_el r = fst (fst q)).
    { induction 1 as [|e es rs rest Hl HL IH]; intros q Hq; [destruct Hq|].
      apply in_app_or in Hq. destruct Hq as [Hq|Hq].
      - apply in_map_iff in Hq. destruct Hq as (y & <- & Hy). cbn [fst].
        destruct (load_spelled _ _ (request s a e) rows _ Hr Hl y Hy) as [[H1|[]] H2].
        split; [left; exact H1|exact H2].
      - destruct (IH q Hq) as [H1 H2]. split; [right; auto|auto]. }
    intros x Hx. apply (K _ _ L (row_of x)). apply in_map; auto. }
  split; [exists new; auto|]. intros Hno. rewrite Hn. destruct new as [|x new]; [apply app_nil_r|].
  exfalso. destruct (G x (or_introl eq_refl)) as (H1 & r & H2 & H3). exact (Hno _ r H1 H2 H3).
Qed.

(** Both cases occur: see C83 above ("xe" and "Xe"); the list has lines of Xe. *)
Example element_spelling_example_main :
  (exists rows, read_linelist tol_cat (aa_linelist (tol_add (ElStr "Xe") (fz 0))) = Ok rows /\
     exists r, In r rows /\ l_el r = "Xe") /\
  snd (atlas_add argsort_stable tol_cat (mkAtlas [] (fz 3000) (fz 5000) (fz 500)) (tol_add (ElStr "Xe") (fz 0))) = Ok tt.
Proof.
  split; [|vm_compute; reflexivity]. eexists. split; [reflexivity|]. eexists. split; [left; reflexivity|reflexivity].
Qed.

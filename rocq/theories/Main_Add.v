(** * Main_Add: what Calibrator.add_atlas adds, with the proofs.  The statements
    are repeated, without proofs, in Props_Add.v. *)

From Coq Require Import ZArith Bool List String Lia Arith Sorted Permutation.
From Verif Require Import Num F64 XReal Py Np NpFacts Util SpecUtil UtilFacts LoadFacts ArgsortFacts Main_Util.
From Verif Require Import Atlas SpecAtlas AtlasFacts Main_Atlas Hough Calib SpecCalib CalibFacts SpecAdd.
Import ListNotations.
Local Open Scope string_scope.
Local Open Scope list_scope.
Local Open Scope num_scope.

Lemma atlas_init_is_add {A} {N : Num A} argsort (cat : catalogue A) els lo hi rt m d v p t h ll s :
  atlas_init argsort cat els lo hi rt m d v p t h ll = Ok s ->
  exists new, at_lines s = new /\
    loaded argsort cat (fun e => mkLoadArgs [e] lo hi m d v p t h ll (Some 1000%nat)) (elements_of els) (map row_of new).
Proof.
  unfold atlas_init. intros H.
  assert (K : forall s' r, els <> ElNone ->
    atlas_add argsort cat (mkAtlas [] lo hi rt)
      (mkAddArgs els (Some lo) (Some hi) m d v p t h ll (Some 1000%nat)) = (s', r) ->
    bind r (fun _ => Ok s') = Ok s ->
    exists new, at_lines s = new /\
    loaded argsort cat (fun e => mkLoadArgs [e] lo hi m d v p t h ll (Some 1000%nat)) (elements_of els) (map row_of new)).
  { intros s' r _ Ea Er. apply atlas_add_partial_main in Ea. destruct Ea as (_ & _ & _ & new & E & L).
    destruct r as [[]|]; [|discriminate]. cbn [bind] in Er. injection Er as <-.
    exists new. split; [exact E|exact L]. }
  destruct els as [|s0|l].
  - injection H as <-. exists []. split; auto. constructor.
  - destruct (atlas_add argsort cat (mkAtlas [] lo hi rt)
      (mkAddArgs (ElStr s0) (Some lo) (Some hi) m d v p t h ll (Some 1000%nat))) as [s' r] eqn:Ea.
    apply (K s' r); auto. discriminate.
  - destruct (atlas_add argsort cat (mkAtlas [] lo hi rt)
      (mkAddArgs (ElList l) (Some lo) (Some hi) m d v p t h ll (Some 1000%nat))) as [s' r] eqn:Ea.
    apply (K s' r); auto. discriminate.
Qed.

(** C126: Calibrator.add_atlas appends, element by element, what a load with the
    calibrator's own wavelength range (widened by its range tolerance) returns; pairs
    are then made of all peaks and all lines.  A call that raises loses no line. *)
Lemma calibrator_add_atlas_main :
  forall (A : Type) (N : Num A) argsort (cat : catalogue A) (hull : hull_test A) (c c' : calib A) (a : add_args A)
      (ct : A) (constrain : bool) r minw maxw rt,
    h_minw (c_hp c) = Some minw -> h_maxw (c_hp c) = Some maxw -> h_rt (c_hp c) = Some rt ->
    aa_brightest_n a = Some 1000%nat ->
    cal_add_atlas argsort cat hull c a ct constrain = (c', r) ->
    exists new, lines_of c' = lines_of c ++ new /\
      match r with
      | Ok _ =>
          loaded argsort cat (configured_request minw maxw rt a) (elements_of (aa_elements a)) (map row_of new) /\
          c_cand_tol c' = Some ct /\ c_constrain c' = constrain /\
          exists s, c_atlas c' = Some s /\ (constrain = false -> pairs_of_atlas (c_peaks c) s (c_pairs c'))
      | Raise _ => True
      end.
Proof.
  intros A N argsort cat hull c c' a ct k r minw maxw rt E1 E2 E3 Eb H.
  unfold cal_add_atlas in H. rewrite E1, E2, E3 in H. cbv zeta in H.
  change (match aa_min a with Some v => v | None => minw -' rt end) with (oget (minw -' rt) (aa_min a)) in H.
  change (match aa_max a with Some v => v | None => maxw +' rt end) with (oget (maxw +' rt) (aa_max a)) in H.
  set (lo := oget (minw -' rt) (aa_min a)) in *. set (hi := oget (maxw +' rt) (aa_max a)) in *.
  set (req := configured_request minw maxw rt a).
  assert (Fin : forall c1 s new, c_atlas c1 = Some s -> c_peaks c1 = c_peaks c -> at_lines s = lines_of c ++ new ->
     loaded argsort cat req (elements_of (aa_elements a)) (map row_of new) ->
     generate_pairs hull (set_c_constrain k (set_c_cand_tol (Some ct) c1)) = (c', r) ->
     exists new, lines_of c' = lines_of c ++ new /\
      match r with
      | Ok _ =>
          loaded argsort cat req (elements_of (aa_elements a)) (map row_of new) /\
          c_cand_tol c' = Some ct /\ c_constrain c' = k /\
          exists s, c_atlas c' = Some s /\ (k = false -> pairs_of_atlas (c_peaks c) s (c_pairs c'))
      | Raise _ => True
      end).
  { intros c1 s new Ea Ep El Hl Hg. exists new.
    destruct (generate_pairs_frame hull (set_c_constrain k (set_c_cand_tol (Some ct) c1))) as [p Ef].
    rewrite Hg in Ef. cbn [fst] in Ef.
    assert (Ea' : c_atlas c' = Some s) by (rewrite Ef; exact Ea).
    split; [unfold lines_of at 1; rewrite Ea'; exact El|].
    destruct r as [[]|]; [|exact I]. split; auto.
    split; [rewrite Ef; reflexivity|]. split; [rewrite Ef; reflexivity|].
    exists s. split; auto. intros ->.
    destruct (generate_pairs_plain hull (set_c_constrain false (set_c_cand_tol (Some ct) c1)) s Ea eq_refl) as [_ Hp].
    rewrite Hg in Hp. cbn [fst] in Hp. rewrite <- Ep. exact Hp. }
  destruct (c_atlas c) as [s|] eqn:Ea.
  - destruct (atlas_add argsort cat s _) as [s' r'] eqn:Eadd.
    apply atlas_add_partial_main in Eadd. destruct Eadd as (_ & _ & _ & new & El & HL).
    destruct r' as [[]|ex].
    + apply (Fin (set_c_atlas (Some s') c) s' new); auto.
      * unfold lines_of. rewrite Ea. exact El.
      * rewrite Eb in HL. exact HL.
    + injection H as <- <-. exists new. split; [|exact I].
      unfold lines_of. rewrite Ea. exact El.
  - destruct (atlas_init argsort cat _ _ _ _ _ _ _ _ _ _ _) as [s|ex] eqn:Ei.
    + apply atlas_init_is_add in Ei. destruct Ei as (new & El & HL).
      apply (Fin (set_c_atlas (Some s) c) s new); auto.
      unfold lines_of. rewrite Ea. exact El.
    + injection H as <- <-. exists []. rewrite app_nil_r. auto.
Qed.

(** C126: in vacuum and without a separation cut, the lines added are exactly the
    catalogue lines of the requested elements that are bright enough and in the range:
    nothing outside is ever added, and nothing inside is missing while the line list
    has at most 1000 rows. *)
Lemma calibrator_add_atlas_range_main :
  forall (A : Type) (N : Num A) (O : NumOrder A) argsort (cat : catalogue A) (hull : hull_test A) (c c' : calib A)
      (a : add_args A) (ct : A) (constrain : bool) minw maxw rt rows,
    (forall l, is_argsort l (argsort l)) ->
    h_minw (c_hp c) = Some minw -> h_maxw (c_hp c) = Some maxw -> h_rt (c_hp c) = Some rt ->
    aa_brightest_n a = Some 1000%nat -> aa_min a = None -> aa_max a = None -> aa_vacuum a = true ->
    nZ 0 <' aa_min_distance a = false ->
    read_linelist cat (aa_linelist a) = Ok rows ->
    (forall q, In q rows -> nisnan (l_wl q) = false /\ nisnan (l_int q) = false) ->
    cal_add_atlas argsort cat hull c a ct constrain = (c', Ok tt) ->
    exists new, lines_of c' = lines_of c ++ new /\
      (forall x, In x new ->
         minw -' rt <=' al_wl x = true /\ al_wl x <=' maxw +' rt = true /\
         In (al_el x) (elements_of (aa_elements a)) /\
         In (mkLine (al_el x) (al_wl x) (al_int x)) rows /\
         bright_enough [al_el x] (aa_min_intensity a) (mkLine (al_el x) (al_wl x) (al_int x))) /\
      ((List.length rows <= 1000)%nat ->
       forall e q i, In e (elements_of (aa_elements a)) -> earliest (requested [e] rows) i q ->
         minw -' rt <=' l_wl q = true -> l_wl q <=' maxw +' rt = true ->
         bright_enough [e] (aa_min_intensity a) q ->
         In (l_el q, l_wl q, l_int q) (map row_of new)).
Proof.
  intros A N O argsort cat hull c c' a ct k minw maxw rt rows Hs E1 E2 E3 Eb En Ex Ev Ed Er Hn H.
  destruct (calibrator_add_atlas_main A N argsort cat hull c c' a ct k (Ok tt) minw maxw rt E1 E2 E3 Eb H)
    as (new & El & HL & _).
  exists new. split; auto.
  assert (One : forall e out, load_calibration_lines argsort cat (configured_request minw maxw rt a e) = Ok out ->
    exists sel chosen rest, selection rows [e] (minw -' rt) (maxw +' rt) (aa_min_intensity a) sel /\
      Permutation (chosen ++ rest) sel /\ List.length chosen = Nat.min 1000 (List.length sel) /\ out = chosen).
  { intros e out Hl.
    destruct (load_brightest_exact_main A N O argsort cat (configured_request minw maxw rt a e) rows 1000 out)
      as (lo & hi & sel & chosen & rest & V & S & P & L & _ & F); auto.
    assert (EL : lo = minw -' rt /\ hi = maxw +' rt).
    { clear - V En Ex Ev. unfold vacuum_limits, configured_request in V. cbn in V.
      rewrite En, Ex, Ev in V. cbn in V. tauto. }
    destruct EL as [-> ->].
    exists sel, chosen, rest. split; [exact S|]. split; auto. split; auto.
    clear - F Ev. induction F as [|x y l l' P _ IH]; auto. f_equal; auto.
    unfold presented in P. cbn in P. rewrite Ev in P. destruct x, y; cbn in *. intuition congruence. }
  split.
  - intros x Hx. apply (in_map row_of) in Hx.
    enough (G : forall q : row A, In q (map row_of new) ->
      minw -' rt <=' snd (fst q) = true /\ snd (fst q) <=' maxw +' rt = true /\
      In (fst (fst q)) (elements_of (aa_elements a)) /\
      In (mkLine (fst (fst q)) (snd (fst q)) (snd q)) rows /\
      bright_enough [fst (fst q)] (aa_min_intensity a) (mkLine (fst (fst q)) (snd (fst q)) (snd q)))
      by (exact (G (row_of x) Hx)).
    clear Hx x H El. intros q Hq. induction HL as [|e es out rest Hl _ IH]; [destruct Hq|].
    apply in_app_or in Hq. destruct Hq as [Hq|Hq].
    2: { destruct (IH Hq) as (? & ? & ? & ? & ?). repeat (split; auto). right; auto. }
    apply in_map_iff in Hq. destruct Hq as (y & <- & Hy). cbn [fst snd].
    destruct (One e out Hl) as (sel & chosen & rst & [_ S] & P & _ & ->).
    assert (Hs' : In y sel) by (eapply Permutation_in; [exact P|apply in_or_app; auto]).
    apply S in Hs'. destruct Hs' as ([i Hi] & [Hlo Hhi] & Hb).
    assert (Hin : In y rows /\ l_el y = e).
    { unfold earliest in Hi. destruct Hi as [Hi _]. apply nth_error_In in Hi.
      unfold requested in Hi. apply filter_In in Hi. destruct Hi as [Hi Hq]. split; auto.
      destruct (in_dec string_dec (l_el y) [e]) as [[->|[]]|]; [reflexivity|discriminate]. }
    destruct Hin as [Hin <-]. destruct y as [ye yw yi]; cbn in *.
    repeat (split; auto).
  - intros Hlen e q i He Hear Hlo Hhi Hb. clear H El.
    induction HL as [|e' es out rest Hl _ IH]; [destruct He|].
    apply in_or_app. destruct He as [->|He]; [left|right; auto].
    destruct (One e out Hl) as (sel & chosen & rst & S & P & L & ->).
    apply in_map_iff. exists q. split; auto.
    assert (Hq : In q sel).
    { destruct S as [_ S]. apply S. split; eauto. split; auto. split; auto. }
    assert (Lsel : (List.length sel <= List.length rows)%nat).
    { destruct S as [Hinc S]. apply NoDup_incl_length.
      - clear - Hinc O. induction Hinc as [|x l _ IH Hx]; constructor; auto.
        intros Hin. rewrite Forall_forall in Hx. specialize (Hx _ Hin).
        rewrite ltb_irrefl in Hx. discriminate.
      - intros y Hy. apply S in Hy. destruct Hy as ((j & Hj & _) & _). apply nth_error_In in Hj.
        unfold requested in Hj. apply filter_In in Hj. tauto. }
    assert (rst = []).
    { apply Permutation_length in P. rewrite app_length in P. destruct rst; auto. cbn in P. lia. }
    subst rst. rewrite app_nil_r in P. eapply Permutation_in; [apply Permutation_sym; exact P|auto].
Qed.

Definition far_cat : catalogue f64 :=
  mkCatalogue [mkLine "Xe" (fz 2400) (fz 50); mkLine "Xe" (fz 2600) (fz 50); mkLine "He" (fz 4000) (fz 50);
               mkLine "Xe" (fz 9400) (fz 60); mkLine "Xe" (fz 9600) (fz 50); mkLine "Xe" (fz 5000) (fz 5)] (fun _ => None).
Definition far_add : add_args f64 :=
  mkAddArgs (ElStr "Xe") None None (ThNum (fz 10)) (fz 0) true (fz 101325) (fd 27315 (-2)) (fz 0)
    (LLStr "nist") (Some 1000%nat).

(** A new calibrator (3000 to 9000, tolerance 500) meets the hypotheses: of the five
    Xe lines the two that are in 2500 to 9500 and bright enough are added. *)
Example calibrator_add_atlas_example_main :
  match calib_init (fun _ p => Ok (map (fun _ => true) p)) [fz 10; fz 20] None return Prop with
  | Ok c =>
      h_minw (c_hp c) = Some (fz 3000) /\ h_maxw (c_hp c) = Some (fz 9000) /\ h_rt (c_hp c) = Some (fz 500) /\
      let (c', r) := cal_add_atlas argsort_stable far_cat (fun _ p => Ok (map (fun _ => true) p)) c far_add (fz 10) false in
      r = Ok tt /\ map row_of (lines_of c') = [("Xe", fz 9400, fz 60); ("Xe", fz 2600, fz 50)] /\
      c_pairs c' = PArr [(fz 10, fz 9400); (fz 10, fz 2600); (fz 20, fz 9400); (fz 20, fz 2600)] /\
      let (c2, r2) := cal_add_atlas argsort_stable far_cat (fun _ p => Ok (map (fun _ => true) p)) c'
          (mkAddArgs (ElStr "He") None (Some (fz 4500)) (ThNum (fz 10)) (fz 0) true (fz 101325) (fd 27315 (-2)) (fz 0)
             (LLStr "nist") (Some 1000%nat)) (fz 10) false in
      r2 = Ok tt /\ map (fun x => al_wl x) (lines_of c2) = [fz 9400; fz 2600; fz 4000]
  | Raise _ => False
  end.
Proof. vm_compute. repeat split. Qed.

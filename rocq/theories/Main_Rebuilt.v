(** * Main_Rebuilt: which atlas the pairs of a Calibrator belong to (C53). *)

From Coq Require Import ZArith Bool List String Lia.
From Verif Require Import Num F64 Py Np Util Atlas Hough Calib SpecCalib CalibFacts Main_Calib.
Import ListNotations.
Local Open Scope num_scope.

(** The calls that may compute the pairs anew. *)
Definition rebuilds {A} (o : cal_op A) : bool :=
  match o with OHough _ | OSetAtlas _ _ _ | OAddAtlas _ _ _ | OAddUser _ _ _ => true | _ => false end.

Section Rebuilt.
  Context {A : Type} {N : Num A}.

  Lemma step_pairs (e : env A) c o : rebuilds o = false ->
    c_pairs (fst (cal_step e c o)) = c_pairs c /\
    (shrinks_atlas o = false -> c_atlas (fst (cal_step e c o)) = c_atlas c).
  Proof.
    intros Ho. destruct o; cbn [rebuilds] in Ho; try discriminate; cbn [cal_step].
    - unfold set_calibrator_properties. cbv zeta.
      match goal with |- context [match ?x with Ok _ => _ | Raise _ => _ end] => destruct x end; split; reflexivity.
    - split; reflexivity.
    - split; reflexivity.
    - unfold set_ransac_properties. cbv zeta.
      repeat match goal with |- context [match ?x with _ => _ end] => destruct x end; split; reflexivity.
    - unfold set_known_pairs.
      repeat match goal with |- context [match ?x with _ => _ end] => destruct x end; split; reflexivity.
    - unfold cal_remove_lines. destruct (c_atlas c); split; try reflexivity; discriminate.
    - unfold cal_clear_atlas. destruct (c_atlas c); split; try reflexivity; discriminate.
    - unfold do_hough_transform. destruct (c_pairs c) as [| |l] eqn:E; [split; [exact E|reflexivity]| |];
        destruct (set_constraints _ _ _ _ _) as [t1 [u|x]]; try (split; [exact E|reflexivity]).
      match goal with |- context [let (_, _) := ?x in _] => destruct x as [t2 [u2|x2]] end;
        [|split; [exact E|reflexivity]].
      match goal with |- context [let (_, _) := ?x in _] => destruct x as [t3 [u3|x3]] end;
        split; try exact E; reflexivity.
    - unfold load_hough_transform. destruct (hough_load _ _ _ _). split; reflexivity.
  Qed.

  Lemma run_app (e : env A) c h1 h2 : cal_run e c (h1 ++ h2) = cal_run e (cal_run e c h1) h2.
  Proof. apply fold_left_app. Qed.

  Lemma step_rebuilds (e : env A) c o :
    rebuilds o = true -> snd (cal_step e c o) = Ok tt -> c_atlas (fst (cal_step e c o)) <> None ->
    exists a, c_atlas (fst (cal_step e c o)) = Some a /\
      (c_constrain (fst (cal_step e c o)) = false ->
       pairs_of_atlas (c_peaks c) a (c_pairs (fst (cal_step e c o)))).
  Proof.
    intros Ho Hr Ha.
    assert (G : forall c1 : calib A, c_peaks c1 = c_peaks c -> snd (generate_pairs (e_hull e) c1) = Ok tt ->
       exists a, c_atlas (fst (generate_pairs (e_hull e) c1)) = Some a /\
        (c_constrain (fst (generate_pairs (e_hull e) c1)) = false ->
         pairs_of_atlas (c_peaks c) a (c_pairs (fst (generate_pairs (e_hull e) c1))))).
    { intros c1 Hp1 Hg. destruct (generate_pairs_frame (e_hull e) c1) as [p Ep].
      destruct (c_atlas c1) as [a|] eqn:Ea; [|unfold generate_pairs in Hg; rewrite Ea in Hg; discriminate].
      exists a. split; [rewrite Ep; cbn; auto|].
      intros Hk. assert (c_constrain c1 = false) as Hk' by (rewrite Ep in Hk; exact Hk).
      destruct (generate_pairs_plain (e_hull e) c1 a Ea Hk') as [_ X]. rewrite Hp1 in X. exact X. }
    destruct o; cbn [rebuilds] in Ho; try discriminate; cbn [cal_step] in *.
    - revert Hr Ha. unfold set_hough_properties. cbv zeta.
      match goal with |- context [match ?x with Ok _ => _ | Raise _ => _ end] => destruct x; [|discriminate] end.
      destruct (g_pixels (c_gp c)); [|discriminate]. destruct (np_ptp l); [|discriminate].
      destruct (c_atlas c) eqn:Ea.
      + intros Hr _. apply G; auto.
      + intros _ Ha. cbn in Ha. congruence.
    - apply G; auto.
    - revert Hr. unfold cal_add_atlas. cbv zeta.
      destruct (h_minw (c_hp c)) as [minw|]; [|discriminate].
      destruct (h_maxw (c_hp c)) as [maxw|]; [|discriminate].
      destruct (h_rt (c_hp c)) as [rt|]; [|discriminate].
      destruct (c_atlas c) as [at_|].
      + destruct (atlas_add _ _ _ _) as [at' [[]|]]; [|discriminate]. apply G. reflexivity.
      + destruct (atlas_init _ _ _ _ _ _ _ _ _ _ _ _ _); [|discriminate]. apply G. reflexivity.
    - revert Hr. unfold cal_add_user_atlas. cbv zeta.
      destruct (add_user_atlas _ _) as [at' [[]|]]; [|discriminate]. apply G. reflexivity.
  Qed.
End Rebuilt.

(** C53 (what holds): whatever happened before, let a call of set_atlas, add_atlas,
    add_user_atlas or set_hough_properties succeed on a calibrator that then has an atlas,
    and let no further call of these four follow.  The pairs are, and stay, those of the
    atlas as it was after that call.  They are those of the current atlas if no line was
    removed since. *)
Lemma pairs_last_rebuilt_partial_main :
  forall (A : Type) (N : Num A) (e : env A) peaks spectrum c0 h1 o h2,
    calib_init (e_hull e) peaks spectrum = Ok c0 ->
    rebuilds o = true -> snd (cal_step e (cal_run e c0 h1) o) = Ok tt ->
    Forall (fun o' => rebuilds o' = false) h2 ->
    let c1 := cal_run e c0 (h1 ++ [o]) in
    let c := cal_run e c0 (h1 ++ o :: h2) in
    forall a, c_atlas c1 = Some a ->
      c_pairs c = c_pairs c1 /\
      (c_constrain c1 = false -> pairs_of_atlas peaks a (c_pairs c)) /\
      (Forall (fun o' => shrinks_atlas o' = false) h2 -> c_atlas c = Some a).
Proof.
  intros A N e peaks spectrum c0 h1 o h2 H0 Ho Hr Hf c1 c a Ha.
  assert (E1 : c1 = fst (cal_step e (cal_run e c0 h1) o)) by (unfold c1; rewrite run_app; reflexivity).
  assert (Ec : c = cal_run e c1 h2).
  { unfold c, c1. change (h1 ++ o :: h2)%list with (h1 ++ [o] ++ h2)%list. rewrite app_assoc. apply run_app. }
  assert (P : c_peaks (cal_run e c0 h1) = peaks).
  { apply (cal_run_inv e (fun c => c_peaks c = peaks)).
    - apply (init_others _ _ _ _ H0).
    - intros c' o' <-. apply step_peaks. }
  assert (Q : c_pairs c = c_pairs c1).
  { rewrite Ec. clearbody c1. clear - Hf. apply (cal_run_inv_ops e (fun o' => rebuilds o' = false) (fun c => c_pairs c = c_pairs c1)); auto.
    intros c' o' H <-. apply step_pairs, H. }
  split; [exact Q|]. split.
  - rewrite Q. rewrite E1 in Ha |- *.
    destruct (step_rebuilds e _ o Ho Hr) as (b & B1 & B2); [congruence|].
    rewrite Ha in B1. injection B1 as <-. rewrite P in B2. exact B2.
  - intros Hs. rewrite Ec, <- Ha. clearbody c1. clear - Hf Hs.
    assert (K : Forall (fun o' => rebuilds o' = false /\ shrinks_atlas o' = false) h2).
    { rewrite Forall_forall in *. auto. }
    apply (cal_run_inv_ops e (fun o' => rebuilds o' = false /\ shrinks_atlas o' = false) (fun c => c_atlas c = c_atlas c1)); auto.
    intros c' o' [K1 K2] <-. apply step_pairs; auto.
Qed.

(** A line removed, the Hough settings changed (which brings the pairs up to date), then the
    atlas cleared (which does not). *)
Example pairs_last_rebuilt_example_main :
  exists c0 : calib f64, calib_init all_inside [fz 10; fz 20] None = Ok c0 /\
    let h1 := [OSetAtlas atlas2 (fz 10) false; ORemove (fz 4000) (fz 1)] in
    snd (cal_step env0 (cal_run env0 c0 h1) (OHough no_hough_args)) = Ok tt /\
    (exists a, c_atlas (cal_run env0 c0 (h1 ++ [OHough no_hough_args])) = Some a) /\
    c_constrain (cal_run env0 c0 (h1 ++ [OHough no_hough_args])) = false /\
    c_pairs (cal_run env0 c0 (h1 ++ [OHough no_hough_args; OClear])) = PArr [(fz 10, fz 5000); (fz 20, fz 5000)].
Proof.
  eexists. split; [vm_compute; reflexivity|]. cbv zeta. split; [vm_compute; reflexivity|].
  split; [eexists; vm_compute; reflexivity|]. split; vm_compute; reflexivity.
Qed.

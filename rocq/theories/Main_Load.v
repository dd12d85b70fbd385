(** * Main_Load: how the result of load_calibration_lines depends on its arguments.
    The statements are repeated, without proofs, in Props_Load.v. *)

From Coq Require Import ZArith Bool List String Lia Sorted Permutation.
From Verif Require Import Num F64 Py Np NpFacts ArgsortFacts Util SpecUtil UtilFacts LoadFacts Main_Util RansacFacts.
Import ListNotations.
Local Open Scope string_scope.
Local Open Scope num_scope.

Section Facts.
  Context {A : Type} {N : Num A}.

  Lemma dict_const els (t : A) k : dict_get (map (fun e => (e, t)) els) k = if str_in k els then Some t else None.
  Proof.
    induction els as [|e r IH]; auto. cbn [map dict_get]. rewrite IH. unfold str_in. cbn [existsb].
    fold (str_in k r). destruct (str_in k r); [rewrite orb_true_r; reflexivity|]. rewrite orb_false_r.
    rewrite String.eqb_sym. reflexivity.
  Qed.

  Lemma loop_const els (t : A) (lines : list (line A)) :
    (forall l, In l lines -> In (l_el l) els) ->
    intensity_loop (map (fun e => (e, t)) els) lines = Ok (map (fun l => t <=' l_int l) lines).
  Proof.
    induction lines as [|l r IH]; intros H; auto. cbn [intensity_loop]. rewrite dict_const.
    assert (E : str_in (l_el l) els = true) by (apply str_in_In; apply H; left; auto). rewrite E.
    rewrite IH by (intros; apply H; right; auto). reflexivity.
  Qed.

  Lemma mask_map {T} (f : T -> bool) (l : list T) : mask_select (map f l) l = filter f l.
  Proof. induction l as [|x r IH]; auto. cbn. rewrite mask_select_cons. destruct (f x); rewrite IH; auto. Qed.

  Lemma subseq_filter_imp {T} (f g : T -> bool) l : (forall x, In x l -> g x = true -> f x = true) ->
    subseq (filter g l) (filter f l).
  Proof.
    induction l as [|x r IH]; intros H; [constructor|]. cbn.
    assert (IH' := IH (fun y Hy => H y (or_intror Hy))).
    destruct (g x) eqn:G.
    - rewrite (H x (or_introl eq_refl) G). constructor; auto.
    - destruct (f x); [constructor|]; auto.
  Qed.
  Lemma subseq_filter_both {T} (f : T -> bool) l1 l2 : subseq l1 l2 -> subseq (filter f l1) (filter f l2).
  Proof. induction 1; cbn; [constructor| |]; destruct (f x); try constructor; auto. Qed.
End Facts.

Section Select.
  Context {A : Type} {N : Num A}.

  (** The loaded rows, before the brightest are taken: deduplicated, in the limits and
      bright enough. *)
  Definition unique_rows (l : list (line A)) : list (line A) :=
    map fst (dedup_by wl_of (sort_by wl_of (combine l (seq 0 (List.length l))))).
  Lemma unique_rows_incl l : incl (unique_rows l) l.
  Proof.
    intros r Hr. apply in_map_iff in Hr. destruct Hr as ((r' & i) & <- & Hr). apply dedup_by_incl in Hr. apply sort_by_In in Hr.
    apply in_combine_l in Hr. exact Hr.
  Qed.

  Definition bright (m : thr A) (l : line A) : bool := match m with ThNum t => t <=' l_int l | _ => true end.

  Lemma select_eq cat (a : load_args A) rows lo hi :
    (match la_min_intensity a with ThList _ => False | _ => True end) ->
    read_linelist cat (la_linelist a) = Ok rows -> load_limits a = (lo, hi) ->
    load_select cat a = Ok (filter (bright (la_min_intensity a))
      (filter (fun r => (lo <=' l_wl r) && (l_wl r <=' hi))
         (unique_rows (filter (fun l => str_in (l_el l) (la_elements a)) rows)))).
  Proof.
    intros Hm Hr Hl. unfold load_select. rewrite Hr, Hl. cbn [bind]. rewrite mask_map, filter_wavelengths_eq.
    fold (unique_rows (filter (fun l => str_in (l_el l) (la_elements a)) rows)).
    set (sel := filter _ (unique_rows _)).
    assert (Hin : forall l, In l sel -> In (l_el l) (la_elements a)).
    { intros l Hin. apply filter_In in Hin. destruct Hin as (Hin & _). apply unique_rows_incl in Hin.
      apply filter_In in Hin. apply str_in_In. tauto. }
    destruct (la_min_intensity a) as [|t|l|]; cbn [intensity_mask bright] in *; try contradiction.
    - cbn [bind]. rewrite mask_map. reflexivity.
    - unfold filter_intensity. cbn [intensity_dict bind]. rewrite loop_const by exact Hin. cbn [bind]. rewrite mask_map. reflexivity.
    - cbn [bind]. rewrite mask_map. reflexivity.
  Qed.

  (** The arguments that both calls of a comparison share. *)
  Definition same_source (a a' : load_args A) : Prop :=
    la_vacuum a' = la_vacuum a /\ la_pressure a' = la_pressure a /\ la_temperature a' = la_temperature a /\
    la_rh a' = la_rh a /\ la_linelist a' = la_linelist a.

  Lemma same_air a a' (r : line A) : same_source a a' -> row_to_air a' r = row_to_air a r.
  Proof. intros (_ & H1 & H2 & H3 & _). unfold row_to_air. rewrite H1, H2, H3. reflexivity. Qed.
End Select.

(** C102: the order in which elements are given, and repetitions, do not matter. *)
Lemma load_elements_order_main :
  forall (A : Type) (N : Num A) argsort (cat : catalogue A) (a : load_args A) els,
    (forall e, In e els <-> In e (la_elements a)) ->
    (match la_min_intensity a with ThList _ => False | _ => True end) ->
    load_calibration_lines argsort cat
      (mkLoadArgs els (la_min_wl a) (la_max_wl a) (la_min_intensity a) (la_min_distance a) (la_vacuum a) (la_pressure a)
         (la_temperature a) (la_rh a) (la_linelist a) (la_brightest_n a)) =
    load_calibration_lines argsort cat a.
Proof.
  intros A N argsort cat a els He Hm. unfold load_calibration_lines.
  set (a' := mkLoadArgs els _ _ _ _ _ _ _ _ _ _).
  assert (E : load_select cat a' = load_select cat a).
  { destruct (read_linelist cat (la_linelist a)) as [rows|e] eqn:Er.
    - destruct (load_limits a) as [lo hi] eqn:El.
      rewrite (select_eq cat a rows lo hi Hm Er El). rewrite (select_eq cat a' rows lo hi); auto.
      f_equal. f_equal. f_equal. f_equal. apply filter_ext. intros l. cbn [a' la_elements].
      destruct (str_in (l_el l) (la_elements a)) eqn:E1; destruct (str_in (l_el l) els) eqn:E2; auto; exfalso.
      + apply str_in_In in E1. apply He in E1. apply str_in_In in E1. congruence.
      + apply str_in_In in E2. apply He in E2. apply str_in_In in E2. congruence.
    - unfold load_select. cbn [a' la_linelist]. rewrite Er. reflexivity. }
  rewrite E. reflexivity.
Qed.

Example load_elements_order_example_main :
  let a := ex_args ["He"; "Xe"] (ThNum (fz 2)) (fz 5) None in
  (forall e, In e ["Xe"; "He"; "Xe"]%string <-> In e (la_elements a)) /\
  load_calibration_lines argsort_stable (ex_cat ex_lines) (ex_args ["Xe"; "He"; "Xe"] (ThNum (fz 2)) (fz 5) None)
  = Ok [mkLine "Xe" (fz 10) (fz 2); mkLine "He" (fz 30) (fz 5)].
Proof. split; [intros e; cbn; intuition|vm_compute; reflexivity]. Qed.

(** C102 with a list of thresholds: elements and thresholds may be permuted together. *)
Lemma load_elements_permuted_main :
  forall (A : Type) (N : Num A) argsort (cat : catalogue A) (a : load_args A) l els l',
    la_min_intensity a = ThList l -> NoDup (la_elements a) ->
    List.length l = List.length (la_elements a) -> List.length l' = List.length els ->
    Permutation (combine els l') (combine (la_elements a) l) ->
    load_calibration_lines argsort cat
      (mkLoadArgs els (la_min_wl a) (la_max_wl a) (ThList l') (la_min_distance a) (la_vacuum a) (la_pressure a)
         (la_temperature a) (la_rh a) (la_linelist a) (la_brightest_n a)) =
    load_calibration_lines argsort cat a.
Proof.
  intros A N argsort cat a l els l' Hl Hd L L' P. unfold load_calibration_lines.
  set (a' := mkLoadArgs els _ _ _ _ _ _ _ _ _ _).
  assert (Fst : forall (x : list string) (y : list A), List.length y = List.length x -> map fst (combine x y) = x).
  { intros x. induction x as [|u x IH]; intros [|v y] E; try discriminate; auto. cbn. f_equal. apply IH. cbn in E. lia. }
  assert (He : forall e, In e els <-> In e (la_elements a)).
  { intros e. rewrite <- (Fst els l' L'), <- (Fst (la_elements a) l L). split; intros H.
    - eapply Permutation_in; [apply Permutation_map; exact P|exact H].
    - eapply Permutation_in; [apply Permutation_map; apply Permutation_sym; exact P|exact H]. }
  assert (Dg : forall k, dict_get (combine els l') k = dict_get (combine (la_elements a) l) k).
  { assert (G : forall d d' : list (string * A), Permutation d d' -> NoDup (map fst d') -> forall k, dict_get d k = dict_get d' k).
    { intros d d' Q. assert (K : forall (z : list (string * A)) k t, NoDup (map fst z) -> (dict_get z k = Some t <-> In (k, t) z)).
      { intros z. induction z as [|[k' t'] z IH]; intros k t ND; [split; [discriminate|contradiction]|].
        cbn in ND. apply NoDup_cons_iff in ND. destruct ND as (N1 & N2). cbn [dict_get In].
        destruct (dict_get z k) as [v|] eqn:E.
        - pose proof (proj1 (IH k v N2) E) as Hin. split.
          + intros Q'. right. congruence.
          + intros [Q'|Q']; [exfalso; apply N1; assert (k' = k) by congruence; subst; apply (in_map fst) in Hin; exact Hin|].
            apply (IH k t N2) in Q'. congruence.
        - destruct (String.eqb_spec k' k).
          + subst. split; [intros Q'; left; congruence|]. intros [Q'|Q']; [congruence|]. apply (IH k t N2) in Q'. congruence.
          + split; [discriminate|]. intros [Q'|Q']; [congruence|]. apply (IH k t N2) in Q'. congruence. }
      intros ND k. assert (ND' : NoDup (map fst d)) by (eapply Permutation_NoDup; [apply Permutation_map; apply Permutation_sym; exact Q|exact ND]).
      destruct (dict_get d k) as [t|] eqn:E.
      - apply (K d k t ND') in E. symmetry. apply (K d' k t ND). eapply Permutation_in; eauto.
      - destruct (dict_get d' k) as [t|] eqn:E'; auto. apply (K d' k t ND) in E'.
        apply (Permutation_in _ (Permutation_sym Q)) in E'. apply (K d k t ND') in E'. congruence. }
    apply G; auto. rewrite Fst; auto. }
  assert (E : load_select cat a' = load_select cat a).
  { unfold load_select. cbn [a' la_linelist la_elements]. destruct (read_linelist cat (la_linelist a)) as [rows|e]; auto. cbn [bind].
    change (load_limits a') with (load_limits a). destruct (load_limits a) as [lo hi].
    assert (Em : map (fun x => str_in (l_el x) els) rows = map (fun x => str_in (l_el x) (la_elements a)) rows).
    { apply map_ext. intros x.
      destruct (str_in (l_el x) (la_elements a)) eqn:E1; destruct (str_in (l_el x) els) eqn:E2; auto; exfalso.
      + apply str_in_In in E1. apply He in E1. apply str_in_In in E1. congruence.
      + apply str_in_In in E2. apply He in E2. apply str_in_In in E2. congruence. }
    rewrite Em. change (la_min_intensity a') with (ThList l'). rewrite Hl. cbn [intensity_mask]. unfold filter_intensity. cbn [intensity_dict].
    rewrite L, L', !Nat.eqb_refl. cbn [bind].
    set (sel := filter_wavelengths _ lo hi).
    assert (El : intensity_loop (combine els l') sel = intensity_loop (combine (la_elements a) l) sel).
    { induction sel as [|x r IH]; auto. cbn [intensity_loop]. rewrite Dg, IH. reflexivity. }
    rewrite El. reflexivity. }
  rewrite E. reflexivity.
Qed.

Example load_elements_permuted_example_main :
  NoDup ["He"; "Xe"]%string /\
  Permutation (combine ["Xe"; "He"]%string [fz 2; fz 5]) (combine ["He"; "Xe"]%string [fz 5; fz 2]) /\
  load_calibration_lines argsort_stable (ex_cat ex_lines) (ex_args ["Xe"; "He"] (ThList [fz 2; fz 5]) (fz 0) None) =
  Ok [mkLine "Xe" (fz 10) (fz 2); mkLine "He" (fz 30) (fz 5)].
Proof.
  split; [repeat constructor; cbn; intuition discriminate|]. split; [cbn; apply perm_swap|]. vm_compute. reflexivity.
Qed.

(** C103: without brightest_n_lines, narrowing the range (in vacuum) or raising the
    threshold of a call without min_distance only leaves lines out. *)
Lemma load_narrower_main :
  forall (A : Type) (N : Num A) (O : NumOrder A) argsort (cat : catalogue A) (a a' : load_args A) t t' out out',
    same_source a a' -> la_elements a' = la_elements a ->
    la_brightest_n a = None -> la_brightest_n a' = None ->
    nZ 0 <' la_min_distance a = false ->
    ((la_min_wl a' = la_min_wl a /\ la_max_wl a' = la_max_wl a) \/
     (la_vacuum a = true /\ la_min_wl a <=' la_min_wl a' = true /\ la_max_wl a' <=' la_max_wl a = true)) ->
    la_min_intensity a = ThNum t -> la_min_intensity a' = ThNum t' -> t <=' t' = true ->
    load_calibration_lines argsort cat a = Ok out ->
    load_calibration_lines argsort cat a' = Ok out' ->
    subseq out' out.
Proof.
  intros A N O argsort cat a a' t t' out out' Hs He Hb Hb' Hd Hr Ht Ht' Hle H H'.
  apply load_unfold in H. destruct H as (sel & kept & H1 & H2 & ->).
  apply load_unfold in H'. destruct H' as (sel' & kept' & H1' & H2' & ->).
  rewrite Hb in H2. rewrite Hb' in H2'. cbn [load_brightest] in H2, H2'.
  assert (Ek : kept = sel).
  { unfold load_separate in H2. rewrite Hd, mask_select_all_true in H2. congruence. }
  assert (Sk : subseq kept' sel').
  { unfold load_separate in H2'. destruct (nZ 0 <' la_min_distance a').
    - apply bind_Ok in H2'. destruct H2' as (m & _ & H2'). assert (kept' = mask_select m sel') by congruence. subst. apply subseq_mask.
    - rewrite mask_select_all_true in H2'. assert (kept' = sel') by congruence. subst. apply subseq_refl. }
  assert (Ss : subseq sel' sel).
  { destruct (read_linelist cat (la_linelist a)) as [rows|e] eqn:Er; [|unfold load_select in H1; rewrite Er in H1; discriminate].
    destruct (load_limits a) as [lo hi] eqn:El. destruct (load_limits a') as [lo' hi'] eqn:El'.
    assert (Er' : read_linelist cat (la_linelist a') = Ok rows) by (destruct Hs as (_ & _ & _ & _ & ->); exact Er).
    rewrite (select_eq cat a rows lo hi) in H1 by (auto; rewrite Ht; exact I).
    rewrite (select_eq cat a' rows lo' hi') in H1' by (auto; rewrite Ht'; exact I).
    assert (E1 : forall x y : list (line A), Ok x = Ok y -> y = x) by (intros; congruence).
    apply E1 in H1. apply E1 in H1'. rewrite H1, H1', He, Ht, Ht'. cbn [bright].
    set (u := unique_rows _).
    eapply subseq_trans; [apply subseq_filter_imp with (f := fun l => t <=' l_int l); intros x _ Hx; eapply leb_trans; eauto|].
    apply subseq_filter_both. apply subseq_filter_imp. intros x _ Hx. apply andb_true_iff in Hx. destruct Hx as (Hx1 & Hx2).
    destruct Hr as [(R1 & R2)|(Rv & R1 & R2)].
    - destruct Hs as (S1 & S2 & S3 & S4 & _). unfold load_limits in El, El'. rewrite S1, S2, S3, S4, R1, R2 in El'.
      assert ((lo', hi') = (lo, hi)) as Ep by congruence. injection Ep as -> ->. rewrite Hx1, Hx2. reflexivity.
    - destruct Hs as (S1 & _). unfold load_limits in El, El'. rewrite S1, Rv in El'. rewrite Rv in El.
      injection El as <- <-. injection El' as <- <-. apply andb_true_iff. split; [exact (leb_trans _ _ _ R1 Hx1)|exact (leb_trans _ _ _ Hx2 R2)]. }
  subst kept. pose proof (subseq_trans _ _ _ Sk Ss) as S. pose proof (proj1 Hs) as S1. rewrite S1.
  destruct (la_vacuum a) eqn:Ev; auto.
  assert (Em : map (row_to_air a') kept' = map (row_to_air a) kept').
  { apply map_ext. intros r. apply same_air. exact Hs. }
  rewrite Em. apply subseq_map. exact S.
Qed.

(** C103: raising min_distance only leaves lines out. *)
Lemma load_distance_monotone_main :
  forall (A : Type) (N : Num A) (O : NumOrder A) argsort (cat : catalogue A) (a : load_args A) d' out out',
    la_min_distance a <=' d' = true ->
    load_calibration_lines argsort cat a = Ok out ->
    load_calibration_lines argsort cat
      (mkLoadArgs (la_elements a) (la_min_wl a) (la_max_wl a) (la_min_intensity a) d' (la_vacuum a) (la_pressure a)
         (la_temperature a) (la_rh a) (la_linelist a) (la_brightest_n a)) = Ok out' ->
    subseq out' out.
Proof.
  intros A N O argsort cat a d' out out' Hd H H'. set (a' := mkLoadArgs _ _ _ _ _ _ _ _ _ _ _) in H'.
  apply load_unfold in H. destruct H as (sel & kept & H1 & H2 & ->).
  apply load_unfold in H'. destruct H' as (sel' & kept' & H1' & H2' & ->).
  assert (sel' = sel) by (change (load_select cat a') with (load_select cat a) in H1'; congruence). subst sel'.
  change (la_brightest_n a') with (la_brightest_n a) in H2'. change (la_min_distance a') with d' in H2'.
  set (l := load_brightest argsort (la_brightest_n a) sel) in *.
  assert (S : subseq kept' kept).
  { unfold load_separate in H2, H2'. destruct (nZ 0 <' la_min_distance a) eqn:E.
    - rewrite (ltb_leb_trans _ _ _ E Hd) in H2'.
      apply bind_Ok in H2. destruct H2 as (m & Hm & H2). apply bind_Ok in H2'. destruct H2' as (m' & Hm' & H2').
      assert (kept = mask_select m l) by congruence. assert (kept' = mask_select m' l) by congruence. subst.
      unfold filter_separation in Hm, Hm'. destruct (map l_wl l) as [|w ws] eqn:Ew; [discriminate|].
      set (dist := set_last _ _) in Hm. fold dist in Hm'. clearbody dist.
      assert (m = map (fun x => la_min_distance a <=' nabs x) dist) by congruence.
      assert (m' = map (fun x => d' <=' nabs x) dist) by congruence. subst m m'. clearbody l. clear -Hd O.
      revert l. induction dist as [|x dist IH]; intros l; [cbn; constructor|].
      destruct l as [|r l]; [rewrite !mask_select_nil_r; constructor|]. cbn [map]. rewrite !mask_select_cons.
      destruct (d' <=' nabs x) eqn:E.
      + rewrite (leb_trans _ _ _ Hd E). constructor. apply IH.
      + destruct (la_min_distance a <=' nabs x); [constructor|]; apply IH.
    - rewrite mask_select_all_true in H2. assert (kept = l) by congruence. subst kept.
      destruct (nZ 0 <' d').
      + apply bind_Ok in H2'. destruct H2' as (m & _ & H2'). assert (kept' = mask_select m l) by congruence. subst. apply subseq_mask.
      + rewrite mask_select_all_true in H2'. assert (kept' = l) by congruence. subst. apply subseq_refl. }
  change (la_vacuum a') with (la_vacuum a). destruct (la_vacuum a); auto. apply (subseq_map (row_to_air a)). exact S.
Qed.

(** Non-vacuity of C103. *)
Example load_monotone_example_main :
  let load t d := load_calibration_lines argsort_stable (ex_cat ex_lines) (ex_args ["He"; "Xe"] (ThNum (fz t)) (fz d) None) in
  load 1%Z 0%Z = Ok [mkLine "Xe" (fz 10) (fz 2); mkLine "He" (fz 30) (fz 5); mkLine "Xe" (fz 70) (fz 1)] /\
  load 2%Z 0%Z = Ok [mkLine "Xe" (fz 10) (fz 2); mkLine "He" (fz 30) (fz 5)] /\
  load 1%Z 30%Z = Ok [mkLine "Xe" (fz 70) (fz 1)].
Proof. vm_compute. auto. Qed.

(** C104 fails with min_distance: raising the threshold from 1 to 5 brings in a line,
    because its faint neighbour is no longer there. *)
Lemma load_intensity_monotone_refuted_main :
  let lines := [mkLine "Xe" (fz 100) (fz 10); mkLine "Xe" (fz 101) (fz 1); mkLine "Xe" (fz 120) (fz 10)] in
  let load t := load_calibration_lines argsort_stable (ex_cat lines) (ex_args ["Xe"] (ThNum (fz t)) (fz 5) None) in
  load 1%Z = Ok [mkLine "Xe" (fz 120) (fz 10)] /\
  load 5%Z = Ok [mkLine "Xe" (fz 100) (fz 10); mkLine "Xe" (fz 120) (fz 10)].
Proof. vm_compute. auto. Qed.

(** * Main_Mirror: the limits of an atlas over a history (C128) and the atlas of a
    calibrator over a history (C129). *)

From Coq Require Import ZArith Bool List String Lia Arith.
From Verif Require Import Num F64 Py Np NpFacts Util SpecUtil ArgsortFacts.
From Verif Require Import Atlas SpecAtlas AtlasFacts Main_Atlas Hough Calib SpecCalib CalibFacts Main_Calib SpecAdd SpecMirror.
Import ListNotations.
Local Open Scope string_scope.
Local Open Scope list_scope.
Local Open Scope num_scope.

Section Limits.
  Context {A : Type} {N : Num A}.

  Lemma step_limits argsort (cat : catalogue A) s o : ~ accepted o ->
    let s' := fst (atlas_step argsort cat s o) in
    at_min s' = at_min s /\ at_max s' = at_max s /\ at_range_tol s' = at_range_tol s.
  Proof.
    intros Hn s'. destruct o; unfold s'; cbn [atlas_step]; auto.
    - pose proof (add_user_atlas_spec s u) as H. destruct (add_user_atlas s u) as [s1 r]. cbn [fst].
      destruct H as [(_ & rows & _ & Hs & _)|(-> & _)]; auto. exfalso. apply Hn. exists u, rows. auto.
    - destruct (atlas_add argsort cat s a) as [s1 r] eqn:E. apply atlas_add_partial_main in E. cbn [fst]. tauto.
  Qed.

  Lemma run_limits argsort (cat : catalogue A) h : Forall (fun o => ~ accepted o) h -> forall s,
    let s' := atlas_run argsort cat s h in
    at_min s' = at_min s /\ at_max s' = at_max s /\ at_range_tol s' = at_range_tol s.
  Proof.
    induction 1 as [|o h Ho _ IH]; intros s s'; [auto|]. unfold s', atlas_run. cbn [fold_left].
    destruct (step_limits argsort cat s o Ho) as (E1 & E2 & E3). rewrite <- E1, <- E2, <- E3. apply IH.
  Qed.

  Lemma run_tol argsort (cat : catalogue A) h : forall s, at_range_tol (atlas_run argsort cat s h) = at_range_tol s.
  Proof.
    induction h as [|o h IH]; intros s; auto. unfold atlas_run in *. cbn [fold_left]. rewrite IH.
    destruct o; cbn [atlas_step]; auto.
    - pose proof (add_user_atlas_spec s u) as H. destruct (add_user_atlas s u) as [s1 r]. cbn [fst].
      destruct H as [(_ & rows & new & _ & _ & _ & _ & _ & _ & E)|(-> & _)]; auto.
    - destruct (atlas_add argsort cat s a) as [s1 r] eqn:E. apply atlas_add_partial_main in E. cbn [fst]. tauto.
  Qed.
End Limits.

(** C128: the limits with which Atlas.add works by default.  Only an accepted
    add_user_atlas changes them; rejected calls, Atlas.add, removals and clear do not. *)
Lemma atlas_limits_kept_main :
  forall (A : Type) (N : Num A) argsort (cat : catalogue A) lo hi tol (h : list (atlas_op A)),
    Forall (fun o => ~ accepted o) h ->
    let s := atlas_run argsort cat (mkAtlas [] lo hi tol) h in
    at_min s = lo /\ at_max s = hi /\ at_range_tol s = tol.
Proof. intros A N argsort cat lo hi tol h Hh s. exact (run_limits argsort cat h Hh (mkAtlas [] lo hi tol)). Qed.

(** C128: otherwise they are the extremes of the last accepted user list; the range
    tolerance never changes. *)
Lemma atlas_limits_last_main :
  forall (A : Type) (N : Num A) (O : NumOrder A) argsort (cat : catalogue A) s0 h1 u h2 rows,
    supplied u rows -> (forall r, In r rows -> nisnan (snd (fst r)) = false) ->
    Forall (fun o => ~ accepted o) h2 ->
    let s := atlas_run argsort cat s0 (h1 ++ OpUser u :: h2) in
    In (at_min s) (map (fun r => snd (fst r)) rows) /\
    In (at_max s) (map (fun r => snd (fst r)) rows) /\
    (forall r, In r rows -> at_min s <=' snd (fst r) = true /\ snd (fst r) <=' at_max s = true) /\
    at_range_tol s = at_range_tol s0.
Proof.
  intros A N O argsort cat s0 h1 u h2 rows Hs Hn Hh s.
  assert (Et : at_range_tol s = at_range_tol s0) by apply run_tol.
  assert (E : s = atlas_run argsort cat (fst (add_user_atlas (atlas_run argsort cat s0 h1) u)) h2).
  { unfold s, atlas_run. rewrite fold_left_app. reflexivity. }
  destruct (run_limits argsort cat h2 Hh (fst (add_user_atlas (atlas_run argsort cat s0 h1) u))) as (E1 & E2 & _).
  rewrite <- E in E1, E2. clear E.
  pose proof (add_user_atlas_spec (atlas_run argsort cat s0 h1) u) as H.
  destruct (add_user_atlas (atlas_run argsort cat s0 h1) u) as [s1 r]. cbn [fst] in E1, E2.
  destruct H as [(_ & rows' & new & Hs' & _ & _ & _ & Hmin & Hmax & _)|(_ & H & _)]; [|exfalso; eapply H; eauto].
  assert (Heq : rows' = rows) by (eapply supplied_unique; eauto). rewrite Heq in *. clear Heq.
  rewrite <- E1 in Hmin. rewrite <- E2 in Hmax.
  assert (Hn' : forall x, In x (map (fun r : row A => snd (fst r)) rows) -> nisnan x = false).
  { intros x Hx. apply in_map_iff in Hx. destruct Hx as (q & <- & Hq). auto. }
  destruct (py_min_le _ _ Hmin Hn') as [I1 L1]. destruct (py_max_ge _ _ Hmax Hn') as [I2 L2].
  split; [exact I1|]. split; [exact I2|]. split; [|exact Et].
  intros q Hq. split; [apply L1|apply L2]; apply in_map_iff; eauto.
Qed.

(** C128: clear empties the atlas and nothing else: a later Atlas.add loads what it would
    have appended to the uncleared atlas, with the same outcome. *)
Lemma cleared_atlas_refills_main :
  forall (A : Type) (N : Num A) argsort (cat : catalogue A) (s : atlas A) (a : add_args A),
    at_lines (atlas_clear s) = [] /\
    snd (atlas_add argsort cat (atlas_clear s) a) = snd (atlas_add argsort cat s a) /\
    at_lines (fst (atlas_add argsort cat s a)) =
      at_lines s ++ at_lines (fst (atlas_add argsort cat (atlas_clear s) a)).
Proof.
  intros A N argsort cat s a. split; [reflexivity|]. unfold atlas_add.
  cbn [at_min at_max at_range_tol at_lines atlas_clear at_set_lines].
  set (lo := match aa_min a with Some v => v | None => _ end). set (hi := match aa_max a with Some v => v | None => _ end).
  destruct (negb (nisfinite lo)); [cbn; rewrite app_nil_r; auto|].
  destruct (negb (nisfinite hi)); [cbn; rewrite app_nil_r; auto|].
  assert (G : forall els pre acc,
    snd (add_loop argsort cat a lo hi els (pre ++ acc)) = snd (add_loop argsort cat a lo hi els acc) /\
    fst (add_loop argsort cat a lo hi els (pre ++ acc)) = pre ++ fst (add_loop argsort cat a lo hi els acc)).
  { induction els as [|e els IH]; intros pre acc; cbn [add_loop]; [auto|].
    destruct (load_calibration_lines _ _ _); [|auto]. rewrite <- app_assoc. apply IH. }
  destruct (G (elements_of (aa_elements a)) (at_lines s) []) as [G1 G2]. rewrite app_nil_r in G1, G2.
  destruct (add_loop argsort cat a lo hi _ (at_lines s)) as [l1 r1].
  destruct (add_loop argsort cat a lo hi _ []) as [l2 r2]. cbn in *. auto.
Qed.

Definition lim_history1 : list (atlas_op f64) :=
  [OpRemove (fz 21) (fz 5); OpUser (uargs (UElSeq (SeqList ["Xe"])) (SeqList []) None); OpClear].
Definition lim_user : user_args f64 := uargs (UElSeq (SeqList ["Hg"; "Ar"])) (SeqList [fz 40; fz 20]) None.
Lemma lim_history1_rejected : Forall (fun o => ~ accepted o) lim_history1.
Proof.
  repeat constructor; intros (u & rows & E & S); try discriminate. injection E as <-.
  destruct S as (els & ws & _ & E & _ & Hne & _). cbn in E. injection E as <-. auto.
Qed.
Example atlas_limits_example_main :
  Forall (fun o => ~ accepted o) lim_history1 /\
  supplied lim_user [("Hg", fz 40, fz 0); ("Ar", fz 20, fz 0)] /\
  (forall r : row f64, In r [("Hg", fz 40, fz 0); ("Ar", fz 20, fz 0)] -> nisnan (snd (fst r)) = false) /\
  let s := atlas_run argsort_stable no_cat (mkAtlas [] (fz 3000) (fz 5000) (fz 500)) (lim_history1 ++ OpUser lim_user :: lim_history1) in
  at_min s = fz 20 /\ at_max s = fz 40 /\ at_lines s = [].
Proof.
  split; [apply lim_history1_rejected|]. split.
  - exists ["Hg"; "Ar"], [fz 40; fz 20]. cbn. repeat split; auto. discriminate.
  - split; [intros r [<-|[<-|[]]]; reflexivity|]. vm_compute. auto.
Qed.

(* ------------------------------------------------------------------ *)
(** ** C129 *)

Section Mirror.
  Context {A : Type} {N : Num A}.

  Lemma pairs_keep_atlas hull (c : calib A) : c_atlas (fst (generate_pairs hull c)) = c_atlas c.
  Proof. destruct (generate_pairs_frame hull c) as [p ->]. reflexivity. Qed.

  Definition touches_atlas (o : cal_op A) : bool :=
    match o with OSetAtlas _ _ _ | OAddAtlas _ _ _ | OAddUser _ _ _ | ORemove _ _ | OClear => true | _ => false end.

  Lemma step_keeps_atlas (e : env A) c o : touches_atlas o = false -> c_atlas (fst (cal_step e c o)) = c_atlas c.
  Proof.
    destruct o as [np px lib| | |h|h|p w|at_ ct k|h ct k|u ct k|w t| |b|fs n t]; cbn [touches_atlas]; intros H;
      try discriminate; cbn [cal_step]; auto.
    - unfold set_calibrator_properties. cbv zeta.
      match goal with |- context[match ?x with Ok n => _ | Raise e => _ end] => destruct x end; auto.
    - unfold set_hough_properties. cbv zeta.
      match goal with |- context[match ?x with Ok n => _ | Raise e => _ end] => destruct x end; [|auto].
      destruct (g_pixels _); [|auto]. destruct (np_ptp _); [|auto].
      destruct (c_atlas c) eqn:E; [rewrite pairs_keep_atlas|]; cbn; auto.
    - unfold set_ransac_properties. cbv zeta.
      destruct (negb _); [|destruct (negb _); [|destruct (negb _)]]; auto.
    - unfold set_known_pairs. destruct p; [|auto]. destruct w; [|auto].
      destruct (negb _); [auto|]. destruct (existsb _ _); [auto|]. destruct (existsb _ _); auto.
    - unfold do_hough_transform. destruct (c_pairs c); [auto| |];
      destruct (set_constraints _ _ _ _ _) as [t1 [v|ex]]; cbn [fst]; auto.
      match goal with |- context[let (t2, r2) := ?x in _] => destruct x as [t2 [v2|ex2]] end; [|auto].
      match goal with |- context[let (t3, r3) := ?x in _] => destruct x as [t3 [v3|ex3]] end; auto.
    - unfold load_hough_transform. destruct (hough_load _ _ _ _). auto.
  Qed.

  Lemma step_mirror (e : env A) c o s minw maxw rt :
    (forall a t k, o <> OSetAtlas a t k) -> c_atlas c = Some s ->
    h_minw (c_hp c) = Some minw -> h_maxw (c_hp c) = Some maxw -> h_rt (c_hp c) = Some rt ->
    c_atlas (fst (cal_step e c o)) =
      Some (atlas_run (e_argsort e) (e_cat e) s (atlas_call minw maxw rt o)).
  Proof.
    intros Hn Ha E1 E2 E3.
    destruct (touches_atlas o) eqn:Et.
    2:{ rewrite step_keeps_atlas by auto. rewrite Ha. destruct o; try discriminate; reflexivity. }
    destruct o as [np px lib| | |h|h|p w|at_ ct k|a ct k|u ct k|w t| |b|fs n t]; try discriminate; cbn [cal_step atlas_call].
    - exfalso. eapply Hn. reflexivity.
    - unfold cal_add_atlas. cbv zeta. rewrite E1, E2, E3, Ha. unfold atlas_run. cbn [fold_left atlas_step].
      change (match aa_min a with Some v => v | None => minw -' rt end) with (oget (minw -' rt) (aa_min a)).
      change (match aa_max a with Some v => v | None => maxw +' rt end) with (oget (maxw +' rt) (aa_max a)).
      destruct (atlas_add _ _ _ _) as [s' [v|ex]]; [rewrite pairs_keep_atlas|]; reflexivity.
    - unfold cal_add_user_atlas. cbv zeta. rewrite Ha. unfold atlas_run. cbn [fold_left atlas_step].
      destruct (add_user_atlas s u) as [s' [v|ex]]; [rewrite pairs_keep_atlas|]; reflexivity.
    - unfold cal_remove_lines. rewrite Ha. reflexivity.
    - unfold cal_clear_atlas. rewrite Ha. reflexivity.
  Qed.

  (** The atlas, or the one add_user_atlas would create. *)
  Definition own_atlas (c : calib A) : atlas A :=
    match c_atlas c with Some a => a | None => mkAtlas [] (nZ 3000) (nZ 5000) (nZ 500) end.

  Lemma step_own (e : env A) c o :
    (forall a t k, o <> OSetAtlas a t k) -> (forall a t k, o <> OAddAtlas a t k) ->
    own_atlas (fst (cal_step e c o)) = atlas_run (e_argsort e) (e_cat e) (own_atlas c) (own_lines_call o).
  Proof.
    intros Hn1 Hn2. destruct (touches_atlas o) eqn:Et.
    2:{ unfold own_atlas. rewrite step_keeps_atlas by auto. destruct o; try discriminate; reflexivity. }
    destruct o as [np px lib| | |h|h|p w|at_ ct k|a ct k|u ct k|w t| |b|fs n t]; try discriminate; cbn [cal_step own_lines_call].
    - exfalso. eapply Hn1. reflexivity.
    - exfalso. eapply Hn2. reflexivity.
    - unfold cal_add_user_atlas. cbv zeta. fold (own_atlas c). unfold atlas_run. cbn [fold_left atlas_step].
      destruct (add_user_atlas (own_atlas c) u) as [s' [v|ex]]; cbn [fst]; [unfold own_atlas; rewrite pairs_keep_atlas|]; reflexivity.
    - unfold cal_remove_lines, own_atlas. destruct (c_atlas c) eqn:E; cbn; [reflexivity|rewrite E; reflexivity].
    - unfold cal_clear_atlas, own_atlas. destruct (c_atlas c) eqn:E; cbn; [reflexivity|rewrite E; reflexivity].
  Qed.
End Mirror.

(** C129: once a calibrator has an atlas, any further history of calls (accepted or not)
    leaves in it exactly what the corresponding calls on an Atlas object leave. *)
Lemma calibrator_atlas_mirror_main :
  forall (A : Type) (N : Num A) (e : env A) peaks spectrum c0 h1 h2 s,
    calib_init (e_hull e) peaks spectrum = Ok c0 ->
    c_atlas (cal_run e c0 h1) = Some s ->
    Forall (fun o => forall a t k, o <> OSetAtlas a t k) h2 ->
    exists ops, atlas_calls e (cal_run e c0 h1) h2 ops /\
      c_atlas (cal_run e c0 (h1 ++ h2)) = Some (atlas_run (e_argsort e) (e_cat e) s ops).
Proof.
  intros A N e peaks spectrum c0 h1 h2 s H0. revert h1 s.
  induction h2 as [|o h2 IH]; intros h1 s Ha Hf.
  - exists []. rewrite app_nil_r. split; [constructor|exact Ha].
  - inversion Hf as [|? ? Ho Hf']; subst.
    destruct (intercepts_inv A N e peaks spectrum c0 h1 H0) as (minw & maxw & rt & E1 & E2 & E3 & _).
    pose proof (step_mirror e _ o s minw maxw rt Ho Ha E1 E2 E3) as Hs.
    assert (Er : cal_run e c0 (h1 ++ [o]) = fst (cal_step e (cal_run e c0 h1) o))
      by (unfold cal_run; rewrite fold_left_app; reflexivity).
    rewrite <- Er in Hs. destruct (IH (h1 ++ [o]) _ Hs Hf') as (ops & Hc & Hr).
    exists (atlas_call minw maxw rt o ++ ops). split.
    + econstructor; eauto. rewrite <- Er. exact Hc.
    + rewrite <- app_assoc in Hr. cbn [app] in Hr. rewrite Hr. unfold atlas_run. rewrite fold_left_app. reflexivity.
Qed.

(** C129: set_atlas, in any state and whether or not it succeeds, starts anew with the
    atlas it is given. *)
Lemma set_atlas_history_main :
  forall (A : Type) (N : Num A) (e : env A) peaks spectrum c0 h1 a t k h2,
    calib_init (e_hull e) peaks spectrum = Ok c0 ->
    Forall (fun o => forall a t k, o <> OSetAtlas a t k) h2 ->
    exists ops, atlas_calls e (cal_run e c0 (h1 ++ [OSetAtlas a t k])) h2 ops /\
      c_atlas (cal_run e c0 (h1 ++ OSetAtlas a t k :: h2)) = Some (atlas_run (e_argsort e) (e_cat e) a ops).
Proof.
  intros A N e peaks spectrum c0 h1 a t k h2 H0 H2.
  assert (Ha : c_atlas (cal_run e c0 (h1 ++ [OSetAtlas a t k])) = Some a).
  { unfold cal_run. rewrite fold_left_app. cbn [fold_left cal_step]. unfold set_atlas, generate_pairs.
    cbn [c_atlas set_c_constrain set_c_cand_tol set_c_atlas c_constrain]. destruct k.
    - repeat (match goal with |- context [match ?x with _ => _ end] => destruct x end); reflexivity.
    - reflexivity. }
  destruct (calibrator_atlas_mirror_main A N e peaks spectrum c0 _ h2 a H0 Ha H2) as (ops & C & E).
  exists ops. split; [exact C|]. rewrite <- app_assoc in E. exact E.
Qed.

(** C129: a new calibrator that is given lines by add_user_atlas only lists, after any
    history, exactly the rows the history supplied and did not remove (the
    specification [contents] of C35). *)
Lemma calibrator_lines_history_main :
  forall (A : Type) (N : Num A) (e : env A) peaks spectrum c0 h,
    calib_init (e_hull e) peaks spectrum = Ok c0 ->
    Forall (fun o => match o with OSetAtlas _ _ _ | OAddAtlas _ _ _ => False | _ => True end) h ->
    contents (flat_map own_lines_call h) (map row_of (lines_of (cal_run e c0 h))).
Proof.
  intros A N e peaks spectrum c0 h H0 Hf.
  assert (E : forall h c, Forall (fun o => match o with OSetAtlas _ _ _ | OAddAtlas _ _ _ => False | _ => True end) h ->
    own_atlas (cal_run e c h) = atlas_run (e_argsort e) (e_cat e) (own_atlas c) (flat_map own_lines_call h)).
  { clear. intros h. induction h as [|o h IH]; intros c Hf; [reflexivity|]. inversion Hf as [|? ? Ho Hf']; subst.
    change (cal_run e c (o :: h)) with (cal_run e (fst (cal_step e c o)) h). rewrite IH by auto.
    cbn [flat_map]. unfold atlas_run at 2. rewrite fold_left_app. fold (atlas_run (e_argsort e) (e_cat e) (own_atlas c) (own_lines_call o)).
    rewrite step_own; [reflexivity| |]; intros a t k ->; exact Ho. }
  assert (L : lines_of (cal_run e c0 h) = at_lines (own_atlas (cal_run e c0 h))).
  { unfold lines_of, own_atlas. destruct (c_atlas _); reflexivity. }
  rewrite L, E by auto.
  destruct (init_others _ _ _ _ H0) as (_ & _ & _ & _ & Ea & _). unfold own_atlas. rewrite Ea.
  apply contents_run. clear. induction h as [|o h IH]; cbn [flat_map]; [constructor|].
  apply Forall_app. split; [destruct o; repeat constructor|exact IH].
Qed.

Definition mirror_history : list (cal_op f64) :=
  [OClear; OAddUser lim_user (fz 10) false; OUsePlotly; ORemove (fz 21) (fz 5);
   OAddUser (uargs (UElSeq (SeqList ["Xe"])) (SeqList []) None) (fz 10) false;
   OAddUser (uargs (UElSeq (SeqList ["Xe"])) (SeqList [fz 90]) None) (fz 10) false].
Example calibrator_atlas_example_main :
  Forall (fun o => match o with OSetAtlas _ _ _ | OAddAtlas _ _ _ => False | _ => True end) mirror_history /\
  match calib_init all_inside [fz 10; fz 20] None return Prop with
  | Ok c0 => map row_of (lines_of (cal_run env0 c0 mirror_history)) = [("Hg", fz 40, fz 0); ("Xe", fz 90, fz 0)] /\
      exists s, c_atlas (cal_run env0 c0 (firstn 2 mirror_history)) = Some s
  | Raise _ => False
  end.
Proof. split; [repeat constructor|]. vm_compute. split; eauto. Qed.

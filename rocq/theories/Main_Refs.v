(** * Main_Refs: whose objects the attributes of a Calibrator are (C145). *)

From Coq Require Import ZArith Bool List Lia.
From Verif Require Import Num F64 Py Np Hough Calib World Refs.
Import ListNotations.
Local Open Scope num_scope.

Section Facts.
  Context {A : Type} {N : Num A}.
  Notation refs := (refs A).

  (** The value behind an address that the caller does not know stays. *)
  Definition hidden (s : refs) (r : nat) : Prop := (r < length (rf_heap s))%nat /\ ~ In r (rf_held s).
  Definition held_ok (s : refs) : Prop := forall r, In r (rf_held s) -> (r < length (rf_heap s))%nat.

  Lemma put_nth_length {T} (l : list T) n v : length (put_nth l n v) = length l.
  Proof. revert n; induction l as [|x l IH]; intros [|n]; cbn; auto. Qed.
  Lemma put_nth_same {T} (l : list T) n v : (n < length l)%nat -> nth_error (put_nth l n v) n = Some v.
  Proof. revert n; induction l as [|x l IH]; intros [|n]; cbn; intros; try lia; auto. apply IH. lia. Qed.
  Lemma put_nth_other {T} (l : list T) n m v : n <> m -> nth_error (put_nth l n v) m = nth_error l m.
  Proof. revert n m; induction l as [|x l IH]; intros [|n] [|m] H; cbn; auto; try congruence. Qed.

  Lemma as_array_heap h r h' q : @as_array A h r = (h', q) -> exists t, h' = (h ++ t)%list /\ (q = r /\ t = [] \/ q = length h /\ length t = 1%nat).
  Proof.
    unfold as_array, alloc. destruct (nth_error h r) as [[[] l]|]; intros E; injection E as <- <-;
      try solve [exists []; rewrite app_nil_r; auto]; eexists; (split; [reflexivity|]; right; auto).
  Qed.
  Lemma as_float_heap h r h' q : @as_float A h r = (h', q) -> exists t, h' = (h ++ t)%list /\ (q = r /\ t = [] \/ q = length h /\ length t = 1%nat).
  Proof.
    unfold as_float, alloc. destruct (nth_error h r) as [[[] l]|]; intros E; injection E as <- <-;
      try solve [exists []; rewrite app_nil_r; auto]; eexists; (split; [reflexivity|]; right; auto).
  Qed.

  (** The heap only grows, except for edits; the caller learns only new addresses. *)
  Lemma step_heap (s : refs) o :
    (forall r f, o <> REdit r f) ->
    exists t, rf_heap (ref_step s o) = (rf_heap s ++ t)%list /\
      forall r, In r (rf_held (ref_step s o)) -> In r (rf_held s) \/ (length (rf_heap s) <= r < length (rf_heap s ++ t))%nat.
  Proof.
    intros Hne. destruct o as [b|r f|r|p w|co mp ma|co mp ma|p w co|mp ma]; cbn [ref_step].
    - cbn [alloc]. eexists. split; [reflexivity|]. cbn. intros r [<-|H]; auto. right. rewrite app_length. cbn. lia.
    - exfalso. eapply Hne; eauto.
    - destruct (as_array (rf_heap s) r) as [h q] eqn:E. apply as_array_heap in E. destruct E as (t & -> & _).
      exists t. split; [reflexivity|]. cbn. auto.
    - destruct (_ && _).
      2:{ exists []. rewrite app_nil_r. auto. }
      destruct (as_float (rf_heap s) p) as [h a] eqn:E1. apply as_float_heap in E1. destruct E1 as (t & -> & _).
      destruct (as_float _ w) as [h' b] eqn:E2. apply as_float_heap in E2. destruct E2 as (t' & -> & _).
      exists (t ++ t')%list. split; [cbn; rewrite app_assoc; reflexivity|]. cbn. auto.
    - eexists. split; [reflexivity|]. cbn. intros r [<-|[<-|[<-|H]]]; auto; right; rewrite app_length; cbn; lia.
    - eexists. split; [reflexivity|]. cbn. intros r [<-|[<-|[<-|H]]]; auto; right; rewrite app_length; cbn; lia.
    - eexists. split; [reflexivity|]. cbn. intros r [<-|[<-|[<-|H]]]; auto; right; rewrite app_length; cbn; lia.
    - eexists. split; [reflexivity|]. cbn. auto.
  Qed.

  Lemma held_In (s : refs) r : existsb (Nat.eqb r) (rf_held s) = true <-> In r (rf_held s).
  Proof.
    rewrite existsb_exists. split.
    - intros (x & H & E). apply Nat.eqb_eq in E. subst. exact H.
    - intros H. exists r. split; [exact H|apply Nat.eqb_refl].
  Qed.

  Lemma edit_heap (s : refs) r f :
    ref_step s (REdit r f) = s \/
    exists b, In r (rf_held s) /\ nth_error (rf_heap s) r = Some b /\
      ref_step s (REdit r f) = set_heap (put_nth (rf_heap s) r (mkObj (ob_kind b) (f (ob_vals b)))) (rf_held s) s.
  Proof.
    cbn [ref_step]. destruct (existsb _ _) eqn:E; [|auto]. apply held_In in E.
    destruct (nth_error (rf_heap s) r) as [b|]; [|auto]. right. exists b. auto.
  Qed.

  Lemma step_held_ok s o : held_ok s -> held_ok (ref_step s o).
  Proof.
    intros H.
    assert (Hd : (exists r f, o = REdit r f) \/ forall r f, o <> REdit r f) by (destruct o; eauto; right; discriminate).
    destruct Hd as [(r & f & ->)|Hd].
    - destruct (edit_heap s r f) as [->|(b & _ & _ & ->)]; auto. intros q Hq. cbn in *. rewrite put_nth_length. auto.
    - destruct (step_heap s o Hd) as (t & E & Hh). intros q Hq. rewrite E, app_length.
      destruct (Hh q Hq) as [Hq'|Hq']; [specialize (H q Hq'); lia|rewrite app_length in Hq'; lia].
  Qed.

  Lemma step_hidden s o r : hidden s r -> hidden (ref_step s o) r /\ vals (ref_step s o) r = vals s r.
  Proof.
    intros (H1 & H2).
    assert (Hd : (exists q f, o = REdit q f) \/ forall q f, o <> REdit q f) by (destruct o; eauto; right; discriminate).
    destruct Hd as [(q & f & ->)|Hd].
    - destruct (edit_heap s q f) as [->|(b & Hq & _ & ->)]; [split; [split|]; auto|].
      unfold hidden, vals. cbn. rewrite put_nth_length, put_nth_other by (intros ->; auto). auto.
    - destruct (step_heap s o Hd) as (t & E & Hh). unfold hidden, vals. rewrite E, app_length, nth_error_app1 by auto.
      split; [|reflexivity]. split; [lia|]. intros Hr. destruct (Hh r Hr); [auto|lia].
  Qed.

  Lemma run_hidden l : forall s r, hidden s r -> hidden (ref_run s l) r /\ vals (ref_run s l) r = vals s r.
  Proof.
    induction l as [|o l IH]; intros s r H; [auto|]. change (ref_run s (o :: l)) with (ref_run (ref_step s o) l). destruct (step_hidden s o r H) as (H1 & H2).
    destruct (IH _ _ H1) as (H3 & H4). split; [exact H3|]. etransitivity; [exact H4|exact H2].
  Qed.

  Lemma run_held_ok l : forall s, held_ok s -> held_ok (ref_run s l).
  Proof. induction l as [|o l IH]; intros s H; [auto|]. cbn. apply IH, step_held_ok, H. Qed.

  Lemma init_held_ok b : held_ok (@ref_init A b).
  Proof. intros r [<-|[]]. cbn. lia. Qed.

  Lemma step_peaks (s : refs) o : rf_peaks (ref_step s o) = rf_peaks s.
  Proof.
    destruct o; cbn [ref_step]; try reflexivity.
    - destruct (existsb _ _); [|reflexivity]. destruct (nth_error _ _); reflexivity.
    - destruct (as_array _ _); reflexivity.
    - destruct (_ && _); [|reflexivity]. destruct (as_float _ _). destruct (as_float _ _). reflexivity.
  Qed.
  Lemma run_peaks l : forall s : refs, rf_peaks (ref_run s l) = rf_peaks s.
  Proof. induction l as [|o l IH]; intros s; [reflexivity|]. change (ref_run s (o :: l)) with (ref_run (ref_step s o) l). rewrite IH. apply step_peaks. Qed.

  Lemma run_known l : forall s' : refs, (forall q r, ~ In (RKnown q r) l) -> rf_known (ref_run s' l) = rf_known s'.
  Proof.
    induction l as [|o l IH]; intros s' Hl; [reflexivity|]. change (ref_run s' (o :: l)) with (ref_run (ref_step s' o) l).
    rewrite IH by (intros q r Hq; apply (Hl q r); right; exact Hq).
    destruct o; cbn [ref_step]; try reflexivity.
    - destruct (existsb _ _); [|reflexivity]. destruct (nth_error _ _); reflexivity.
    - destruct (as_array _ _); reflexivity.
    - exfalso. eapply Hl. left. reflexivity.
  Qed.
End Facts.

(** C145 (part that holds): the peaks are the calibrator's own.  Whatever the caller does
    with the objects it knows, in any order with calls of the calibrator, the calibrator
    keeps the peaks it was made with. *)
Lemma peaks_private_main :
  forall (A : Type) (N : Num A) (b : obj A) (l : list (ref_op A)),
    peaks_seen (ref_run (ref_init b) l) = ob_vals b.
Proof.
  intros A N b l. unfold peaks_seen. rewrite run_peaks. cbn [ref_init rf_peaks].
  destruct (run_hidden l (ref_init b) 1%nat) as (_ & ->); [|reflexivity].
  split; [cbn; lia|]. intros [H|[]]. discriminate.
Qed.

(** C145 (part that holds): known pairs given as lists or integer arrays stay as they were
    given until set_known_pairs is called again. *)
Lemma known_private_partial_main :
  forall (A : Type) (N : Num A) (b : obj A) (before after : list (ref_op A)) p w kp kw xs ys,
    let s := ref_run (ref_init b) before in
    nth_error (rf_heap s) p = Some (mkObj kp xs) -> nth_error (rf_heap s) w = Some (mkObj kw ys) ->
    kp <> FloatArray -> kw <> FloatArray ->
    length xs = length ys -> existsb nisnan xs = false -> existsb nisnan ys = false ->
    (forall q r, ~ In (RKnown q r) after) ->
    known_seen (ref_run (ref_step s (RKnown p w)) after) = Some (xs, ys).
Proof.
  intros A N b before after p w kp kw xs ys s Hp Hw Kp Kw L N1 N2 Hafter.
  assert (Hok : held_ok s) by (apply run_held_ok, init_held_ok).
  assert (E : exists h, ref_step s (RKnown p w)
     = mkRefs h (rf_held s) (rf_peaks s) (rf_pixels s) (rf_table s) (Some (length (rf_heap s), S (length (rf_heap s))))
         (rf_coeff s) (rf_mpeaks s) (rf_matlas s) /\ h = (rf_heap s ++ [mkObj FloatArray xs; mkObj FloatArray ys])%list).
  { cbn [ref_step]. unfold vals. rewrite Hp, Hw. cbn [ob_vals]. rewrite L, Nat.eqb_refl, N1, N2. cbn [negb andb].
    unfold as_float at 1. rewrite Hp. destruct kp; [| |congruence]; cbn [alloc]; unfold as_float;
      rewrite (nth_error_app1 _ _ (proj1 (nth_error_Some (rf_heap s) w) ltac:(congruence))), Hw;
      (destruct kw; [| |congruence]; cbn [alloc]; rewrite app_length; cbn [length]; rewrite Nat.add_1_r, <- app_assoc;
       eexists; split; reflexivity). }
  destruct E as (h & E & Eh). rewrite E.
  set (s1 := mkRefs _ _ _ _ _ _ _ _ _).
  unfold known_seen. rewrite run_known by exact Hafter. cbn [s1 rf_known option_map fst snd].
  assert (H1 : hidden s1 (length (rf_heap s))).
  { split; [cbn; rewrite Eh, app_length; cbn; lia|]. cbn. intros H. apply Hok in H. lia. }
  assert (H2 : hidden s1 (S (length (rf_heap s)))).
  { split; [cbn; rewrite Eh, app_length; cbn; lia|]. cbn. intros H. apply Hok in H. lia. }
  destruct (run_hidden after s1 _ H1) as (_ & ->). destruct (run_hidden after s1 _ H2) as (_ & ->).
  unfold vals, s1. cbn [rf_heap]. rewrite Eh, !nth_error_app2 by lia.
  rewrite Nat.sub_diag. replace (S (length (rf_heap s)) - length (rf_heap s))%nat with 1%nat by lia. reflexivity.
Qed.

(** C145 REFUTED: known pixels given as a float array are the caller's array: whatever the
    caller later writes into it (NaN, which set_known_pairs refuses, or another number of
    values) is what the calibrator uses. *)
Lemma known_shared_refuted_main :
  forall (A : Type) (N : Num A) (s : refs A) p w xs kw ys (f : list A -> list A),
    In p (rf_held s) -> nth_error (rf_heap s) p = Some (mkObj FloatArray xs) -> nth_error (rf_heap s) w = Some (mkObj kw ys) ->
    p <> w -> length xs = length ys -> existsb nisnan xs = false -> existsb nisnan ys = false ->
    known_seen (ref_run s [RKnown p w; REdit p f]) = Some (f xs, ys).
Proof.
  intros A N s p w xs kw ys f Hh Hp Hw Hne L N1 N2. cbn [ref_run fold_left].
  assert (Lp : (p < length (rf_heap s))%nat) by (apply nth_error_Some; congruence).
  assert (Lw : (w < length (rf_heap s))%nat) by (apply nth_error_Some; congruence).
  assert (E : exists h b, ref_step s (RKnown p w)
     = mkRefs h (rf_held s) (rf_peaks s) (rf_pixels s) (rf_table s) (Some (p, b)) (rf_coeff s) (rf_mpeaks s) (rf_matlas s) /\
       b <> p /\ nth_error h p = Some (mkObj FloatArray xs) /\ exists k, nth_error h b = Some (mkObj k ys)).
  { cbn [ref_step]. unfold vals. rewrite Hp, Hw. cbn [ob_vals]. rewrite L, Nat.eqb_refl, N1, N2. cbn [negb andb].
    unfold as_float at 1. rewrite Hp. unfold as_float. rewrite Hw.
    destruct kw; cbn [alloc]; eexists; eexists; (split; [reflexivity|]).
    1,2: (split; [lia|]; split; [rewrite nth_error_app1; auto|]; eexists; rewrite nth_error_app2, Nat.sub_diag by lia; reflexivity).
    split; [auto|]. split; [exact Hp|]. eexists; exact Hw. }
  destruct E as (h & b & -> & Hb & E1 & k & E2). cbn [ref_step rf_held rf_heap].
  rewrite (proj2 (held_In s p) Hh), E1. unfold known_seen, vals. cbn [set_heap rf_known rf_heap option_map fst snd ob_kind ob_vals].
  rewrite put_nth_same by (apply nth_error_Some; congruence). rewrite put_nth_other by auto. rewrite E2. reflexivity.
Qed.

(** C145 REFUTED: a pixel list given as an array of any kind is shared, too, and after a
    change it no longer agrees with the table behind the conversion to raw pixels. *)
Lemma pixels_shared_refuted_main :
  forall (A : Type) (N : Num A) (s : refs A) r k xs (f : list A -> list A),
    In r (rf_held s) -> nth_error (rf_heap s) r = Some (mkObj k xs) -> k <> PyList ->
    let s' := ref_run s [RPixels r; REdit r f] in
    pixels_seen s' = Some (f xs) /\ rf_table s' = Some xs.
Proof.
  intros A N s r k xs f Hh Hr Hk. cbn [ref_run fold_left].
  assert (Lr : (r < length (rf_heap s))%nat) by (apply nth_error_Some; congruence).
  assert (E : ref_step s (RPixels r)
     = mkRefs (rf_heap s) (rf_held s) (rf_peaks s) (Some r) (Some xs) (rf_known s) (rf_coeff s) (rf_mpeaks s) (rf_matlas s)).
  { cbn [ref_step]. unfold as_array, vals. rewrite Hr. destruct k; [congruence|reflexivity|reflexivity]. }
  rewrite E. cbn [ref_step rf_held rf_heap]. rewrite (proj2 (held_In s r) Hh), Hr.
  unfold pixels_seen, vals. cbn [set_heap rf_pixels rf_heap rf_table option_map ob_vals].
  rewrite put_nth_same by auto. split; reflexivity.
Qed.

(** C145 REFUTED: the lists and coefficients that fit returns are the calibrator's own:
    the caller who changes them changes the solution stored in the calibrator. *)
Lemma results_shared_refuted_main :
  forall (A : Type) (N : Num A) (s : refs A) co mp ma,
    let s1 := ref_step s (RFit co mp ma) in
    coeff_seen s1 = Some co /\ matched_seen s1 = (Some mp, Some ma) /\
    exists rc rp ra, In rc (rf_held s1) /\ In rp (rf_held s1) /\ In ra (rf_held s1) /\
      forall f g h,
        let s2 := ref_run s1 [REdit rc f; REdit rp g; REdit ra h] in
        coeff_seen s2 = Some (f co) /\ matched_seen s2 = (Some (g mp), Some (h ma)).
Proof.
  intros A N s co mp ma s1.
  assert (V : forall x : list (obj A), forall k b, nth_error (rf_heap s ++ x)%list (length (rf_heap s) + k) = nth_error x k /\
     (nth_error x k = Some b -> (length (rf_heap s) + k < length (rf_heap s ++ x))%nat)).
  { intros x k b. rewrite nth_error_app2 by lia. replace (length (rf_heap s) + k - length (rf_heap s))%nat with k by lia.
    split; [reflexivity|]. intros H. rewrite app_length. assert (k < length x)%nat by (apply nth_error_Some; congruence). lia. }
  set (n := length (rf_heap s)) in *.
  assert (P : forall (x : list (obj A)) k b, (k < length x)%nat ->
     put_nth (rf_heap s ++ x)%list (n + k) b = (rf_heap s ++ put_nth x k b)%list).
  { intros x k b Hk. unfold n. clear. induction (rf_heap s) as [|z l IH]; [reflexivity|]. cbn. rewrite IH. reflexivity. }
  unfold s1. cbn [ref_step]. unfold results. cbv zeta. fold n.
  split.
  { unfold coeff_seen, vals. cbn [rf_coeff rf_heap option_map]. rewrite <- (Nat.add_0_r n). rewrite (proj1 (V _ 0%nat (mkObj PyList []))). reflexivity. }
  split.
  { unfold matched_seen, vals. cbn [rf_mpeaks rf_matlas rf_heap option_map].
    replace (S n) with (n + 1)%nat by lia. replace (S (n + 1)) with (n + 2)%nat by lia.
    rewrite (proj1 (V _ 1%nat (mkObj PyList []))), (proj1 (V _ 2%nat (mkObj PyList []))). reflexivity. }
  exists n, (S n), (S (S n)). cbn [rf_held results]. split; [left; auto|]. split; [right; left; auto|]. split; [right; right; left; auto|].
  intros f g h. cbn [ref_run fold_left].
  set (x0 := [mkObj FloatArray co; mkObj PyList mp; mkObj PyList ma]).
  set (t0 := mkRefs _ _ _ _ _ _ _ _ _).
  assert (S1 : ref_step t0 (REdit n f) = set_heap (rf_heap s ++ [mkObj FloatArray (f co); mkObj PyList mp; mkObj PyList ma])%list (rf_held t0) t0).
  { cbn [ref_step]. rewrite (proj2 (held_In t0 n)) by (left; auto). change (rf_heap t0) with (rf_heap s ++ x0)%list.
    rewrite <- (Nat.add_0_r n), (proj1 (V x0 0%nat (mkObj PyList []))). cbn [x0 nth_error].
    rewrite P by (cbn; lia). reflexivity. }
  rewrite S1.
  set (t1 := set_heap _ _ t0).
  assert (S2 : ref_step t1 (REdit (S n) g) = set_heap (rf_heap s ++ [mkObj FloatArray (f co); mkObj PyList (g mp); mkObj PyList ma])%list (rf_held t1) t1).
  { cbn [ref_step]. rewrite (proj2 (held_In t1 (S n))) by (right; left; auto). change (rf_heap t1) with (rf_heap s ++ [mkObj FloatArray (f co); mkObj PyList mp; mkObj PyList ma])%list.
    replace (S n) with (n + 1)%nat by lia. rewrite (proj1 (V _ 1%nat (mkObj PyList []))). cbn [nth_error].
    rewrite P by (cbn; lia). reflexivity. }
  rewrite S2. set (t2 := set_heap _ _ t1).
  assert (S3 : ref_step t2 (REdit (S (S n)) h) = set_heap (rf_heap s ++ [mkObj FloatArray (f co); mkObj PyList (g mp); mkObj PyList (h ma)])%list (rf_held t2) t2).
  { cbn [ref_step]. rewrite (proj2 (held_In t2 (S (S n)))) by (right; right; left; auto). change (rf_heap t2) with (rf_heap s ++ [mkObj FloatArray (f co); mkObj PyList (g mp); mkObj PyList ma])%list.
    replace (S (S n)) with (n + 2)%nat by lia. rewrite (proj1 (V _ 2%nat (mkObj PyList []))). cbn [nth_error].
    rewrite P by (cbn; lia). reflexivity. }
  rewrite S3. unfold coeff_seen, matched_seen, vals. cbn [set_heap rf_coeff rf_mpeaks rf_matlas rf_heap t2 t1 t0 option_map].
  replace (S (S n)) with (n + 2)%nat by lia. replace (S n) with (n + 1)%nat by lia.
  rewrite (proj1 (V _ 2%nat (mkObj PyList []))), (proj1 (V _ 1%nat (mkObj PyList []))).
  rewrite <- (Nat.add_0_r n) at 1. rewrite (proj1 (V _ 0%nat (mkObj PyList []))). cbn [nth_error ob_vals]. split; reflexivity.
Qed.

(** C145 (part that holds): manual_refit copies the lists it is given.  Changes of anything
    the caller knew before the call leave the stored solution as it is. *)
Lemma refit_private_partial_main :
  forall (A : Type) (N : Num A) (b : obj A) (before : list (ref_op A)) p w kp kw xs ys co (edits : list (nat * (list A -> list A))),
    let s := ref_run (ref_init b) before in
    nth_error (rf_heap s) p = Some (mkObj kp xs) -> nth_error (rf_heap s) w = Some (mkObj kw ys) ->
    (forall q, In q edits -> In (fst q) (rf_held s)) ->
    let s' := ref_run (ref_step s (RRefit p w co)) (map (fun q => REdit (fst q) (snd q)) edits) in
    coeff_seen s' = Some co /\ matched_seen s' = (Some xs, Some ys).
Proof.
  intros A N b before p w kp kw xs ys co edits s Hp Hw He s'.
  assert (Hok : held_ok s) by (apply run_held_ok, init_held_ok).
  unfold s'; clear s'. cbn [ref_step]. rewrite Hp, Hw. unfold results. cbv zeta. set (n := length (rf_heap s)).
  set (t := mkRefs _ _ _ _ _ _ _ _ _).
  assert (K : forall l u, (forall q, In q l -> (fst q < n)%nat) ->
     let u' := ref_run u (map (fun q => REdit (fst q) (snd q)) l) in
     rf_coeff u' = rf_coeff u /\ rf_mpeaks u' = rf_mpeaks u /\ rf_matlas u' = rf_matlas u /\
     forall r, (n <= r)%nat -> vals u' r = vals u r).
  { induction l as [|(q & f) l IH]; intros u Hl u'; [unfold u'; cbn; auto|]. unfold u'. cbn [map].
    change (ref_run u (REdit (fst (q, f)) (snd (q, f)) :: ?x)) with (ref_run (ref_step u (REdit q f)) x).
    destruct (IH (ref_step u (REdit q f)) ltac:(intros z Hz; apply Hl; right; exact Hz)) as (E1 & E2 & E3 & E4).
    cbn [fst snd]. change (ref_run u (REdit q f :: map (fun q => REdit (fst q) (snd q)) l))
      with (ref_run (ref_step u (REdit q f)) (map (fun q => REdit (fst q) (snd q)) l)).
    specialize (Hl _ (or_introl eq_refl)). cbn in Hl.
    rewrite E1, E2, E3. destruct (edit_heap u q f) as [E|(b' & _ & _ & E)]; rewrite E in *.
    - repeat split; auto.
    - repeat split; auto. intros r Hr. rewrite E4 by exact Hr. unfold vals. cbn [set_heap rf_heap]. rewrite put_nth_other by lia. reflexivity. }
  destruct (K edits t ltac:(intros q Hq; apply Hok, He, Hq)) as (E1 & E2 & E3 & E4). cbv zeta in *.
  unfold coeff_seen, matched_seen. rewrite E1, E2, E3. cbn [t rf_coeff rf_mpeaks rf_matlas option_map].
  rewrite !E4 by lia. unfold vals. cbn [t rf_heap]. rewrite !nth_error_app2 by (unfold n; lia). fold n.
  rewrite Nat.sub_diag. replace (S n - n)%nat with 1%nat by lia. replace (S (S n) - n)%nat with 2%nat by lia.
  split; reflexivity.
Qed.

(** C145 (part that holds): after adding or removing a pair the matched lists are the
    calibrator's own: they stay, whatever the caller does, until they are set again; and the
    coefficients, known pairs and pixels are as before. *)
Lemma edited_private_main :
  forall (A : Type) (N : Num A) (b : obj A) (before after : list (ref_op A)) mp ma,
    let s := ref_run (ref_init b) before in
    let s1 := ref_step s (RSetPairs mp ma) in
    coeff_seen s1 = coeff_seen s /\ peaks_seen s1 = peaks_seen s /\
    rf_known s1 = rf_known s /\ rf_pixels s1 = rf_pixels s /\ rf_table s1 = rf_table s /\
    ((forall o, In o after -> match o with RFit _ _ _ | RMatch _ _ _ | RRefit _ _ _ | RSetPairs _ _ => False | _ => True end) ->
     matched_seen (ref_run s1 after) = (Some mp, Some ma)).
Proof.
  intros A N b before after mp ma s s1.
  assert (Hok : held_ok s) by (apply run_held_ok, init_held_ok).
  assert (Hc : forall r, rf_coeff s = Some r -> (r < length (rf_heap s))%nat).
  { unfold s. assert (H0 : forall r, rf_coeff (ref_init b) = Some r -> (r < length (rf_heap (ref_init b)))%nat) by discriminate.
    revert H0. generalize (ref_init b). clear. induction before as [|o l IH]; intros u H0; [exact H0|].
    change (ref_run u (o :: l)) with (ref_run (ref_step u o) l). apply IH. clear IH l. intros r.
    assert (Hd : (exists q f, o = REdit q f) \/ forall q f, o <> REdit q f) by (destruct o; eauto; right; discriminate).
    destruct Hd as [(q & f & ->)|Hd].
    - destruct (edit_heap u q f) as [->|(b' & _ & _ & ->)]; [apply H0|]. cbn. rewrite put_nth_length. apply H0.
    - destruct (step_heap u o Hd) as (t & E & _).
      assert (C : rf_coeff (ref_step u o) = rf_coeff u \/
        (rf_coeff (ref_step u o) = Some (length (rf_heap u)) /\ (length (rf_heap u) < length (rf_heap (ref_step u o)))%nat)).
      { destruct o; cbn [ref_step]; try solve [left; reflexivity].
        - exfalso. eapply Hd. reflexivity.
        - destruct (as_array _ _). left. reflexivity.
        - destruct (_ && _); [|left; reflexivity]. destruct (as_float _ _). destruct (as_float _ _). left. reflexivity.
        - right. cbn. rewrite app_length. cbn. split; [reflexivity|lia].
        - right. cbn. rewrite app_length. cbn. split; [reflexivity|lia].
        - right. cbn. rewrite app_length. cbn. split; [reflexivity|lia]. }
      destruct C as [->|[-> L]].
      + intros H. specialize (H0 _ H). rewrite E, app_length. lia.
      + intros H. injection H as <-. exact L. }
  split.
  { unfold coeff_seen. cbn [s1 ref_step rf_coeff]. destruct (rf_coeff s) as [r|] eqn:E; [|reflexivity]. cbn [option_map]. f_equal.
    unfold vals, s1. cbn [ref_step rf_heap]. rewrite nth_error_app1 by (apply Hc; reflexivity). reflexivity. }
  split.
  { unfold s1. change (ref_step s (RSetPairs mp ma)) with (ref_run s [RSetPairs mp ma]).
    unfold s, ref_run. rewrite <- fold_left_app. change (fold_left ref_step ?l ?x) with (ref_run x l).
    rewrite !peaks_private_main. reflexivity. }
  split; [reflexivity|]. split; [reflexivity|]. split; [reflexivity|]. intros Ha.
  assert (K : forall l u, (forall o, In o l -> match o with RFit _ _ _ | RMatch _ _ _ | RRefit _ _ _ | RSetPairs _ _ => False | _ => True end) ->
     rf_mpeaks (ref_run u l) = @rf_mpeaks A u /\ rf_matlas (ref_run u l) = rf_matlas u).
  { clear. induction l as [|o l IH]; intros u H; [auto|]. change (ref_run u (o :: l)) with (ref_run (ref_step u o) l).
    destruct (IH (ref_step u o)) as [-> ->]; [intros o' Ho'; apply H; right; exact Ho'|].
    specialize (H o (or_introl eq_refl)). destruct o; cbn [ref_step]; try contradiction; try solve [split; reflexivity].
    - destruct (existsb _ _); [|auto]. destruct (nth_error _ _); auto.
    - destruct (as_array _ _); auto.
    - destruct (_ && _); [|auto]. destruct (as_float _ _). destruct (as_float _ _). auto. }
  destruct (K after s1 Ha) as [K1 K2]. unfold matched_seen. rewrite K1, K2.
  change (rf_mpeaks s1) with (Some (length (rf_heap s))). change (rf_matlas s1) with (Some (S (length (rf_heap s)))). cbn [option_map].
  assert (H1 : hidden s1 (length (rf_heap s))).
  { split; [cbn; rewrite app_length; cbn; lia|]. cbn. intros H. apply Hok in H. lia. }
  assert (H2 : hidden s1 (S (length (rf_heap s)))).
  { split; [cbn; rewrite app_length; cbn; lia|]. cbn. intros H. apply Hok in H. lia. }
  destruct (run_hidden after s1 _ H1) as (_ & ->). destruct (run_hidden after s1 _ H2) as (_ & ->).
  unfold vals, s1. cbn [ref_step rf_heap]. rewrite !nth_error_app2 by lia.
  rewrite Nat.sub_diag. replace (S (length (rf_heap s)) - length (rf_heap s))%nat with 1%nat by lia. reflexivity.
Qed.

(** C145: a calibrator for the peaks 10 and 20, whose list is then emptied, with known pairs as a list,
    as an integer array, and as a float array. *)
Example sharing_example_main :
  let nan := fz 0 /' fz 0 in
  let calls k := [REdit 0 (fun _ => []); RMake (mkObj k [fz 1; fz 2]); RMake (mkObj k [fz 5; fz 6]); RKnown 2 3;
                  REdit 2 (fun _ => [nan])] in
  let s k := ref_run (ref_init (mkObj PyList [fz 10; fz 20])) (calls k) in
  nisnan nan = true /\
  peaks_seen (s FloatArray) = [fz 10; fz 20] /\
  known_seen (s PyList) = Some ([fz 1; fz 2], [fz 5; fz 6]) /\
  known_seen (s IntArray) = Some ([fz 1; fz 2], [fz 5; fz 6]) /\
  known_seen (s FloatArray) = Some ([nan], [fz 5; fz 6]) /\
  coeff_seen (ref_run (s PyList) [RFit [fz 7; fz 8] [fz 1] [fz 5]; REdit 6 (fun _ => [fz 0; fz 0])]) = Some [fz 0; fz 0].
Proof.
  cbv zeta. split; [vm_compute; reflexivity|]. split; [vm_compute; reflexivity|]. split; [vm_compute; reflexivity|].
  split; [vm_compute; reflexivity|]. split; vm_compute; reflexivity.
Qed.

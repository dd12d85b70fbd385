(** * Main_World: calibrators that live side by side (C120).  The statements are
    repeated, without proofs, in Props_World.v. *)

From Coq Require Import ZArith Bool List Lia String.
From Verif Require Import Num F64 Py Np NpFacts ArgsortFacts Util Atlas Hough Calib SpecCalib CalibFacts World.
From Verif Require Main_Calib.
Import ListNotations.
Local Open Scope num_scope.

Section World.
  Context {A : Type} {N : Num A}.

  Lemma put_nth_length {T} : forall (l : list T) n v, List.length (put_nth l n v) = List.length l.
  Proof. induction l as [|x l IH]; intros [|n] v; cbn; auto. Qed.
  Lemma put_nth_same {T} : forall (l : list T) n v, n < List.length l -> nth_error (put_nth l n v) n = Some v.
  Proof. induction l as [|x l IH]; intros [|n] v; cbn; intros; try lia; auto. apply IH. lia. Qed.
  Lemma put_nth_other {T} : forall (l : list T) n m v, n <> m -> nth_error (put_nth l n v) m = nth_error l m.
  Proof. induction l as [|x l IH]; intros [|n] [|m] v; cbn; intros; try congruence; auto. Qed.

  (** Only set_atlas, add_atlas and add_user_atlas can give a calibrator an atlas, and
      none takes it away. *)
  Lemma step_atlas_some (e : env A) c o a : c_atlas c = Some a -> exists b, c_atlas (fst (cal_step e c o)) = Some b.
  Proof.
    intros H.
    assert (G : forall hull (d : calib A), c_atlas (fst (generate_pairs hull d)) = c_atlas d).
    { intros hull d. unfold generate_pairs. destruct (c_atlas d) eqn:E; auto. destruct (c_constrain d); [|auto].
      destruct (bind _ _); auto. }
    destruct o as [np px lib| | |h|h|p w|at_ ct k|h ct k|u ct k|w t| |b|fs n t]; cbn [cal_step].
    - unfold set_calibrator_properties. cbv zeta.
      match goal with |- context[match ?x with Ok n => _ | Raise e => _ end] => destruct x end; cbn; eauto.
    - cbn; eauto.
    - cbn; eauto.
    - unfold set_hough_properties. cbv zeta.
      match goal with |- context[match ?x with Ok n => _ | Raise e => _ end] => destruct x end; [|eauto].
      destruct (g_pixels _); [|cbn; eauto]. destruct (np_ptp _); [|cbn; eauto]. rewrite H, G. cbn. eauto.
    - unfold set_ransac_properties. cbv zeta.
      destruct (negb _); [|destruct (negb _); [|destruct (negb _)]]; cbn; eauto.
    - unfold set_known_pairs. destruct p; [|eauto]. destruct w; [|eauto].
      destruct (negb _); [eauto|]. destruct (existsb _ _); [eauto|]. destruct (existsb _ _); cbn; eauto.
    - unfold set_atlas. rewrite G. cbn. eauto.
    - unfold cal_add_atlas. cbv zeta. destruct (h_minw _); [|eauto]. destruct (h_maxw _); [|eauto]. destruct (h_rt _); [|eauto].
      rewrite H. destruct (atlas_add _ _ _ _) as [at' [v|ex]]; [rewrite G|]; cbn; eauto.
    - unfold cal_add_user_atlas. cbv zeta. destruct (add_user_atlas _ _) as [at' [v|ex]]; [rewrite G|]; cbn; eauto.
    - unfold cal_remove_lines. rewrite H. cbn. eauto.
    - unfold cal_clear_atlas. rewrite H. cbn. eauto.
    - unfold do_hough_transform. destruct (c_pairs c); [eauto| |];
      destruct (set_constraints _ _ _ _ _) as [t1 [v|ex]]; cbn [fst]; eauto.
      match goal with |- context[let (t2, r2) := ?x in _] => destruct x as [t2 [v2|ex2]] end; [|cbn; eauto].
      match goal with |- context[let (t3, r3) := ?x in _] => destruct x as [t3 [v3|ex3]] end; cbn; eauto.
    - unfold load_hough_transform. destruct (hough_load _ _ _ _). cbn. eauto.
  Qed.

  Lemma view_separate (w : world A) i c r : separate w -> nth_error (w_cals w) i = Some (c, Some r) ->
    exists a, nth_error (w_heap w) r = Some a /\ view w i = Some (set_c_atlas (Some a) c).
  Proof.
    intros [S1 _] H. unfold view. rewrite H. specialize (S1 i c r H).
    destruct (nth_error (w_heap w) r) as [a|] eqn:E; eauto. apply nth_error_None in E. lia.
  Qed.

  Lemma set_own_atlas (c : calib A) v : c_atlas c = v -> set_c_atlas v c = c.
  Proof. intros <-. destruct c; reflexivity. Qed.

  (** Storing a calibrator back: the others are not affected. *)
  Lemma store_views (w : world A) i r c c0 :
    separate w -> nth_error (w_cals w) i = Some (c0, r) ->
    (r <> None -> c_atlas c <> None) ->
    separate (store w i r c) /\ view (store w i r c) i = Some c /\
    (forall j, j <> i -> view (store w i r c) j = view w j).
  Proof.
    intros S Hi Hr. assert (Li : i < List.length (w_cals w)) by (apply nth_error_Some; congruence).
    destruct S as [S1 S2]. unfold store. destruct r as [r|].
    - destruct (c_atlas c) as [a|] eqn:Ea; [|exfalso; apply Hr; auto; discriminate].
      assert (Lr : r < List.length (w_heap w)) by (apply (S1 i c0); auto).
      split; [split|split].
      + intros j d q. cbn. rewrite put_nth_length. destruct (Nat.eq_dec i j) as [->|Hj].
        * rewrite put_nth_same by auto. intros E. injection E as _ <-. auto.
        * rewrite put_nth_other by auto. apply S1.
      + intros j k d d' q. cbn. destruct (Nat.eq_dec i j) as [<-|Hj], (Nat.eq_dec i k) as [<-|Hk]; auto.
        * rewrite put_nth_same by auto. intros E. injection E as _ <-. rewrite put_nth_other by auto. intros E.
          exact (S2 i k c0 d' r Hi E).
        * rewrite put_nth_same by auto. rewrite put_nth_other by auto. intros E1 E2. injection E2 as _ <-.
          exact (S2 j i d c0 r E1 Hi).
        * rewrite !put_nth_other by auto. apply S2.
      + unfold view. cbn. rewrite put_nth_same by auto. rewrite put_nth_same by auto.
        rewrite set_own_atlas; auto.
      + intros j Hj. unfold view. cbn. rewrite put_nth_other by auto.
        destruct (nth_error (w_cals w) j) as [[d [q|]]|] eqn:Ej; auto.
        rewrite put_nth_other; auto. intros <-. apply Hj. exact (S2 j i d c0 r Ej Hi).
    - destruct (c_atlas c) as [a|] eqn:Ea.
      + split; [split|split].
        * intros j d q. cbn. rewrite app_length. cbn. destruct (Nat.eq_dec i j) as [->|Hj].
          -- rewrite put_nth_same by auto. intros E. injection E as _ <-. lia.
          -- rewrite put_nth_other by auto. intros E. apply S1 in E. lia.
        * intros j k d d' q. cbn. destruct (Nat.eq_dec i j) as [<-|Hj], (Nat.eq_dec i k) as [<-|Hk]; auto.
          -- rewrite put_nth_same by auto. intros E. injection E as _ <-. rewrite put_nth_other by auto. intros E.
             apply S1 in E. lia.
          -- rewrite put_nth_same by auto. rewrite put_nth_other by auto. intros E1 E2. injection E2 as _ <-.
             apply S1 in E1. lia.
          -- rewrite !put_nth_other by auto. apply S2.
        * unfold view. cbn. rewrite put_nth_same by auto. rewrite nth_error_app2 by lia.
          rewrite Nat.sub_diag. cbn. rewrite set_own_atlas; auto.
        * intros j Hj. unfold view. cbn. rewrite put_nth_other by auto.
          destruct (nth_error (w_cals w) j) as [[d [q|]]|] eqn:Ej; auto.
          rewrite nth_error_app1; auto. exact (S1 j d q Ej).
      + split; [split|split].
        * intros j d q. cbn. destruct (Nat.eq_dec i j) as [->|Hj].
          -- rewrite put_nth_same by auto. discriminate.
          -- rewrite put_nth_other by auto. apply S1.
        * intros j k d d' q. cbn. destruct (Nat.eq_dec i j) as [<-|Hj], (Nat.eq_dec i k) as [<-|Hk]; auto.
          -- rewrite put_nth_same by auto. discriminate.
          -- rewrite put_nth_same by auto. discriminate.
          -- rewrite !put_nth_other by auto. apply S2.
        * unfold view. cbn. rewrite put_nth_same by auto. rewrite set_own_atlas; auto.
        * intros j Hj. unfold view. cbn. rewrite put_nth_other by auto. reflexivity.
  Qed.

  (** Storing as a new object. *)
  Lemma store_new_views (w : world A) i c c0 r :
    separate w -> nth_error (w_cals w) i = Some (c0, r) -> c_atlas c <> None ->
    separate (store w i None c) /\ view (store w i None c) i = Some c /\
    (forall j, j <> i -> view (store w i None c) j = view w j).
  Proof.
    intros [S1 S2] Hi Hr. assert (Li : i < List.length (w_cals w)) by (apply nth_error_Some; congruence).
    unfold store. destruct (c_atlas c) as [a|] eqn:Ea; [|contradiction Hr; reflexivity]. split; [split|split].
    * intros j d q. cbn. rewrite app_length. cbn. destruct (Nat.eq_dec i j) as [->|Hj].
      -- rewrite put_nth_same by auto. intros E. injection E as _ <-. lia.
      -- rewrite put_nth_other by auto. intros E. apply S1 in E. lia.
    * intros j k d d' q. cbn. destruct (Nat.eq_dec i j) as [<-|Hj], (Nat.eq_dec i k) as [<-|Hk]; auto.
      -- rewrite put_nth_same by auto. intros E. injection E as _ <-. rewrite put_nth_other by auto. intros E.
         apply S1 in E. lia.
      -- rewrite put_nth_same by auto. rewrite put_nth_other by auto. intros E1 E2. injection E2 as _ <-.
         apply S1 in E1. lia.
      -- rewrite !put_nth_other by auto. apply S2.
    * unfold view. cbn. rewrite put_nth_same by auto. rewrite nth_error_app2 by lia.
      rewrite Nat.sub_diag. cbn. rewrite set_own_atlas; auto.
    * intros j Hj. unfold view. cbn. rewrite put_nth_other by auto.
      destruct (nth_error (w_cals w) j) as [[d [q|]]|] eqn:Ej; auto.
      rewrite nth_error_app1; auto. exact (S1 j d q Ej).
  Qed.

  Lemma world_step_views (e : env A) (w : world A) o i c :
    separate w -> unshared o = true -> view w i = Some c ->
    separate (fst (world_step e w o)) /\
    view (fst (world_step e w o)) i = Some (cal_run e c (addressed i o)) /\
    (forall p, addressed i o = [p] -> snd (world_step e w o) = Some (snd (cal_step e c p))).
  Proof.
    intros S U V.
    assert (Nop : separate w /\ view w i = Some (cal_run e c []) /\
                  (forall p, @nil (cal_op A) = [p] -> @None (res unit) = Some (snd (cal_step e c p)))).
    { split; auto. split; auto. intros; discriminate. }
    destruct o as [j o|j a ct k| |]; try discriminate; clear U.
    - assert (T : (exists a ct k, o = OSetAtlas a ct k) \/
        (world_step e w (WCall j o) = match view w j, nth_error (w_cals w) j with
          | Some c, Some (_, r) => let (c', x) := cal_step e c o in (store w j r c', Some x)
          | _, _ => (w, None) end /\ addressed i (WCall j o) = if Nat.eqb i j then [o] else [])).
      { destruct o; eauto; right; split; reflexivity. }
      destruct T as [(a & ct & k & ->)|[T1 T2]]; [exact Nop|]. rewrite T1, T2. clear T1 T2.
      destruct (view w j) as [cj|] eqn:Vj.
      2:{ destruct (Nat.eqb_spec i j) as [->|]; [congruence|]. exact Nop. }
      destruct (nth_error (w_cals w) j) as [[c0 r]|] eqn:Nj; [|unfold view in Vj; rewrite Nj in Vj; discriminate].
      destruct (cal_step e cj o) as [c' x] eqn:Ec. cbn [fst snd].
      assert (Hr : r <> None -> c_atlas c' <> None).
      { destruct r as [r|]; [|congruence]. intros _. destruct (view_separate w j c0 r S Nj) as (a & _ & Va).
        rewrite Vj in Va. injection Va as ->. destruct (step_atlas_some e (set_c_atlas (Some a) c0) o a eq_refl) as [b Hb].
        rewrite Ec in Hb. cbn [fst] in Hb. congruence. }
      destruct (store_views w j r c' c0 S Nj Hr) as (P1 & P2 & P3). split; auto.
      destruct (Nat.eqb_spec i j) as [->|Hn].
      + assert (cj = c) by congruence. subst cj. split; [unfold cal_run; cbn; rewrite Ec; exact P2|].
        intros p Ep. injection Ep as <-. rewrite Ec. reflexivity.
      + split; [rewrite P3 by auto; exact V|]. discriminate.
    - cbn [world_step addressed]. destruct (view w j) as [cj|] eqn:Vj.
      2:{ destruct (Nat.eqb_spec i j) as [->|]; [congruence|]. exact Nop. }
      destruct (nth_error (w_cals w) j) as [[c0 r]|] eqn:Nj; [|unfold view in Vj; rewrite Nj in Vj; discriminate].
      destruct (cal_step e cj (OSetAtlas a ct k)) as [c' x] eqn:Ec. cbn [fst snd].
      assert (Hr : c_atlas c' <> None).
      { change c' with (fst (c', x)). rewrite <- Ec. cbn [cal_step]. unfold set_atlas, generate_pairs. cbn.
        destruct k; [|discriminate]. destruct (bind _ _); discriminate. }
      destruct (store_new_views w j c' c0 r S Nj Hr) as (P1 & P2 & P3). split; auto.
      destruct (Nat.eqb_spec i j) as [->|Hn].
      + assert (cj = c) by congruence. subst cj. split; [unfold cal_run; cbn [fold_left]; rewrite Ec; exact P2|].
        intros p Ep. injection Ep as <-. rewrite Ec. reflexivity.
      + split; [rewrite P3 by auto; exact V|]. discriminate.
  Qed.
End World.

(** C120: as long as no Atlas object is handed to two calibrators, every calibrator
    behaves, in every interleaving of calls to all of them, exactly as if it were
    alone: its state is the one its own calls lead to. *)
Lemma calibrators_independent_partial_main :
  forall (A : Type) (N : Num A) (e : env A) (w : world A) (h : list (world_op A)) i c,
    separate w -> forallb unshared h = true -> view w i = Some c ->
    separate (world_run e w h) /\
    view (world_run e w h) i = Some (cal_run e c (flat_map (addressed i) h)) /\
    (forall o p, unshared o = true -> addressed i o = [p] ->
       snd (world_step e (world_run e w h) o) =
       Some (snd (cal_step e (cal_run e c (flat_map (addressed i) h)) p))).
Proof.
  intros A N e w h i c S U V.
  assert (K : separate (world_run e w h) /\
    view (world_run e w h) i = Some (cal_run e c (flat_map (addressed i) h))).
  { revert w c S U V. induction h as [|o h IH]; intros w c S U V; [split; auto|].
    cbn in U. apply andb_true_iff in U. destruct U as [Uo U].
    destruct (world_step_views e w o i c S Uo V) as (S1 & V1 & _).
    destruct (IH _ _ S1 U V1) as [S2 V2]. split; [exact S2|].
    cbn [flat_map]. unfold cal_run in *. rewrite fold_left_app. exact V2. }
  destruct K as [K1 K2]. split; auto. split; auto.
  intros o p Uo Ep. destruct (world_step_views e _ o i _ K1 Uo K2) as (_ & _ & Z). exact (Z p Ep).
Qed.

(** C120 fails when the same Atlas object is given to two calibrators: whatever the
    state, clearing or shrinking it through one does so to the other too, whose pairs are left
    as they were. *)
Lemma calibrators_independent_refuted_main :
  forall (A : Type) (N : Num A) (e : env A) (w : world A) i j r c d ci dj a,
    i <> j -> nth_error (w_cals w) i = Some (c, Some r) -> nth_error (w_cals w) j = Some (d, Some r) ->
    nth_error (w_heap w) r = Some a -> view w i = Some ci -> view w j = Some dj ->
    (view (fst (world_step e w (WCall i OClear))) j = Some (set_c_atlas (Some (atlas_clear a)) dj)) /\
    (forall wl tol, view (fst (world_step e w (WCall i (ORemove wl tol)))) j =
                    Some (set_c_atlas (Some (remove_atlas_lines_range a wl tol)) dj)) /\
    (forall f, view (fst (world_step e w (WAtlas r f))) j = Some (set_c_atlas (Some (f a)) dj)).
Proof.
  intros A N e w i j r c d ci dj a Hn Hi Hj Hr Vi Vj.
  assert (Lr : r < List.length (w_heap w)) by (apply nth_error_Some; congruence).
  assert (Eci : ci = set_c_atlas (Some a) c) by (unfold view in Vi; rewrite Hi, Hr in Vi; congruence).
  assert (Edj : dj = set_c_atlas (Some a) d) by (unfold view in Vj; rewrite Hj, Hr in Vj; congruence).
  split; [|split].
  - cbn [world_step]. rewrite Vi, Hi. cbn [cal_step]. unfold cal_clear_atlas. rewrite Eci. cbn [c_atlas set_c_atlas fst].
    unfold store. cbn [c_atlas set_c_atlas]. unfold view. cbn [w_cals w_heap].
    rewrite put_nth_other, Hj, put_nth_same by auto. rewrite Edj. reflexivity.
  - intros wl tol. cbn [world_step]. rewrite Vi, Hi. cbn [cal_step]. unfold cal_remove_lines. rewrite Eci. cbn [c_atlas set_c_atlas fst].
    unfold store. cbn [c_atlas set_c_atlas]. unfold view. cbn [w_cals w_heap].
    rewrite put_nth_other, Hj, put_nth_same by auto. rewrite Edj. reflexivity.
  - intros f. cbn [world_step]. rewrite Hr. cbn [fst]. unfold view. cbn [w_cals w_heap].
    rewrite Hj, put_nth_same by auto. rewrite Edj. reflexivity.
Qed.

(** Two calibrators given one Atlas of two lines: after one of them is cleared, the
    other has no lines either, though it still holds its four pairs. *)
Example calibrators_independent_example_main :
  exists c0 : calib f64, calib_init Main_Calib.all_inside [fz 10; fz 20] None = Ok c0 /\
    let w0 := mkW [Main_Calib.atlas2] [(c0, None); (c0, None)] in
    separate w0 /\
    let shared := [WSetShared 0 0 (fz 10) false; WSetShared 1 0 (fz 10) false; WCall 0 OClear] in
    let own := [WSetOwn 0 Main_Calib.atlas2 (fz 10) false; WSetOwn 1 Main_Calib.atlas2 (fz 10) false; WCall 0 OClear] in
    let lines (h : list (world_op f64)) := match view (world_run Main_Calib.env0 w0 h) 1 with
                   | Some c => match c_atlas c with Some a => Some (List.length (get_lines a)) | None => None end
                   | None => None end in
    forallb unshared own = true /\ lines shared = Some 0%nat /\ lines own = Some 2%nat.
Proof.
  eexists. split; [vm_compute; reflexivity|]. cbv zeta. split.
  - split.
    + intros [|[|[]]] c r; cbn; discriminate.
    + intros [|[|[]]] j c d r; cbn; discriminate.
  - split; [reflexivity|]. split; vm_compute; reflexivity.
Qed.

(** * HoughFacts: lemmas about the Hough transform. *)

From Coq Require Import ZArith Bool List Lia Reals Lra Permutation Sorted String.
From Verif Require Import Num F64 XReal Py Np NpFacts Hough SpecHough.
Import ListNotations.
Local Open Scope R_scope.

Lemma flat_map_ext_in {T U} (f g : T -> list U) l :
  (forall x, In x l -> f x = g x) -> flat_map f l = flat_map g l.
Proof.
  induction l as [|x l IH]; intros H; cbn; auto. rewrite H by (left; auto).
  f_equal. apply IH. intros; apply H; right; auto.
Qed.

Lemma flat_map_map {T U V} (f : U -> list V) (g : T -> U) l :
  flat_map f (map g l) = flat_map (fun x => f (g x)) l.
Proof. induction l; cbn; auto. f_equal; auto. Qed.

Lemma map_flat_map {T U V} (f : U -> V) (g : T -> list U) l :
  map f (flat_map g l) = flat_map (fun x => map f (g x)) l.
Proof. induction l; cbn; auto. rewrite map_app. f_equal; auto. Qed.

Lemma filter_map_comm {T U} (f : U -> bool) (g : T -> U) l :
  filter f (map g l) = map g (filter (fun x => f (g x)) l).
Proof. induction l as [|x l IH]; cbn; auto. destruct (f (g x)); cbn; congruence. Qed.

Lemma INR_neq0 n : (1 <= n)%nat -> INR n <> 0.
Proof. intros. apply not_0_INR. lia. Qed.

(** np.linspace over exact numbers. *)
Lemma linspace_Fin lo hi n :
  np_linspace (Fin lo) (Fin hi) n = map Fin (map (slope_at lo hi n) (seq 0 n)).
Proof.
  destruct n as [|[|k]]; [reflexivity| |].
  - cbn. unfold slope_at. cbn. do 2 f_equal. unfold Rlit. cbn. ring.
  - unfold np_linspace. rewrite nnat_Fin.
    assert (Hk : INR (S k) <> 0) by (apply INR_neq0; lia).
    replace (seq 0 (S (S k))) with (seq 0 (S k) ++ [S k])%list by (rewrite <- seq_S; reflexivity).
    rewrite !map_app. f_equal.
    + rewrite map_map. apply map_ext. intros i. rewrite nnat_Fin. unfold slope_at. cbn [Nat.eqb].
      replace (S (S k) - 1)%nat with (S k) by lia.
      cbn -[INR]. destruct (Reqb_spec (INR (S k)) 0); [contradiction|]. cbn -[INR]. f_equal.
      field. auto.
    + cbn [map]. unfold slope_at. cbn [Nat.eqb]. replace (S (S k) - 1)%nat with (S k) by lia.
      do 2 f_equal. field. auto.
Qed.

Lemma slope_points_Fin lo_s hi_s lo_i hi_i data n :
  slope_points (Fin lo_s) (Fin hi_s) (Fin lo_i) (Fin hi_i) (map FinP data) n =
  map FinP (filter (fun q => Rleb lo_i (snd q) && Rleb (snd q) hi_i) (all_lines lo_s hi_s n data)).
Proof.
  unfold slope_points. rewrite linspace_Fin.
  rewrite map_map, flat_map_map.
  rewrite (flat_map_ext_in _ (fun i => map FinP (map (line_with (slope_at lo_s hi_s n i)) data))).
  2:{ intros i _. rewrite !map_map. apply map_ext. intros p. reflexivity. }
  rewrite <- map_flat_map, filter_map_comm. reflexivity.
Qed.

Lemma combine_FinP data :
  combine (map (fun p => Fin (fst p)) data) (map (fun p => Fin (snd p)) data) = map FinP data.
Proof. induction data; cbn; auto. f_equal; auto. Qed.

(* ------------------------------------------------------------------ *)
(** Brute force. *)

Lemma lines_through_pairs {A} {N : Num A} (l : list (A * A)) :
  lines_through l = map (fun pq => line_through (fst pq) (snd pq)) (pairs_of l).
Proof. induction l; cbn; auto. rewrite map_app, map_map, IHl. reflexivity. Qed.

Lemma pairs_of_map {T U} (f : T -> U) l :
  pairs_of (map f l) = map (fun pq => (f (fst pq), f (snd pq))) (pairs_of l).
Proof. induction l; cbn; auto. rewrite map_app, !map_map, IHl. reflexivity. Qed.

Definition keepb (lo_s hi_s lo_i hi_i : R) (q : xr * xr) : bool :=
  (((Fin lo_s <' fst q) && (fst q <' Fin hi_s)) && ((Fin lo_i <' snd q) && (snd q <' Fin hi_i)))%num.

Lemma brute_one lo_s hi_s lo_i hi_i xp yp xq yq :
  let l := line_through (Fin xp, Fin yp) (Fin xq, Fin yq) in
  let pq := ((xp, yp), (xq, yq)) in
  keepb lo_s hi_s lo_i hi_i l = admissible lo_s hi_s lo_i hi_i pq /\
  (xp <> xq -> l = FinP (join pq)).
Proof.
  cbn zeta. unfold line_through. cbn [fst snd].
  change (nsub (Fin yq) (Fin yp)) with (Fin (yq - yp)).
  change (nsub (Fin xq) (Fin xp)) with (Fin (xq - xp)).
  change (ndiv (Fin (yq - yp)) (Fin (xq - xp))) with
    (if Reqb (xq - xp) 0 then (if Reqb (yq - yp) 0 then NaN else Inf (Rltb (yq - yp) 0))
     else Fin ((yq - yp) / (xq - xp))).
  unfold admissible. cbn [fst snd].
  destruct (Reqb_spec xp xq) as [->|Hx]; cbn [negb andb].
  - split; [|congruence]. destruct (Reqb_spec (xq - xq) 0) as [_|C]; [|exfalso; apply C; ring].
    destruct (Reqb (yq - yp) 0); [reflexivity|].
    unfold keepb. cbn [fst snd]. change (nltb (A:=xr)) with xltb.
    destruct (Rltb (yq - yp) 0); reflexivity.
  - destruct (Reqb_spec (xq - xp) 0) as [C|_]; [exfalso; apply Hx; lra|].
    change (nsub (Fin yq) (nmul (Fin ((yq - yp) / (xq - xp))) (Fin xq)))
      with (Fin (yq - ((yq - yp) / (xq - xp) * xq))).
    replace (yq - ((yq - yp) / (xq - xp) * xq)) with (yp - (yq - yp) / (xq - xp) * xp)
      by (field; lra).
    split; intros; reflexivity.
Qed.

Lemma brute_filter lo_s hi_s lo_i hi_i (L : list ((R * R) * (R * R))) :
  filter (keepb lo_s hi_s lo_i hi_i)
    (map (fun pq => line_through (FinP (fst pq)) (FinP (snd pq))) L) =
  map FinP (map join (filter (admissible lo_s hi_s lo_i hi_i) L)).
Proof.
  induction L as [|[[xp yp] [xq yq]] L IH]; [reflexivity|].
  rewrite map_cons. cbn [filter]. rewrite IH. clear IH.
  destruct (brute_one lo_s hi_s lo_i hi_i xp yp xq yq) as [E1 E2]. cbn zeta in E1, E2.
  cbn [fst snd]. change (FinP (xp, yp)) with (Fin xp, Fin yp). change (FinP (xq, yq)) with (Fin xq, Fin yq).
  rewrite E1.
  destruct (admissible lo_s hi_s lo_i hi_i (xp, yp, (xq, yq))) eqn:E; [|reflexivity].
  cbn [map]. rewrite E2; [reflexivity|]. unfold admissible in E. cbn [fst snd] in E.
  destruct (Reqb_spec xp xq); [discriminate|auto].
Qed.

Lemma join_sym p q : fst p <> fst q -> join (p, q) = join (q, p).
Proof.
  destruct p as [xp yp], q as [xq yq]. cbn. intros H. unfold join, line_with. cbn.
  f_equal; field; lra.
Qed.

Lemma admissible_sym a b c d p q : admissible a b c d (p, q) = admissible a b c d (q, p).
Proof.
  unfold admissible. cbn [fst snd]. destruct (Reqb_spec (fst p) (fst q)) as [E|E].
  - destruct (Reqb_spec (fst q) (fst p)) as [_|C]; [reflexivity|congruence].
  - destruct (Reqb_spec (fst q) (fst p)) as [C|_]; [congruence|]. rewrite (join_sym p q E). reflexivity.
Qed.

Lemma flat_map_perm {T U} (f : T -> list U) l l' :
  Permutation l l' -> Permutation (flat_map f l) (flat_map f l').
Proof.
  induction 1; cbn; auto.
  - apply Permutation_app_head; auto.
  - rewrite !app_assoc. apply Permutation_app_tail. apply Permutation_app_comm.
  - etransitivity; eauto.
Qed.

Lemma pairs_of_perm {T U} (F : T * T -> list U) l l' :
  (forall p q, F (p, q) = F (q, p)) -> Permutation l l' ->
  Permutation (flat_map F (pairs_of l)) (flat_map F (pairs_of l')).
Proof.
  intros HF. induction 1; cbn [pairs_of]; auto.
  - rewrite !flat_map_app. apply Permutation_app; auto. apply flat_map_perm.
    apply Permutation_map. auto.
  - cbn [map]. rewrite <- !app_comm_cons. cbn [flat_map]. rewrite !flat_map_app. rewrite (HF y x).
    apply Permutation_app_head. rewrite !app_assoc. apply Permutation_app_tail.
    apply Permutation_app_comm.
  - etransitivity; eauto.
Qed.

Lemma filter_as_flat_map {T U} (f : T -> bool) (g : T -> U) l :
  map g (filter f l) = flat_map (fun x => if f x then [g x] else []) l.
Proof. induction l as [|x l IH]; cbn; auto. destruct (f x); cbn; congruence. Qed.

Lemma admissible_lines_perm a b c d data data' :
  Permutation data' data ->
  Permutation (map join (filter (admissible a b c d) (pairs_of data')))
              (map join (filter (admissible a b c d) (pairs_of data))).
Proof.
  intros H. rewrite !filter_as_flat_map. apply pairs_of_perm; auto.
  intros p q. rewrite admissible_sym. destruct (admissible a b c d (q, p)) eqn:E; auto.
  rewrite join_sym; auto. unfold admissible in E. cbn in E.
  destruct (Reqb_spec (fst q) (fst p)); [discriminate|congruence].
Qed.

(** Pairs of positions i < j. *)
Lemma pairs_of_In {T} (l : list T) p q :
  In (p, q) (pairs_of l) <->
  exists i j, (i < j)%nat /\ nth_error l i = Some p /\ nth_error l j = Some q.
Proof.
  induction l as [|x l IH]; cbn [pairs_of].
  - split; [intros []|]. intros (i & j & _ & H & _). destruct i; discriminate.
  - rewrite in_app_iff, IH, in_map_iff. split.
    + intros [(y & E & H)|(i & j & L & H1 & H2)].
      * injection E as <- <-. apply In_nth_error in H. destruct H as [k H].
        exists 0%nat, (S k). split; [lia|]. auto.
      * exists (S i), (S j). split; [lia|]. auto.
    + intros ([|i] & [|j] & L & H1 & H2); try lia.
      * left. cbn in *. injection H1 as <-. exists q. split; auto. eapply nth_error_In; eauto.
      * right. exists i, j. split; [lia|]. auto.
Qed.

(* ------------------------------------------------------------------ *)
(** Histogram. *)

Lemma np_amin_Fin (v : list R) x : exists m, np_amin (map Fin (x :: v)) = Ok (Fin m) /\
  In m (x :: v) /\ (forall y, In y (x :: v) -> m <= y).
Proof.
  cbn [map np_amin].
  assert (G : forall v m, exists m', fold_left np_minimum (map Fin v) (Fin m) = Fin m' /\
            In m' (m :: v) /\ (forall y, In y (m :: v) -> m' <= y)).
  { clear. induction v as [|y v IH]; intros m.
    - exists m. split; [reflexivity|]. split; [left; auto|]. intros ? [<-|[]]. lra.
    - cbn [map fold_left]. unfold np_minimum at 2. cbn [nisnan XRnum xisnan nleb xleb].
      rewrite orb_false_r. destruct (Rleb_spec m y).
      + destruct (IH m) as (m' & E & I & L). exists m'. split; [exact E|].
        split; [destruct I; [left|right; right]; auto|].
        intros z [<-|[<-|Hz]].
        * apply L; left; auto.
        * apply Rle_trans with m; [apply L; left; auto|auto].
        * apply L; right; auto.
      + destruct (IH y) as (m' & E & I & L). exists m'. split; [exact E|].
        split; [right; auto|].
        intros z [<-|[<-|Hz]].
        * apply Rle_trans with y; [apply L; left; auto|lra].
        * apply L; left; auto.
        * apply L; right; auto. }
  destruct (G v x) as (m & E & I & L). exists m. rewrite E. auto.
Qed.

Lemma np_amax_Fin (v : list R) x : exists m, np_amax (map Fin (x :: v)) = Ok (Fin m) /\
  In m (x :: v) /\ (forall y, In y (x :: v) -> y <= m).
Proof.
  cbn [map np_amax].
  assert (G : forall v m, exists m', fold_left np_maximum (map Fin v) (Fin m) = Fin m' /\
            In m' (m :: v) /\ (forall y, In y (m :: v) -> y <= m')).
  { clear. induction v as [|y v IH]; intros m.
    - exists m. split; [reflexivity|]. split; [left; auto|]. intros ? [<-|[]]. lra.
    - cbn [map fold_left]. unfold np_maximum at 2. cbn [nisnan XRnum xisnan nleb xleb].
      rewrite orb_false_r. destruct (Rleb_spec y m).
      + destruct (IH m) as (m' & E & I & L). exists m'. split; [exact E|].
        split; [destruct I; [left|right; right]; auto|].
        intros z [<-|[<-|Hz]].
        * apply L; left; auto.
        * apply Rle_trans with m; [auto|apply L; left; auto].
        * apply L; right; auto.
      + destruct (IH y) as (m' & E & I & L). exists m'. split; [exact E|].
        split; [right; auto|].
        intros z [<-|[<-|Hz]].
        * apply Rle_trans with y; [lra|apply L; left; auto].
        * apply L; left; auto.
        * apply L; right; auto. }
  destruct (G v x) as (m & E & I & L). exists m. rewrite E. auto.
Qed.

Lemma Rlit_half : Rlit 5 (-1) = 1 / 2.
Proof. unfold Rlit, powerRZ. change (Pos.to_nat 1) with 1%nat. rewrite pow_1. lra. Qed.

Lemma outer_edges_Fin v : exists lo hi,
  outer_edges (map Fin v) = Ok (Fin lo, Fin hi) /\ data_range v lo hi /\ lo < hi /\
  (forall x, In x v -> lo <= x <= hi).
Proof.
  destruct v as [|x v].
  - exists 0, 1. split; [unfold outer_edges; cbn [map]; rewrite !nZ_Fin; reflexivity|].
    split; [left; auto|]. split; [lra|]. intros ? [].
  - unfold outer_edges.
    destruct (np_amin_Fin v x) as (a & Ea & Ia & La).
    destruct (np_amax_Fin v x) as (b & Eb & Ib & Lb).
    change (map Fin (x :: v)) with (Fin x :: map Fin v) in *. rewrite Ea, Eb. cbn [bind].
    cbn [nisfinite XRnum xisfinite andb neqb xeqb].
    assert (a <= b) by (apply La; auto).
    destruct (Reqb_spec a b) as [->|Hab].
    + exists (b - 1/2), (b + 1/2). split; [|split; [|split]].
      * cbn. rewrite Rlit_half. reflexivity.
      * right. exists b, b. split; [exact Ia || exact Ib|]. split; [exact Ib|]. split; [intros y Hy; split; auto|].
        right. auto.
      * lra.
      * intros y Hy. pose proof (La y Hy). pose proof (Lb y Hy). lra.
    + exists a, b. split; [reflexivity|]. split; [|split].
      * right. exists a, b. split; [exact Ia || exact Ib|]. split; [exact Ib|]. split; [intros y Hy; split; auto|].
        left. split; [lra|auto].
      * lra.
      * intros y Hy. split; auto.
Qed.

Lemma edge_slope lo hi n i : (1 <= n)%nat -> slope_at lo hi (S n) i = edge lo hi n i.
Proof.
  intros H. unfold slope_at, edge. destruct n; [lia|]. cbn [Nat.eqb].
  replace (S (S n) - 1)%nat with (S n) by lia. field. apply INR_neq0. lia.
Qed.

Lemma bin_edges_Fin v n : (1 <= n)%nat -> exists lo hi,
  bin_edges (map Fin v) n = Ok (map Fin (map (edge lo hi n) (seq 0 (S n)))) /\
  data_range v lo hi /\ lo < hi /\ (forall x, In x v -> lo <= x <= hi).
Proof.
  intros Hn. unfold bin_edges. destruct (Nat.eqb_spec n 0); [lia|].
  destruct (outer_edges_Fin v) as (lo & hi & E & D & L & I). exists lo, hi.
  rewrite E. cbn [bind fst snd]. rewrite linspace_Fin. split; [|auto].
  do 2 f_equal. apply map_ext. intros. apply edge_slope; auto.
Qed.

Lemma count_while_seq (f : nat -> bool) (g : nat -> xr) (P : xr -> bool) k m :
  (forall i, P (g i) = f i) ->
  (forall i j, (i <= j)%nat -> f j = true -> f i = true) ->
  let c := count_while P (map g (seq k m)) in
  (c <= m)%nat /\ (forall i, (k <= i < k + c)%nat -> f i = true) /\
  (forall i, (k + c <= i < k + m)%nat -> f i = false).
Proof.
  intros HP Hm. revert k. induction m as [|m IH]; intros k; cbn [seq map count_while].
  - repeat split; intros; lia.
  - rewrite HP. destruct (f k) eqn:E.
    + destruct (IH (S k)) as (I1 & I2 & I3). cbn zeta. repeat split.
      * lia.
      * intros i Hi. destruct (Nat.eq_dec i k) as [->|]; auto. apply I2. lia.
      * intros i Hi. apply I3. lia.
    + cbn zeta. repeat split; try lia. intros i Hi. destruct (f i) eqn:F; auto.
      rewrite (Hm k i) in E; auto. lia.
Qed.

Lemma edge_lt lo hi n i j : (1 <= n)%nat -> lo < hi -> (i < j)%nat -> edge lo hi n i < edge lo hi n j.
Proof.
  intros Hn H Hij. unfold edge. apply lt_INR in Hij.
  assert (0 < (hi - lo) / INR n).
  { apply Rdiv_lt_0_compat; [lra|]. apply lt_0_INR. lia. }
  nra.
Qed.

Lemma edge_0 lo hi n : edge lo hi n 0 = lo.
Proof. unfold edge. cbn. ring. Qed.
Lemma edge_n lo hi n : (1 <= n)%nat -> edge lo hi n n = hi.
Proof. intros. unfold edge. field. apply INR_neq0. auto. Qed.

Lemma last_edges lo hi n d : (1 <= n)%nat ->
  last (map Fin (map (edge lo hi n) (seq 0 (S n)))) d = Fin hi.
Proof.
  intros Hn. replace (seq 0 (S n)) with (seq 0 n ++ [n])%list by (rewrite <- seq_S; reflexivity).
  rewrite !map_app. cbn [map]. rewrite last_last. rewrite edge_n; auto.
Qed.

(** The bin number found by searchsorted is the bin containing the value. *)
Lemma bin_number_Fin lo hi n v i : (1 <= n)%nat -> lo < hi -> lo <= v <= hi -> (i < n)%nat ->
  Nat.eqb (bin_number (map Fin (map (edge lo hi n) (seq 0 (S n)))) (Fin v)) (S i) =
  in_bin lo hi n i v.
Proof.
  intros Hn L Hv Hi. unfold bin_number. rewrite last_edges by auto.
  unfold searchsorted_right. rewrite map_map.
  pose proof (count_while_seq (fun i => Rleb (edge lo hi n i) v) (fun i => Fin (edge lo hi n i))
    (fun e => nleb e (Fin v)) 0 (S n)) as C.
  cbn zeta in C. destruct C as (C1 & C2 & C3).
  { reflexivity. }
  { intros a b Hab. destruct (Rleb_spec (edge lo hi n b) v); [|discriminate].
    intros _. destruct (Rleb_spec (edge lo hi n a) v) as [|C]; auto. exfalso. apply C.
    destruct (Nat.eq_dec a b) as [->|]; auto. pose proof (edge_lt lo hi n a b Hn L). lra || (assert (a < b)%nat by lia; intuition lra). }
  set (c := count_while _ _) in *.
  change (neqb (Fin v) (Fin hi)) with (Reqb v hi). unfold in_bin.
  assert (Ele : forall a b, (a <= b)%nat -> edge lo hi n a <= edge lo hi n b).
  { intros a b Hab. destruct (Nat.eq_dec a b) as [->|]; [lra|].
    left. apply edge_lt; auto. lia. }
  destruct (Reqb_spec v hi) as [->|Hvh].
  - assert (Hc : c = S n).
    { destruct (Nat.eq_dec c (S n)); auto. exfalso.
      specialize (C3 n ltac:(lia)). rewrite edge_n in C3 by auto.
      destruct (Rleb_spec hi hi); [discriminate|lra]. }
    rewrite Hc. rewrite andb_true_r. replace (S n - 1)%nat with n by lia.
    destruct (Nat.eqb_spec n (S i)) as [->|Hne].
    + rewrite Nat.eqb_refl, orb_true_r, andb_true_r.
      destruct (Rleb_spec (edge lo hi (S i) i) hi) as [|C]; auto. exfalso. apply C.
      rewrite <- (edge_n lo hi (S i)) at 2 by lia. apply Ele. lia.
    + destruct (Nat.eqb_spec (S i) n); [congruence|]. rewrite orb_false_r.
      destruct (Rltb_spec hi (edge lo hi n (S i))) as [B|B]; [|rewrite andb_false_r; auto].
      exfalso. pose proof (Ele (S i) n ltac:(lia)). rewrite edge_n in * by auto. lra.
  - rewrite andb_false_r, orb_false_r.
    destruct (Nat.eqb_spec c (S i)) as [Hc|Hc].
    + rewrite (C2 i) by lia. cbn.
      destruct (Rltb_spec v (edge lo hi n (S i))) as [|B]; auto. exfalso.
      specialize (C3 (S i) ltac:(lia)). destruct (Rleb_spec (edge lo hi n (S i)) v); [discriminate|lra].
    + destruct (Rleb_spec (edge lo hi n i) v) as [B1|]; auto.
      destruct (Rltb_spec v (edge lo hi n (S i))) as [B2|]; auto. exfalso.
      destruct (le_lt_dec c i).
      * specialize (C3 i ltac:(lia)). destruct (Rleb_spec (edge lo hi n i) v); [discriminate|lra].
      * specialize (C2 (S i) ltac:(lia)). destruct (Rleb_spec (edge lo hi n (S i)) v); [lra|discriminate].
Qed.

(** Every value of the range is in exactly one bin. *)
Lemma in_bin_unique lo hi n v : (1 <= n)%nat -> lo < hi -> lo <= v <= hi ->
  exists i, (i < n)%nat /\ in_bin lo hi n i v = true /\
    forall j, (j < n)%nat -> in_bin lo hi n j v = true -> j = i.
Proof.
  intros Hn L Hv.
  set (b := bin_number (map Fin (map (edge lo hi n) (seq 0 (S n)))) (Fin v)).
  assert (Hb : (1 <= b <= n)%nat).
  { unfold b, bin_number. rewrite last_edges by auto. unfold searchsorted_right. rewrite map_map.
    pose proof (count_while_seq (fun i => Rleb (edge lo hi n i) v) (fun i => Fin (edge lo hi n i))
      (fun e => nleb e (Fin v)) 0 (S n)) as C.
    cbn zeta in C. destruct C as (C1 & C2 & C3).
    { reflexivity. }
    { intros p q Hab. destruct (Rleb_spec (edge lo hi n q) v); [|discriminate].
      intros _. destruct (Rleb_spec (edge lo hi n p) v) as [|C]; auto. exfalso. apply C.
      destruct (Nat.eq_dec p q) as [->|]; auto. assert (p < q)%nat by lia.
      pose proof (edge_lt lo hi n p q Hn L). intuition lra. }
    set (c := count_while _ _) in *.
    assert (1 <= c)%nat.
    { destruct c; [|lia]. specialize (C3 0%nat ltac:(lia)). rewrite edge_0 in C3.
      destruct (Rleb_spec lo v); [discriminate|lra]. }
    change (neqb (Fin v) (Fin hi)) with (Reqb v hi).
    destruct (Reqb_spec v hi) as [->|Hvh].
    - assert (Hc : c = S n).
      { destruct (Nat.eq_dec c (S n)); auto. exfalso.
        specialize (C3 n ltac:(lia)). rewrite edge_n in C3 by auto.
        destruct (Rleb_spec hi hi); [discriminate|lra]. }
      lia.
    - assert (c <> S n); [|lia]. intros Hc. specialize (C2 n ltac:(lia)). rewrite edge_n in C2 by auto.
      destruct (Rleb_spec hi v); [lra|discriminate]. }
  exists (b - 1)%nat. split; [lia|]. split.
  - rewrite <- bin_number_Fin by (auto; lia). fold b. apply Nat.eqb_eq. lia.
  - intros j Hj H. rewrite <- bin_number_Fin in H by auto. fold b in H. apply Nat.eqb_eq in H. lia.
Qed.

Lemma hist_counts_Fin lo hi lo' hi' xb yb pts : (1 <= xb)%nat -> (1 <= yb)%nat -> lo < hi -> lo' < hi' ->
  (forall p, In p pts -> lo <= fst p <= hi /\ lo' <= snd p <= hi') ->
  hist_counts (map Fin (map (edge lo hi xb) (seq 0 (S xb)))) (map Fin (map (edge lo' hi' yb) (seq 0 (S yb))))
    xb yb (map FinP pts) =
  map (fun i => map (fun j => List.length (filter (fun p => in_bin lo hi xb i (fst p) && in_bin lo' hi' yb j (snd p)) pts))
        (seq 0 yb)) (seq 0 xb).
Proof.
  intros Hx Hy L L' Hp. unfold hist_counts. apply map_ext_in. intros i Hi. apply map_ext_in. intros j Hj.
  apply in_seq in Hi, Hj. rewrite filter_map_comm, map_length. f_equal. apply filter_ext_in.
  intros p Hin. destruct (Hp p Hin). cbn [FinP fst snd].
  rewrite !bin_number_Fin by (auto; lia). reflexivity.
Qed.

(** Double counting. *)
Lemma sum_indicator {T} (P : nat -> T -> bool) n (x : T) i :
  (i < n)%nat -> P i x = true -> (forall j, (j < n)%nat -> P j x = true -> j = i) ->
  list_sum (map (fun k => if P k x then 1 else 0)%nat (seq 0 n)) = 1%nat.
Proof.
  intros Hi HP Hu.
  assert (G : forall k m, (k + m <= n)%nat ->
     list_sum (map (fun k => if P k x then 1 else 0)%nat (seq k m)) =
     if (k <=? i)%nat && (i <? k + m)%nat then 1%nat else 0%nat).
  { intros k m. revert k. induction m as [|m IH]; intros k Hk.
    - cbn [seq map list_sum fold_right]. destruct (Nat.leb_spec k i), (Nat.ltb_spec i (k + 0)); cbn; auto; lia.
    - cbn [seq map list_sum fold_right]. change (fold_right Init.Nat.add 0%nat) with list_sum.
      rewrite IH by lia.
      destruct (P k x) eqn:E.
      + apply Hu in E; [|lia]. subst k.
        destruct (Nat.leb_spec (S i) i), (Nat.leb_spec i i), (Nat.ltb_spec i (S i + m)),
          (Nat.ltb_spec i (i + S m)); cbn; auto; lia.
      + assert (k <> i) by congruence.
        destruct (Nat.leb_spec (S k) i), (Nat.leb_spec k i), (Nat.ltb_spec i (S k + m)),
          (Nat.ltb_spec i (k + S m)); cbn; auto; lia. }
  rewrite G by lia. destruct (Nat.leb_spec 0 i), (Nat.ltb_spec i (0 + n)); cbn; auto; lia.
Qed.

Lemma list_sum_map_plus {T} (f g : T -> nat) l :
  list_sum (map (fun x => f x + g x)%nat l) = (list_sum (map f l) + list_sum (map g l))%nat.
Proof.
  induction l as [|x l IH]; cbn; auto. unfold list_sum in *. rewrite IH. lia.
Qed.

Lemma list_sum_zero {T} (l : list T) : list_sum (map (fun _ => 0%nat) l) = 0%nat.
Proof. induction l; cbn; auto. Qed.

Lemma sum_over_bins {T} (P : nat -> T -> bool) (Q : T -> bool) n l :
  (forall x, In x l -> exists i, (i < n)%nat /\ P i x = true /\
                         forall j, (j < n)%nat -> P j x = true -> j = i) ->
  list_sum (map (fun i => List.length (filter (fun x => Q x && P i x) l)) (seq 0 n)) =
  List.length (filter Q l).
Proof.
  induction l as [|x l IH]; intros H.
  - cbn [filter List.length]. apply list_sum_zero.
  - cbn [filter]. rewrite (map_ext _ (fun i => (if Q x && P i x then 1 else 0) +
        List.length (filter (fun x => Q x && P i x) l))%nat).
    2:{ intros i. destruct (Q x && P i x); reflexivity. }
    rewrite list_sum_map_plus, IH by (intros; apply H; right; auto).
    destruct (Q x); cbn [andb].
    + destruct (H x (or_introl eq_refl)) as (i & Hi & HP & Hu).
      rewrite (sum_indicator P n x i) by auto. reflexivity.
    + rewrite list_sum_zero. reflexivity.
Qed.

Lemma list_sum_concat l : list_sum (List.concat l) = list_sum (map list_sum l).
Proof.
  induction l as [|x l IH]; cbn; auto. rewrite list_sum_app, IH. reflexivity.
Qed.

Lemma concat_nth (h : list (list nat)) yb k : (forall r, In r h -> List.length r = yb) ->
  (k < List.length h * yb)%nat ->
  nth_error (List.concat h) k = Some (count_at h (k / yb, k mod yb)%nat).
Proof.
  intros Hr. revert k. induction h as [|r h IH]; intros k Hk; cbn in Hk; [lia|].
  assert (yb <> 0)%nat by lia.
  pose proof (Hr r (or_introl eq_refl)) as Hl. cbn [List.concat].
  destruct (lt_dec k yb).
  - rewrite nth_error_app1 by lia. unfold count_at. cbn [fst snd].
    rewrite Nat.div_small, Nat.mod_small by lia. cbn [nth]. apply nth_error_nth'. lia.
  - rewrite nth_error_app2 by lia. rewrite Hl. rewrite IH; [|intros; apply Hr; right; auto|lia].
    unfold count_at. cbn [fst snd]. f_equal.
    replace k with (yb + (k - yb))%nat at 3 4 by lia.
    replace ((yb + (k - yb)) / yb)%nat with (S ((k - yb) / yb)).
    2:{ replace (yb + (k - yb))%nat with (1 * yb + (k - yb))%nat by lia.
        rewrite Nat.div_add_l by auto. lia. }
    replace ((yb + (k - yb)) mod yb)%nat with ((k - yb) mod yb)%nat.
    2:{ replace (yb + (k - yb))%nat with ((k - yb) + 1 * yb)%nat by lia.
        rewrite Nat.mod_add by auto. reflexivity. }
    reflexivity.
Qed.

Lemma concat_length_const (h : list (list nat)) yb : (forall r, In r h -> List.length r = yb) ->
  List.length (List.concat h) = (List.length h * yb)%nat.
Proof.
  induction h as [|r h IH]; intros H; cbn; auto. rewrite app_length, IH, (H r); auto.
  - left; auto.
  - intros; apply H; right; auto.
Qed.

Lemma positions_prod xb yb :
  map (fun k => (k / yb, k mod yb)%nat) (seq 0 (xb * yb)) = list_prod (seq 0 xb) (seq 0 yb).
Proof.
  destruct yb as [|y].
  - rewrite Nat.mul_0_r. cbn [seq map]. generalize 0%nat at 1. induction xb; intros; cbn; auto.
  - induction xb as [|xb IH]; [reflexivity|].
    rewrite seq_S. cbn [plus].
    replace (S xb * S y)%nat with (xb * S y + S y)%nat by lia.
    rewrite seq_app, map_app, IH.
    assert (G : forall (l m : list nat), list_prod (l ++ [xb]) m = (list_prod l m ++ map (pair xb) m)%list).
    { clear. induction l; intros; cbn; [rewrite app_nil_r; auto|]. rewrite IHl, app_assoc. auto. }
    rewrite G. f_equal. cbn [plus].
    assert (K : forall k m, (k + m <= S y)%nat ->
      map (fun q => (q / S y, q mod S y)%nat) (seq (xb * S y + k) m) = map (pair xb) (seq k m)).
    { intros k m. revert k. induction m as [|m IHm]; intros k Hk; [reflexivity|].
      cbn [seq map]. f_equal.
      - rewrite Nat.div_add_l by lia. rewrite Nat.div_small by lia.
        rewrite (Nat.add_comm (xb * S y) k), Nat.mod_add, Nat.mod_small by lia. f_equal. lia.
      - rewrite <- IHm by lia. do 2 f_equal. lia. }
    specialize (K 0%nat (S y) ltac:(lia)). rewrite Nat.add_0_r in K. exact K.
Qed.

(** The bins ordered by the argsort: all of them, most populated first. *)
Lemma sorted_bins_ok {A} {N : Num A} {O : NumOrder A} (argsort : list A -> list nat) hist xb yb :
  (forall i j : nat, (i < j)%nat -> nltb (nnat i : A) (nnat j) = true) ->
  (forall l, is_argsort l (argsort l)) ->
  List.length hist = xb -> (forall r, In r hist -> List.length r = yb) ->
  Permutation (sorted_bins argsort hist yb) (list_prod (seq 0 xb) (seq 0 yb)) /\
  StronglySorted (fun b c => (count_at hist c <= count_at hist b)%nat) (sorted_bins argsort hist yb).
Proof.
  intros Hlt Ha Hx Hy. unfold sorted_bins.
  destruct (Ha (map nnat (List.concat hist))) as [Hp Hs].
  rewrite map_length, (concat_length_const hist yb Hy), Hx in Hp. split.
  - rewrite <- positions_prod. apply Permutation_map.
    etransitivity; [symmetry; apply Permutation_rev|exact Hp].
  - apply SS_map. apply SS_rev. eapply SS_impl; [|exact Hs].
    intros i j Hi Hj H. cbn beta in *.
    apply (Permutation_in _ Hp) in Hi, Hj. apply in_seq in Hi, Hj.
    specialize (H (nnat (count_at hist (i / yb, i mod yb)%nat)) (nnat (count_at hist (j / yb, j mod yb)%nat))).
    rewrite !nth_error_map in H.
    rewrite !(concat_nth hist yb) in H by (auto; lia). cbn in H.
    specialize (H eq_refl eq_refl). unfold np_lt in H. apply orb_false_iff in H. destruct H as [H _].
    destruct (le_lt_dec (count_at hist (i / yb, i mod yb)%nat) (count_at hist (j / yb, j mod yb)%nat)); auto.
    rewrite Hlt in H by auto. discriminate.
Qed.

(* ------------------------------------------------------------------ *)
(** Files. *)
Local Open Scope string_scope.

Lemma str_append_length a b : String.length (a ++ b) = (String.length a + String.length b)%nat.
Proof. induction a; cbn; auto. Qed.

Lemma str_append_inj a b c : (a ++ c = b ++ c)%string -> a = b.
Proof.
  revert b. induction a as [|x a IH]; intros [|y b] H; cbn in H; auto.
  - exfalso. assert (E : String.length c = String.length (String y (b ++ c))) by (rewrite <- H; auto).
    cbn in E. rewrite str_append_length in E. lia.
  - exfalso. assert (E : String.length c = String.length (String x (a ++ c))) by (rewrite H; auto).
    cbn in E. rewrite str_append_length in E. lia.
  - injection H as -> H. f_equal. auto.
Qed.

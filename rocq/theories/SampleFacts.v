(** * SampleFacts: the sampling probabilities and the removal of close lines, over exact
    numbers. *)

From Coq Require Import ZArith Bool List Lia Reals Lra Sorted.
From Verif Require Import Num XReal Py Np NpFacts Util Hough SpecHough HoughFacts Cand SpecCand CandFacts Ransac SpecRansac.
Import ListNotations.
Local Open Scope R_scope.

Lemma data_range_unique v lo hi lo' hi' :
  data_range v lo hi -> data_range v lo' hi' -> lo = lo' /\ hi = hi'.
Proof.
  intros [(-> & -> & ->)|(a & b & Ha & Hb & Hab & H)] [(E & E1 & E2)|(a' & b' & Ha' & Hb' & Hab' & H')];
    try (subst; auto); try (destruct Ha'); try (destruct Ha).
  - destruct (Hab a' Ha'), (Hab b' Hb'), (Hab' a Ha), (Hab' b Hb).
    assert (a = a') by lra. assert (b = b') by lra. subst.
    destruct H as [(?&?&?)|(?&?&?)]; destruct H' as [(?&?&?)|(?&?&?)]; lra.
Qed.

Lemma searchsorted_left_Fin lo hi n v : (1 <= n)%nat -> lo < hi -> lo <= v <= hi ->
  let c := searchsorted_left (map Fin (map (edge lo hi n) (seq 0 (S n)))) (Fin v) in
  (c <= n)%nat /\ (forall i, (i < c)%nat -> edge lo hi n i < v) /\
  (forall i, (c <= i <= n)%nat -> v <= edge lo hi n i).
Proof.
  intros Hn L Hv. unfold searchsorted_left. rewrite map_map.
  pose proof (count_while_seq (fun i => Rltb (edge lo hi n i) v) (fun i => Fin (edge lo hi n i))
    (fun e => nltb e (Fin v)) 0 (S n)) as C. cbn zeta in C.
  destruct C as (C1 & C2 & C3).
  { intros i. reflexivity. }
  { intros i j Hij H. destruct (Rltb_spec (edge lo hi n j) v); [|discriminate].
    destruct (Rltb_spec (edge lo hi n i) v); auto. exfalso.
    destruct (Nat.eq_dec i j) as [->|]; [lra|].
    pose proof (edge_lt lo hi n i j Hn L). assert (edge lo hi n i < edge lo hi n j) by (apply H0; lia). lra. }
  set (c := count_while (fun e : xr => nltb e (Fin v)) (map (fun i => Fin (edge lo hi n i)) (seq 0 (S n)))) in *.
  cbn zeta. assert (Hc : (c <= n)%nat).
  { destruct (Nat.eq_dec c (S n)) as [E|]; [|lia].
    assert (H : Rltb (edge lo hi n n) v = true) by (apply C2; lia).
    rewrite edge_n in H by auto. destruct (Rltb_spec hi v); [lra|discriminate]. }
  split; auto. split.
  - intros i Hi. specialize (C2 i). assert (H : Rltb (edge lo hi n i) v = true) by (apply C2; lia).
    destruct (Rltb_spec (edge lo hi n i) v); auto; discriminate.
  - intros i Hi. assert (H : Rltb (edge lo hi n i) v = false) by (apply C3; lia).
    destruct (Rltb_spec (edge lo hi n i) v); [discriminate|lra].
Qed.

Definition edges10 lo hi : list xr := map Fin (map (edge lo hi 10) (seq 0 11)).

Lemma hist10_nth lo hi ps k : lo < hi -> (forall x, In x ps -> lo <= x <= hi) -> (k < 10)%nat ->
  nth_error (hist10 (edges10 lo hi) (map Fin ps)) k =
  Some (List.length (filter (fun p => in_bin lo hi 10 k p) ps)).
Proof.
  intros L Hps Hk. unfold hist10. rewrite nth_error_map.
  assert (E : nth_error (seq 0 10) k = Some k).
  { rewrite nth_error_nth' with (d := 0%nat) by (rewrite seq_length; auto). rewrite seq_nth; auto. }
  rewrite E. cbn [option_map]. f_equal. rewrite filter_map_comm, map_length. f_equal.
  apply filter_ext_in. intros p Hp. apply bin_number_Fin; auto. lia.
Qed.

Lemma filter_nonempty {T} (f : T -> bool) l x : In x l -> f x = true -> (0 < List.length (filter f l))%nat.
Proof.
  intros H1 H2. destruct (filter f l) eqn:E; cbn; [|lia].
  assert (In x []) as X; [|destruct X]. rewrite <- E. apply filter_In; auto.
Qed.

Lemma inverse_counts_Fin lo hi all ps : lo < hi -> In hi all -> (forall x, In x all -> lo <= x <= hi) ->
  (forall p i, In p all -> (1 <= i <= 9)%nat -> p <> edge lo hi 10 i) -> incl ps all ->
  exists ws, inverse_counts (hist10 (edges10 lo hi) (map Fin all)) (edges10 lo hi) (map Fin ps) = Ok (map Fin ws) /\
    List.length ws = List.length ps /\ forall w, In w ws -> 0 < w.
Proof.
  intros L Hhi Hall Hin. induction ps as [|p ps IH]; intros Hi.
  - exists []. split; [reflexivity|]. split; auto. intros ? [].
  - destruct IH as (ws & E & Lw & Hw); [intros z Hz; apply Hi; right; auto|].
    assert (Hp : In p all) by (apply Hi; left; auto).
    assert (G : exists n, index_pred (hist10 (edges10 lo hi) (map Fin all)) (searchsorted_left (edges10 lo hi) (Fin p)) = Some n /\ (0 < n)%nat).
    { destruct (searchsorted_left_Fin lo hi 10 p) as (C1 & C2 & C3); auto; [lia|].
      fold (edges10 lo hi) in C1, C2, C3.
      destruct (searchsorted_left (edges10 lo hi) (Fin p)) as [|k]; cbn [index_pred].
      - exists (List.length (filter (fun p => in_bin lo hi 10 9 p) all)). split.
        + rewrite <- hist10_nth by (auto; lia). f_equal.
        + apply (filter_nonempty _ _ hi); auto. unfold in_bin.
          destruct (Rleb_spec (edge lo hi 10 9) hi) as [_|H].
          2:{ pose proof (edge_lt lo hi 10 9 10). rewrite (edge_n lo hi 10) in H0 by lia.
              assert (edge lo hi 10 9 < hi) by (apply H0; auto; lia). lra. }
          cbn [Nat.eqb andb]. destruct (Reqb_spec hi hi); [apply orb_true_r|congruence].
      - exists (List.length (filter (fun p => in_bin lo hi 10 k p) all)). split.
        + apply hist10_nth; auto. 
        + apply (filter_nonempty _ _ p); auto. unfold in_bin.
          assert (H1 : edge lo hi 10 k < p) by (apply C2; lia).
          assert (H2 : p <= edge lo hi 10 (S k)) by (apply C3; lia).
          destruct (Rleb_spec (edge lo hi 10 k) p); [|lra]. cbn [andb].
          destruct (Rltb_spec p (edge lo hi 10 (S k))); auto. cbn [orb].
          destruct (Nat.eqb_spec (S k) 10) as [E9|Hk].
          * rewrite E9 in *. rewrite edge_n in * by lia. destruct (Reqb_spec p hi); auto. lra.
          * exfalso. apply (Hin p (S k)); auto; [lia|lra]. }
    destruct G as (n & En & Hn). cbn [map inverse_counts]. rewrite En, E. cbn [bind].
    assert (Hr : 0 < INR n) by (apply lt_0_INR; auto).
    exists (1 / INR n :: ws). split; [|split].
    + cbn [map]. do 2 f_equal. rewrite (nZ_Fin 1), nnat_Fin.
      change (ndiv (Fin (IZR 1)) (Fin (INR n))) with (if Reqb (INR n) 0 then (if Reqb 1 0 then NaN else Inf (Rltb 1 0)) else Fin (1 / INR n)).
      destruct (Reqb_spec (INR n) 0); [lra|reflexivity].
    + cbn. lia.
    + intros w [<-|Hw']; auto. apply Rdiv_lt_0_compat; lra.
Qed.

Lemma np_sum_Fin_R ws : np_sum (map Fin ws) = Fin (fold_right Rplus 0 ws).
Proof.
  unfold np_sum. rewrite (nZ_Fin 0).
  assert (G : forall l acc, fold_left nadd (map Fin l) (Fin acc) = Fin (acc + fold_right Rplus 0 l)).
  { induction l as [|z l IH]; intros acc; cbn [map fold_left fold_right]; [f_equal; lra|].
    change (nadd (Fin acc) (Fin z)) with (Fin (acc + z)). rewrite IH. f_equal. lra. }
  rewrite G. f_equal. lra.
Qed.

Lemma sum_pos ws : ws <> [] -> (forall w, In w ws -> 0 < w) -> 0 < fold_right Rplus 0 ws.
Proof.
  destruct ws as [|w ws]; [congruence|]. intros _ H. cbn [fold_right].
  assert (G : 0 <= fold_right Rplus 0 ws).
  { assert (H' : forall u, In u ws -> 0 < u) by (intros; apply H; right; auto).
    clear H. induction ws as [|u ws IH]; cbn [fold_right]; [lra|].
    assert (0 < u) by (apply H'; left; auto).
    assert (0 <= fold_right Rplus 0 ws) by (apply IH; intros; apply H'; right; auto). lra. }
  pose proof (H w (or_introl eq_refl)). lra.
Qed.

Lemma sum_div ws d : fold_right Rplus 0 (map (fun w => w / d) ws) = fold_right Rplus 0 ws / d.
Proof. induction ws as [|w ws IH]; cbn [map fold_right]; [lra|]. rewrite IH. lra. Qed.

Lemma sampling_prob_Fin ps lo hi : ps <> [] -> data_range ps lo hi ->
  (forall p i, In p ps -> (1 <= i <= 9)%nat -> p <> edge lo hi 10 i) ->
  exists qs, sampling_prob (map Fin ps) = Ok (map Fin qs) /\ List.length qs = List.length ps /\
    (forall q, In q qs -> 0 < q) /\ fold_right Rplus 0 qs = 1.
Proof.
  intros Hne D Hin. destruct (bin_edges_Fin ps 10) as (lo' & hi' & E & D' & L & Hps); [lia|].
  destruct (data_range_unique _ _ _ _ _ D D') as [<- <-].
  assert (Hhi : In hi ps).
  { destruct D as [(-> & _)|(a & b & Ha & Hb & Hab & [(_ & -> & ->)|(-> & -> & ->)])]; [congruence|auto|].
    exfalso. apply (Hin b 5%nat); auto; [lia|]. unfold edge. replace (INR 5) with 5 by (cbn; lra).
    replace (INR 10) with 10 by (cbn; lra). lra. }
  destruct (inverse_counts_Fin lo hi ps ps L Hhi Hps Hin (fun z H => H)) as (ws & Ew & Lw & Hw).
  unfold sampling_prob. rewrite E. cbn [bind]. fold (edges10 lo hi). rewrite Ew. cbn [bind].
  rewrite np_sum_Fin_R. set (T := fold_right Rplus 0 ws).
  assert (HT : 0 < T). { apply sum_pos; auto. destruct ws; [destruct ps; [congruence|discriminate]|discriminate]. }
  exists (map (fun w => w / T) ws). split; [|split; [rewrite map_length; auto|split]].
  - f_equal. rewrite !map_map. apply map_ext. intros w.
    change (ndiv (Fin w) (Fin T)) with (if Reqb T 0 then (if Reqb w 0 then NaN else Inf (Rltb w 0)) else Fin (w / T)).
    destruct (Reqb_spec T 0); [lra|reflexivity].
  - intros q Hq. apply in_map_iff in Hq. destruct Hq as (w & <- & Hq). apply Rdiv_lt_0_compat; auto.
  - rewrite sum_div. unfold T. field. fold T. lra.
Qed.

(** The count a peak is weighted with. *)
Lemma count_of lo hi all p : lo < hi -> (forall x, In x all -> lo <= x <= hi) -> In p all -> In hi all \/ lo < p ->
  exists n, index_pred (hist10 (edges10 lo hi) (map Fin all)) (searchsorted_left (edges10 lo hi) (Fin p)) = Some n /\
    ((0 < n)%nat <-> forall i, (1 <= i <= 9)%nat -> p = edge lo hi 10 i ->
                       exists q, In q all /\ edge lo hi 10 (i - 1) <= q < edge lo hi 10 i).
Proof.
  intros L Hall Hp Hlo.
  assert (Elt : forall i j, (i < j)%nat -> edge lo hi 10 i < edge lo hi 10 j).
  { intros i j Hij. apply edge_lt; auto; lia. }
  destruct (searchsorted_left_Fin lo hi 10 p) as (C1 & C2 & C3); auto; [lia|].
  fold (edges10 lo hi) in C1, C2, C3.
  destruct (searchsorted_left (edges10 lo hi) (Fin p)) as [|k]; cbn [index_pred].
  - assert (Ep : p = edge lo hi 10 0).
    { assert (p <= edge lo hi 10 0) by (apply C3; lia). pose proof (Hall p Hp).
      assert (edge lo hi 10 0 = lo) by (unfold edge; cbn; lra). lra. }
    exists (List.length (filter (fun p => in_bin lo hi 10 9 p) all)). split.
    { rewrite <- hist10_nth by (auto; lia). f_equal. }
    split.
    + intros _ i Hi E. assert (edge lo hi 10 0 < edge lo hi 10 i) by (apply Elt; lia). lra.
    + intros _. destruct Hlo as [Hhi|Hlo].
      2: { assert (edge lo hi 10 0 = lo) by (unfold edge; cbn; lra). lra. }
      apply (filter_nonempty _ _ hi); auto. unfold in_bin.
      destruct (Rleb_spec (edge lo hi 10 9) hi) as [_|H].
      2:{ pose proof (Elt 9%nat 10%nat ltac:(lia)) as K. rewrite (edge_n lo hi 10) in K by lia. lra. }
      cbn [Nat.eqb andb]. destruct (Reqb_spec hi hi); [apply orb_true_r|congruence].
  - exists (List.length (filter (fun p => in_bin lo hi 10 k p) all)). split; [apply hist10_nth; auto|].
    assert (H1 : edge lo hi 10 k < p) by (apply C2; lia).
    assert (H2 : p <= edge lo hi 10 (S k)) by (apply C3; lia).
    split.
    + intros Hn i Hi E. destruct (filter _ all) as [|q l] eqn:Ef; [cbn in Hn; lia|].
      assert (Hq : In q (filter (fun p => in_bin lo hi 10 k p) all)) by (rewrite Ef; left; auto).
      apply filter_In in Hq. destruct Hq as (Hq & Hb).
      assert (Ei : i = S k).
      { destruct (lt_eq_lt_dec i (S k)) as [[K|K]|K]; auto.
        - assert (edge lo hi 10 i <= edge lo hi 10 k).
          { destruct (Nat.eq_dec i k) as [->|]; [lra|]. left. apply Elt. lia. }
          lra.
        - assert (edge lo hi 10 (S k) < edge lo hi 10 i) by (apply Elt; lia). lra. }
      subst i. replace (S k - 1)%nat with k by lia. exists q. split; auto. unfold in_bin in Hb.
      destruct (Rleb_spec (edge lo hi 10 k) q); [|discriminate]. cbn [andb] in Hb.
      destruct (Rltb_spec q (edge lo hi 10 (S k))); [auto|]. cbn [orb] in Hb.
      destruct (Nat.eqb_spec (S k) 10); [lia|discriminate].
    + intros G. destruct (Req_dec p (edge lo hi 10 (S k))) as [E|E].
      * destruct (Nat.eq_dec (S k) 10) as [E9|Hk].
        -- apply (filter_nonempty _ _ p); auto. unfold in_bin.
           destruct (Rleb_spec (edge lo hi 10 k) p); [|lra]. cbn [andb].
           rewrite E9 in *. rewrite edge_n in * by lia. cbn [Nat.eqb andb].
           destruct (Reqb_spec p hi); [apply orb_true_r|lra].
        -- destruct (G (S k) ltac:(lia) E) as (q & Hq & Hqe). replace (S k - 1)%nat with k in Hqe by lia.
           apply (filter_nonempty _ _ q); auto. unfold in_bin.
           destruct (Rleb_spec (edge lo hi 10 k) q); [|lra]. cbn [andb].
           destruct (Rltb_spec q (edge lo hi 10 (S k))); [auto|lra].
      * apply (filter_nonempty _ _ p); auto. unfold in_bin.
        destruct (Rleb_spec (edge lo hi 10 k) p); [|lra]. cbn [andb].
        destruct (Rltb_spec p (edge lo hi 10 (S k))); [auto|lra].
Qed.

(** The inverse counts: all finite and positive, or one of them infinite. *)
Lemma inverse_counts_cases lo hi all ps : lo < hi -> (forall x, In x all -> lo <= x <= hi) ->
  (forall p, In p ps -> In hi all \/ lo < p) -> incl ps all ->
  exists ws, inverse_counts (hist10 (edges10 lo hi) (map Fin all)) (edges10 lo hi) (map Fin ps) = Ok ws /\
    List.length ws = List.length ps /\
    Forall2 (fun p w => (exists v, w = Fin v /\ 0 < v) /\
                        (forall i, (1 <= i <= 9)%nat -> p = edge lo hi 10 i ->
                           exists q, In q all /\ edge lo hi 10 (i - 1) <= q < edge lo hi 10 i) \/
                        w = Inf false /\
                        ~ (forall i, (1 <= i <= 9)%nat -> p = edge lo hi 10 i ->
                           exists q, In q all /\ edge lo hi 10 (i - 1) <= q < edge lo hi 10 i)) ps ws.
Proof.
  intros L Hall. induction ps as [|p ps IH]; intros Hlo Hi.
  - exists []. repeat split; constructor.
  - destruct IH as (ws & E & Lw & F); [intros z Hz; apply Hlo; right; auto|intros z Hz; apply Hi; right; auto|].
    destruct (count_of lo hi all p L Hall) as (n & En & Hn); [apply Hi; left; auto|apply Hlo; left; auto|].
    cbn [map inverse_counts]. rewrite En, E. cbn [bind]. eexists. split; [reflexivity|]. split; [cbn; lia|].
    constructor; auto. rewrite (nZ_Fin 1), nnat_Fin.
    change (ndiv (Fin (IZR 1)) (Fin (INR n))) with (if Reqb (INR n) 0 then (if Reqb 1 0 then NaN else Inf (Rltb 1 0)) else Fin (1 / INR n)).
    destruct n as [|n].
    + right. destruct (Reqb_spec (INR 0) 0); [|cbn in *; lra]. destruct (Reqb_spec 1 0); [lra|].
      destruct (Rltb_spec 1 0); [lra|]. split; auto. intros G. apply Hn in G. lia.
    + left. assert (0 < INR (S n)) by (apply lt_0_INR; lia).
      destruct (Reqb_spec (INR (S n)) 0); [lra|]. split; [|apply Hn; lia].
      exists (1 / INR (S n)). split; auto. apply Rdiv_lt_0_compat; lra.
Qed.

Lemma weights_cases (P : R -> Prop) ps ws :
  Forall2 (fun p w => (exists v, w = Fin v /\ 0 < v) /\ P p \/ w = Inf false /\ ~ P p) ps ws ->
  (exists us, ws = map Fin us /\ (forall u, In u us -> 0 < u) /\ forall p, In p ps -> P p) \/
  (np_sum ws = Inf false /\ In (Inf false) ws /\ exists p, In p ps /\ ~ P p).
Proof.
  intros F.
  assert (G : (exists us, ws = map Fin us /\ (forall u, In u us -> 0 < u) /\ forall p, In p ps -> P p) \/
    ((forall acc, exists b, (b = Fin acc \/ b = Inf false) /\ fold_left nadd ws (Fin acc) = Inf false) /\ fold_left nadd ws (Inf false) = Inf false /\
     In (Inf false) ws /\ exists p, In p ps /\ ~ P p)).
  { induction F as [|p w l1 l2 K F IH].
    - left. exists []. repeat split; auto; intros ? [].
    - assert (S0 : fold_left nadd l2 (Inf false) = Inf false).
      { clear -F. induction F as [|p w l1 l2 K F IH]; auto. cbn [fold_left].
        destruct K as [((v & -> & _) & _)|(-> & _)]; exact IH. }
      destruct K as [((v & -> & Hv) & Hp)|(-> & Hp)].
      + destruct IH as [(us & -> & Hu & Hps)|(S1 & _ & S3 & q & Hq & Hqp)].
        * left. exists (v :: us). repeat split; auto; [intros u [<-|Hin]; auto|intros q [<-|Hin]; auto].
        * right. split; [|split; [exact S0|split; [right; auto|exists q; split; [right; auto|auto]]]].
          intros acc. exists (Fin acc). split; auto. cbn [fold_left].
          change (nadd (Fin acc) (Fin v)) with (Fin (acc + v)). destruct (S1 (acc + v)) as (_ & _ & ->). reflexivity.
      + right. split; [|split; [exact S0|split; [left; auto|exists p; split; [left; auto|auto]]]].
        intros acc. exists (Fin acc). split; auto. }
  destruct G as [G|(S1 & _ & S3 & S4)]; [left; exact G|right].
  split; [|auto]. unfold np_sum. rewrite (nZ_Fin 0). destruct (S1 (IZR 0)) as (_ & _ & ->). reflexivity.
Qed.

(** When the probabilities are positive and sum to one, and what they are otherwise. *)
Lemma sampling_prob_cases ps lo hi : ps <> [] -> data_range ps lo hi ->
  let clear := forall p i, In p ps -> (1 <= i <= 9)%nat -> p = edge lo hi 10 i ->
                 exists q, In q ps /\ edge lo hi 10 (i - 1) <= q < edge lo hi 10 i in
  (clear -> exists qs, sampling_prob (map Fin ps) = Ok (map Fin qs) /\ List.length qs = List.length ps /\
     (forall q, In q qs -> 0 < q) /\ fold_right Rplus 0 qs = 1) /\
  (~ clear -> exists l, sampling_prob (map Fin ps) = Ok l /\ In NaN l).
Proof.
  intros Hne D clear. destruct (bin_edges_Fin ps 10) as (lo' & hi' & E & D' & L & Hps); [lia|].
  destruct (data_range_unique _ _ _ _ _ D D') as [<- <-].
  assert (Hlo : forall p, In p ps -> In hi ps \/ lo < p).
  { intros p Hp. destruct D as [(-> & _)|(a & b & Ha & Hb & Hab & [(_ & -> & ->)|(-> & -> & ->)])]; [congruence|auto|].
    right. pose proof (Hab p Hp). lra. }
  destruct (inverse_counts_cases lo hi ps ps L Hps Hlo (fun z H => H)) as (ws & Ew & Lw & F).
  unfold sampling_prob. rewrite E. cbn [bind]. fold (edges10 lo hi). rewrite Ew. cbn [bind].
  apply weights_cases in F. split.
  - intros C. destruct F as [(us & -> & Hu & _)|(_ & _ & p & Hp & Hn)].
    2: { exfalso. apply Hn. intros i Hi Ep. apply (C p i); auto. }
    rewrite np_sum_Fin_R. rewrite map_length in Lw. set (T := fold_right Rplus 0 us).
    assert (HT : 0 < T). { apply sum_pos; auto. destruct us; [destruct ps; [congruence|discriminate]|discriminate]. }
    exists (map (fun w => w / T) us). split; [|split; [rewrite map_length; auto|split]].
    + f_equal. rewrite !map_map. apply map_ext. intros w.
      change (ndiv (Fin w) (Fin T)) with (if Reqb T 0 then (if Reqb w 0 then NaN else Inf (Rltb w 0)) else Fin (w / T)).
      destruct (Reqb_spec T 0); [lra|reflexivity].
    + intros q Hq. apply in_map_iff in Hq. destruct Hq as (w & <- & Hq). apply Rdiv_lt_0_compat; auto.
    + rewrite sum_div. unfold T. field. fold T. lra.
  - intros C. destruct F as [(us & _ & _ & Hall)|(S1 & S2 & _)].
    { exfalso. apply C. intros p i Hp Hi Ep. apply (Hall p Hp i); auto. }
    eexists. split; [reflexivity|]. rewrite S1. apply in_map_iff. exists (Inf false). split; auto.
Qed.

(* ------------------------------------------------------------------ *)
(** Close wavelengths. *)

Lemma map_Fin_of (l : list xr) (y : list R) : incl l (map Fin y) -> exists us, l = map Fin us /\ incl us y.
Proof.
  induction l as [|a l IH]; intros H.
  - exists []. split; auto. intros ? [].
  - destruct IH as (us & -> & Hu); [intros z Hz; apply H; right; auto|].
    specialize (H a (or_introl eq_refl)). apply in_map_iff in H. destruct H as (r & <- & Hr).
    exists (r :: us). split; auto. intros z [<-|Hz]; auto.
Qed.

Lemma np_unique_Fin y : exists us, np_unique (map Fin y) = map Fin us /\
  StronglySorted Rlt us /\ forall v, In v us <-> In v y.
Proof.
  assert (Hn : no_nan (map Fin y)).
  { intros z Hz. apply in_map_iff in Hz. destruct Hz as (r & <- & _). reflexivity. }
  destruct (map_Fin_of _ _ (np_unique_incl (map Fin y))) as (us & E & Hi).
  exists us. split; auto. split.
  - pose proof (np_unique_sorted _ Hn) as S. rewrite E in S. clear - S.
    induction us as [|u us IH]; [constructor|]. cbn [map] in S. inversion S as [|? ? S1 F]; subst.
    constructor; auto. rewrite Forall_forall in *. intros z Hz.
    specialize (F (Fin z) (in_map _ _ _ Hz)). change (nltb (Fin u) (Fin z)) with (Rltb u z) in F.
    destruct (Rltb_spec u z); auto; discriminate.
  - intros v. split; [apply Hi|]. intros Hv.
    destruct (np_unique_repr _ (Fin v) Hn (in_map _ _ _ Hv)) as (z & Hz & Ez).
    rewrite E in Hz. apply in_map_iff in Hz. destruct Hz as (r & <- & Hr).
    change (neqb (Fin r) (Fin v)) with (Reqb r v) in Ez. destruct (Reqb_spec r v); [congruence|discriminate].
Qed.

Lemma close_lower_Fin t us : StronglySorted Rlt us ->
  exists bs, close_lower (Fin t) (map Fin us) = map Fin bs /\
    forall v, In v bs <-> (In v us /\ exists z, In z us /\ v < z /\ z - v < 3 * t).
Proof.
  induction 1 as [|a us S IH F].
  { exists []. split; auto. intros v. split; [intros []|intros [[] _]]. }
  destruct IH as (bs & E & Hb). destruct us as [|b us].
  { exists []. split; auto. intros v. split; [intros []|].
    intros [[->|[]] (z & [->|[]] & H & _)]. lra. }
  rewrite Forall_forall in F.
  assert (Hbmin : forall z, In z (b :: us) -> b <= z).
  { intros z [<-|Hz]; [lra|]. inversion S as [|? ? _ F']; subst. rewrite Forall_forall in F'.
    specialize (F' z Hz). lra. }
  assert (G : forall v, (In v (b :: us) /\ exists z, In z (b :: us) /\ v < z /\ z - v < 3 * t) <->
                        (In v (b :: us) /\ exists z, In z (a :: b :: us) /\ v < z /\ z - v < 3 * t)).
  { intros v. split; intros (H1 & z & H2 & H3 & H4); (split; [auto|]; exists z); [split; [right; auto|auto]|].
    destruct H2 as [<-|H2]; [specialize (F v H1); lra|auto]. }
  change (close_lower (Fin t) (map Fin (a :: b :: us))) with
    (if nltb (nsub (Fin b) (Fin a)) (nmul (nZ 3) (Fin t)) then Fin a :: close_lower (Fin t) (map Fin (b :: us))
     else close_lower (Fin t) (map Fin (b :: us))).
  rewrite (nZ_Fin 3). change (nltb (nsub (Fin b) (Fin a)) (nmul (Fin 3) (Fin t))) with (Rltb (b - a) (3 * t)).
  destruct (Rltb_spec (b - a) (3 * t)) as [H|H].
  - exists (a :: bs). split; [rewrite E; reflexivity|]. intros v. split.
    + intros [<-|Hv].
      * split; [left; auto|]. exists b. split; [right; left; auto|]. split; auto. apply F. left; auto.
      * apply Hb, G in Hv. destruct Hv as [H1 H2]. split; [right; auto|exact H2].
    + intros [[<-|H1] H2]; [left; auto|right; apply Hb, G; auto].
  - exists bs. split; auto. intros v. split.
    + intros Hv. apply Hb, G in Hv. destruct Hv as [H1 H2]. split; [right; auto|exact H2].
    + intros [[<-|H1] H2]; [|apply Hb, G; auto]. exfalso. destruct H2 as (z & [<-|Hz] & H3 & H4); [lra|].
      specialize (Hbmin z Hz). lra.
Qed.

Lemma mask_map_combine {T U V W} (f : U -> bool) (g : T -> V) (h : U -> W) (x : list T) (y : list U) :
  List.length x = List.length y ->
  mask_select (map f y) (map g x) = map g (map fst (filter (fun q => f (snd q)) (combine x y))) /\
  mask_select (map f y) (map h y) = map h (map snd (filter (fun q => f (snd q)) (combine x y))).
Proof.
  revert y. induction x as [|a x IH]; intros [|b y] L; cbn in L; try discriminate.
  - cbn. rewrite !mask_select_nil_l. auto.
  - cbn [map combine filter snd]. rewrite !mask_select_cons. destruct (IH y) as [I1 I2]; [lia|].
    destruct (f b); cbn [map fst snd]; rewrite I1, I2; auto.
Qed.

Lemma filter_close_Fin t x y : List.length x = List.length y ->
  let kept := filter (fun q => isolated t y (snd q)) (combine x y) in
  filter_close (Fin t) (map Fin x) (map Fin y) = (map Fin (map fst kept), map Fin (map snd kept)).
Proof.
  intros L. cbn zeta. unfold filter_close.
  destruct (np_unique_Fin y) as (us & Eu & Su & Hu). rewrite Eu.
  destruct (close_lower_Fin t us Su) as (bs & Eb & Hb). rewrite Eb.
  rewrite map_map.
  assert (E : map (fun v => negb (existsb (fun b => neqb (Fin v) b) (map Fin bs))) y = map (isolated t y) y).
  { apply map_ext_in. intros v Hv. unfold isolated.
    destruct (existsb (fun b => neqb (Fin v) b) (map Fin bs)) eqn:Ex; cbn [negb]; symmetry.
    - apply existsb_exists in Ex. destruct Ex as (z & Hz & Ez). apply in_map_iff in Hz. destruct Hz as (r & <- & Hr).
      change (neqb (Fin v) (Fin r)) with (Reqb v r) in Ez. destruct (Reqb_spec v r); [|discriminate]. subst r.
      apply Hb in Hr. destruct Hr as (_ & z & Hz & H1 & H2).
      apply not_true_is_false. intros Hf. rewrite forallb_forall in Hf. apply Hu in Hz. specialize (Hf z Hz).
      destruct (Rltb_spec v z); [|lra]. destruct (Rleb_spec (3 * t) (z - v)); [lra|discriminate].
    - apply forallb_forall. intros z Hz. destruct (Rltb_spec v z); auto. cbn [negb orb].
      destruct (Rleb_spec (3 * t) (z - v)); auto. exfalso.
      assert (existsb (fun b => neqb (Fin v) b) (map Fin bs) = true); [|congruence].
      apply existsb_exists. exists (Fin v). split.
      + apply in_map. apply Hb. split; [apply Hu; auto|]. exists z. split; [apply Hu; auto|]. split; auto. lra.
      + change (neqb (Fin v) (Fin v)) with (Reqb v v). destruct (Reqb_spec v v); auto. }
  rewrite E. destruct (mask_map_combine (isolated t y) Fin Fin x y L) as [M1 M2].
  rewrite M1, M2. reflexivity.
Qed.

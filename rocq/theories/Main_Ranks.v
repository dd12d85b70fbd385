(** * Main_Ranks: what the candidate pruning keeps, for all candidates (C57). *)

From Coq Require Import ZArith Bool List String Lia Reals Lra Sorted Permutation.
From Verif Require Import Num F64 XReal Py Np NpFacts ArgsortFacts EdlenFacts Util Atlas Hough PolyEval Calib Cand SpecCand CandFacts SampleFacts Main_Cand.
Import ListNotations.
Local Open Scope num_scope.

(** The wavelengths returned for peak p. *)
Lemma kept_common argsort (cs : list (cand xr)) rs top weighted p :
  List.concat cs = map lift_row rs -> (forall l, is_argsort l (argsort l)) ->
  (exists y w, In (p, y, w) rs) ->
  let out := most_common_candidates argsort cs top weighted in
  map snd (filter (fun q => fst q ==' Fin p) (combine (fst out) (snd out)))
  = common_for argsort (List.concat cs) top weighted (Fin p).
Proof.
  intros Hc Ha He. cbv zeta. rewrite most_common_blocks by auto. cbn [fst snd].
  rewrite combine_flat by (intros; apply repeat_length).
  assert (Nx : no_nan (map row_x (List.concat cs))).
  { rewrite Hc. intros x Hx. rewrite map_map in Hx. apply in_map_iff in Hx.
    destruct Hx as ([[a b] w] & <- & _). reflexivity. }
  pose proof (np_unique_sorted _ Nx) as SU.
  assert (FU : forall x, In x (np_unique (map row_x (List.concat cs))) -> exists r, x = Fin r).
  { intros x Hx. apply np_unique_incl in Hx. rewrite Hc, map_map in Hx. apply in_map_iff in Hx.
    destruct Hx as ([[a b] w] & <- & _). exists a. reflexivity. }
  assert (IU : In (Fin p) (np_unique (map row_x (List.concat cs)))).
  { rewrite Hc. replace (map row_x (map lift_row rs)) with (map Fin (map (fun r : R * R * R => fst (fst r)) rs)).
    - destruct (np_unique_Fin (map (fun r : R * R * R => fst (fst r)) rs)) as (us & -> & _ & I).
      apply in_map, I. destruct He as (y & w & Hi). apply in_map_iff. exists (p, y, w). auto.
    - rewrite !map_map. reflexivity. }
  revert SU FU IU. generalize (np_unique (map row_x (List.concat cs))). intros l SU FU IU.
  assert (K : forall q, filter (fun q : xr * xr => fst q ==' Fin p)
      (combine (repeat q (List.length (common_for argsort (List.concat cs) top weighted q)))
               (common_for argsort (List.concat cs) top weighted q)) =
      if q ==' Fin p then map (pair q) (common_for argsort (List.concat cs) top weighted q) else []).
  { intros q. rewrite combine_repeat. induction (common_for argsort (List.concat cs) top weighted q) as [|z r IH].
    - destruct (q ==' Fin p); auto.
    - cbn [map filter fst]. rewrite IH. destruct (q ==' Fin p); auto. }
  assert (Z : forall l, ~ In (Fin p) l -> (forall x, In x l -> exists r, x = Fin r) ->
     map snd (filter (fun q : xr * xr => fst q ==' Fin p) (flat_map (fun x : xr => combine
        (repeat x (List.length (common_for argsort (List.concat cs) top weighted x)))
        (common_for argsort (List.concat cs) top weighted x)) l)) = []).
  { clear - K. induction l as [|x l IH]; intros Hn HF; [reflexivity|]. cbn [flat_map].
    rewrite filter_app, map_app, K, IH; [|intros H; apply Hn; right; exact H|intros z Hz; apply HF; right; exact Hz].
    destruct (HF x (or_introl eq_refl)) as [v ->]. change (Fin v ==' Fin p) with (Reqb v p).
    destruct (Reqb_spec v p) as [->|]; [exfalso; apply Hn; left; reflexivity|reflexivity]. }
  induction l as [|x r IH]; [destruct IU|]. inversion SU as [|? ? S1 F]; subst.
  cbn [flat_map]. rewrite filter_app, map_app, K.
  destruct (FU x (or_introl eq_refl)) as [v ->].
  change (Fin v ==' Fin p) with (Reqb v p). destruct (Reqb_spec v p) as [->|Hne].
  - rewrite Z.
    + rewrite app_nil_r, map_map. cbn [snd]. apply map_id.
    + intros H. rewrite Forall_forall in F. specialize (F _ H). rewrite ltb_irrefl in F. discriminate.
    + intros z Hz. apply FU. right; exact Hz.
  - cbn [map app]. apply IH; auto.
    + intros z Hz. apply FU. right; exact Hz.
    + destruct IU as [E|E]; [injection E as E; congruence|exact E].
Qed.

(** C57 (what holds): let the wavelengths of a peak, as they come, be [raw], and the distinct
    ones in increasing order [us].  The min(top_n, number of distinct wavelengths) places idx
    in [us] with the largest totals are found, largest first, but the wavelengths returned
    are those at these places of [raw]. *)
Lemma most_common_ranks_partial_main :
  forall argsort (cs : list (cand xr)) rs top weighted p,
    (forall l, is_argsort l (argsort l)) ->
    List.concat cs = map lift_row rs -> (exists y w, In (p, y, w) rs) ->
    let out := most_common_candidates argsort cs top weighted in
    let kept := map snd (filter (fun q => fst q ==' Fin p) (combine (fst out) (snd out))) in
    let raw := map (fun r => snd (fst r)) (filter (fun r => Reqb (fst (fst r)) p) rs) in
    exists us idx,
      StronglySorted Rlt us /\ (forall y, In y us <-> In y raw) /\
      NoDup idx /\ List.length idx = Nat.min top (List.length us) /\
      (forall i, In i idx -> (i < List.length us)%nat) /\
      (forall i j u w, In i idx -> ~ In j idx -> nth_error us i = Some u -> nth_error us j = Some w ->
         (total weighted rs p w <= total weighted rs p u)%R) /\
      StronglySorted (fun i j => forall u w, nth_error us i = Some u -> nth_error us j = Some w ->
         (total weighted rs p w <= total weighted rs p u)%R) idx /\
      map Some kept = map (fun i => option_map Fin (nth_error raw i)) idx.
Proof.
  intros argsort cs rs top weighted p Ha Hc He out kept raw.
  unfold kept, out. rewrite (kept_common argsort cs rs top weighted p Hc Ha He).
  set (sel := filter (fun r : xr * xr * xr => row_x r ==' Fin p) (map lift_row rs)).
  assert (Ey : map row_y sel = map Fin raw).
  { unfold sel, raw. clear. induction rs as [|[[a b] w] r IH]; auto.
    cbn [map filter fst snd]. change (row_x (lift_row (a, b, w)) ==' Fin p) with (Reqb a p).
    destruct (Reqb a p); cbn [map]; rewrite IH; reflexivity. }
  destruct (np_unique_Fin raw) as (us & Eu & Su & Iu).
  set (l := map nopp (map (fun y => Fin (total weighted rs p y)) us)).
  assert (Ec : common_for argsort (List.concat cs) top weighted (Fin p) =
     gather (map Fin raw) (firstn (Nat.min top (List.length us)) (argsort l))).
  { unfold common_for. rewrite Hc. fold sel. rewrite Ey, Eu. rewrite !map_length.
    unfold l. do 4 f_equal. rewrite map_map. apply map_ext. intros y.
    pose proof (agg_total weighted rs p y) as E. cbv zeta in E. fold sel in E. rewrite Ey in E. exact E. }
  destruct (Ha l) as [P SA].
  assert (Ll : List.length l = List.length us) by (unfold l; rewrite !map_length; reflexivity).
  set (n := Nat.min top (List.length us)) in *.
  assert (R : forall i, In i (argsort l) <-> (i < List.length us)%nat).
  { intros i. rewrite <- Ll. split; intros H.
    - apply (Permutation_in _ P) in H. apply in_seq in H. lia.
    - apply (Permutation_in _ (Permutation_sym P)). apply in_seq. lia. }
  assert (IN : forall i, In i (firstn n (argsort l)) -> In i (argsort l)).
  { intros i Hi. rewrite <- (firstn_skipn n (argsort l)). apply in_or_app. auto. }
  assert (LT : forall i j, (forall x y, nth_error l j = Some x -> nth_error l i = Some y -> np_lt x y = false) ->
     forall u w, nth_error us i = Some u -> nth_error us j = Some w -> (total weighted rs p w <= total weighted rs p u)%R).
  { intros i j X u w Hu Hw. specialize (X (Fin (- total weighted rs p w)) (Fin (- total weighted rs p u))).
    unfold l in X. rewrite !nth_error_map, Hu, Hw in X. specialize (X eq_refl eq_refl).
    unfold np_lt in X. apply orb_false_iff in X. destruct X as [X _].
    change (Rltb (- total weighted rs p w) (- total weighted rs p u) = false) in X.
    destruct (Rltb_spec (- total weighted rs p w) (- total weighted rs p u)); [discriminate|]. lra. }
  destruct (SS_firstn _ n _ SA) as [S1 S2].
  exists us, (firstn n (argsort l)).
  split; [exact Su|]. split; [exact Iu|].
  assert (ND : NoDup (argsort l)) by (apply (Permutation_NoDup (Permutation_sym P)), seq_NoDup).
  split; [apply NoDup_firstn'; exact ND|].
  assert (La : List.length (argsort l) = List.length us).
  { rewrite <- Ll. apply Permutation_length in P. rewrite seq_length in P. exact P. }
  split; [rewrite firstn_length, La; unfold n; lia|].
  split; [intros i Hi; apply R, IN, Hi|].
  split.
  { intros i j u w Hi Hj Hu Hw. apply (LT i j); auto. intros x y Hx Hy.
    assert (Hj' : In j (skipn n (argsort l))).
    { assert (H : In j (argsort l)) by (apply R; apply nth_error_Some; congruence).
      rewrite <- (firstn_skipn n) in H. apply in_app_iff in H. tauto. }
    exact (S2 i j Hi Hj' y x Hy Hx). }
  split.
  { eapply SS_impl; [|exact S1]. intros i j _ _ X. cbv beta in X. apply LT. intros x y Hx Hy. exact (X y x Hy Hx). }
  rewrite Ec.
  assert (LR : (List.length us <= List.length raw)%nat).
  { apply NoDup_incl_length; [|intros y Hy; apply Iu; exact Hy].
    apply (SS_NoDup Rlt); [intros x; apply Rlt_irrefl|exact Su]. }
  assert (B : forall i, In i (firstn n (argsort l)) -> (i < List.length raw)%nat).
  { intros i Hi. apply IN, R in Hi. lia. }
  clear - B. induction (firstn n (argsort l)) as [|i r IH]; [reflexivity|].
  unfold gather. cbn [flat_map]. fold (gather (map Fin raw) r).
  specialize (B i (or_introl eq_refl)) as Bi. apply nth_error_Some in Bi. rewrite nth_error_map.
  destruct (nth_error raw i) as [v|] eqn:E; [|congruence]. cbn [option_map app map]. rewrite E. cbn [option_map]. f_equal.
  apply IH. intros j Hj. apply B. right; exact Hj.
Qed.

(** Three candidates, wavelength 7 once and 5 twice: the most common one, 5, is at place 0 of
    the distinct wavelengths; at place 0 of the candidates is 7, which is returned. *)
Example most_common_ranks_example_main :
  let cs := [[(fz 10, fz 7, fz 1)]; [(fz 10, fz 5, fz 1)]; [(fz 10, fz 5, fz 1)]] in
  np_unique [fz 7; fz 5; fz 5] = [fz 5; fz 7] /\
  most_common_candidates argsort_stable cs 1 false = ([fz 10], [fz 7]).
Proof. vm_compute. auto. Qed.

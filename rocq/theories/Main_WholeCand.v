(** * Main_WholeCand: the candidate pruning for whole-number peaks and wavelengths (C151). *)

From Coq Require Import ZArith Bool List String Lia Reals Lra Sorted Permutation.
From Verif Require Import Num F64 XReal Py Np NpFacts ArgsortFacts Util EdlenFacts Atlas Hough PolyEval Calib Cand SpecCand CandFacts SampleFacts SpecUtil Main_Util RefineFacts Main_Cand Whole WholeCand.
Import ListNotations.
Local Open Scope num_scope.

Lemma cut_all_Fin (l : list R) (f : R -> Z) :
  (forall v, In v l -> ntrunc (Fin v) = Some (f v)) -> cut_all (map Fin l) = Ok (map f l).
Proof.
  induction l as [|v r IH]; intros H; [reflexivity|]. cbn [map cut_all]. unfold cut.
  rewrite (H v (or_introl eq_refl)). cbn [bind]. rewrite IH; [reflexivity|]. intros u Hu. apply H. right; exact Hu.
Qed.

Lemma trunc_fraction v : (0 <= v < 1)%R -> ntrunc (Fin v) = Some 0%Z.
Proof.
  intros H. change (xtrunc (Fin v) = Some 0%Z). unfold xtrunc. destruct (Rltb_spec v 0); [lra|]. f_equal.
  destruct (base_Int_part v) as [H1 H2].
  assert (IZR (Int_part v) < 1)%R by lra. assert (-1 < IZR (Int_part v))%R by lra.
  apply lt_IZR in H0. apply lt_IZR in H3. lia.
Qed.

(** The distinct wavelengths of a peak and the totals of each. *)
Lemma ints_common argsort rs top weighted p f :
  (forall y, ntrunc (Fin (total weighted rs p y)) = Some (f y)) ->
  let raw := map (fun r : R * R * R => snd (fst r)) (filter (fun r => Reqb (fst (fst r)) p) rs) in
  exists us, np_unique (map Fin raw) = map Fin us /\
  map row_y (filter (fun r : xr * xr * xr => row_x r ==' Fin p) (map lift_row rs)) = map Fin raw /\
  common_for_ints argsort (map lift_row rs) top weighted (Fin p) =
    Ok (gather (map Fin raw) (firstn (Nat.min top (List.length us)) (argsort (map (fun y => nopp (nZ (f y))) us)))) /\
  common_for argsort (map lift_row rs) top weighted (Fin p) =
    gather (map Fin raw) (firstn (Nat.min top (List.length us)) (argsort (map (fun y => nopp (Fin (total weighted rs p y))) us))).
Proof.
  intros Hf raw. destruct (np_unique_Fin raw) as (us & Eu & _ & _). exists us. split; [exact Eu|].
  set (sel := filter (fun r : xr * xr * xr => row_x r ==' Fin p) (map lift_row rs)).
  assert (Ey : map row_y sel = map Fin raw).
  { unfold sel, raw. clear. induction rs as [|[[a b] w] r IH]; auto.
    cbn [map filter fst snd]. change (row_x (lift_row (a, b, w)) ==' Fin p) with (Reqb a p).
    destruct (Reqb a p); cbn [map]; rewrite IH; reflexivity. }
  split; [exact Ey|].
  assert (Ea : map (fun w => np_sum (mask_select (map (fun v => v ==' w) (map row_y sel))
                  (if weighted then map row_w sel else map (fun _ => nZ 1) sel))) (np_unique (map row_y sel)) =
               map Fin (map (total weighted rs p) us)).
  { rewrite Ey, Eu, !map_map. apply map_ext. intros y.
    pose proof (agg_total weighted rs p y) as E. cbv zeta in E. fold sel in E. rewrite Ey in E. exact E. }
  split.
  - unfold common_for_ints. fold sel. rewrite Ea.
    rewrite (cut_all_Fin _ (fun v => match ntrunc (Fin v) with Some z => z | None => 0%Z end)).
    + cbn [bind]. rewrite Ey, Eu, !map_map, !map_length. do 4 f_equal. apply map_ext. intros y. rewrite (Hf y). reflexivity.
    + intros v Hv. apply in_map_iff in Hv. destruct Hv as (y & <- & _). rewrite (Hf y). reflexivity.
  - unfold common_for. fold sel. rewrite Ea, Ey, Eu, !map_map, !map_length. reflexivity.
Qed.

Lemma loop_blocks argsort rows top weighted (blk : xr -> list xr) ps :
  (forall p, In p ps -> common_for_ints argsort rows top weighted p = Ok (blk p)) ->
  common_loop argsort rows top weighted ps =
    Ok (flat_map (fun p => repeat p (Nat.min top (List.length (np_unique (map row_y (filter (fun q => row_x q ==' p) rows)))))) ps,
        flat_map blk ps).
Proof.
  induction ps as [|p r IH]; intros H; [reflexivity|]. cbn [common_loop]. rewrite (H p (or_introl eq_refl)). cbn [bind].
  rewrite IH by (intros q Hq; apply H; right; exact Hq). reflexivity.
Qed.

Lemma peaks_Fin (rs : list (R * R * R)) p :
  In p (np_unique (map row_x (map lift_row rs))) -> exists v, p = Fin v.
Proof.
  intros H. apply np_unique_incl in H. rewrite map_map in H. apply in_map_iff in H.
  destruct H as ([[a b] w] & <- & _). exists a. reflexivity.
Qed.

(** C151, what holds: if the total weight of every wavelength is a whole number, in
    particular without weights, whole-number peaks and wavelengths are pruned as the same
    numbers given as floats. *)
Lemma whole_candidates_partial_main :
  forall argsort (cs : list (cand xr)) rs top weighted,
    List.concat cs = map lift_row rs ->
    (weighted = true -> forall p y, exists z, total true rs p y = IZR z) ->
    most_common_ints argsort cs top weighted = Ok (most_common_candidates argsort cs top weighted).
Proof.
  intros argsort cs rs top weighted Hc Hw. unfold most_common_ints. rewrite Hc.
  assert (T : forall p y, exists z, total weighted rs p y = IZR z).
  { destruct weighted; [exact (Hw eq_refl)|]. intros p y. clear. induction rs as [|[[a b] w] r IH]; cbn [total].
    - exists 0%Z. reflexivity.
    - destruct IH as (z & E). rewrite E. destruct (Req_EM_T a p); [destruct (Req_EM_T b y)|];
        [exists (1 + z)%Z|exists (0 + z)%Z|exists (0 + z)%Z]; rewrite plus_IZR; reflexivity. }
  rewrite (loop_blocks _ _ _ _ (common_for argsort (map lift_row rs) top weighted)).
  - unfold most_common_candidates. rewrite Hc, !flat_map_map. reflexivity.
  - intros p Hp. destruct (peaks_Fin rs p Hp) as (v & ->).
    destruct (ints_common argsort rs top weighted v
                (fun y => match ntrunc (Fin (total weighted rs v y)) with Some z => z | None => 0%Z end)) as (us & _ & _ & E1 & E2).
    { intros y. destruct (T v y) as (z & ->). change (ntrunc (Fin (IZR z))) with (xtrunc (Fin (IZR z))). rewrite xtrunc_IZR. reflexivity. }
    rewrite E1, E2. do 4 f_equal. apply map_ext. intros y. destruct (T v y) as (z & ->).
    change (ntrunc (Fin (IZR z))) with (xtrunc (Fin (IZR z))). rewrite xtrunc_IZR, nZ_Fin. reflexivity.
Qed.

(** C151 fails for all weights: when every wavelength of every peak has a total weight
    below one, the weights are not looked at.  Any two such candidate lists with the same
    pairs give the same result. *)
Lemma whole_candidates_refuted_main :
  forall argsort (cs cs' : list (cand xr)) rs rs' top,
    List.concat cs = map lift_row rs -> List.concat cs' = map lift_row rs' ->
    map fst rs = map fst rs' ->
    (forall p y, 0 <= total true rs p y < 1)%R -> (forall p y, 0 <= total true rs' p y < 1)%R ->
    exists out, most_common_ints argsort cs top true = Ok out /\ most_common_ints argsort cs' top true = Ok out.
Proof.
  intros argsort cs cs' rs rs' top Hc Hc' Hf H1 H2. unfold most_common_ints. rewrite Hc, Hc'.
  assert (Ex : forall p, map (fun r : R * R * R => snd (fst r)) (filter (fun r => Reqb (fst (fst r)) p) rs) =
               map (fun r : R * R * R => snd (fst r)) (filter (fun r => Reqb (fst (fst r)) p) rs')).
  { clear - Hf. intros p. revert rs' Hf. induction rs as [|[a w] r IH]; intros [|[a' w'] r'] Hf; try discriminate; auto.
    cbn [map fst] in Hf. injection Hf as <- Hf. cbn [filter fst]. destruct (Reqb (fst a) p); cbn [map fst]; rewrite (IH r' Hf); reflexivity. }
  assert (Ep : map row_x (map lift_row rs') = map row_x (map lift_row rs)).
  { rewrite !map_map. clear - Hf. revert rs' Hf. induction rs as [|[a w] r IH]; intros [|[a' w'] r'] Hf; try discriminate; auto.
    cbn [map fst] in Hf. injection Hf as <- Hf. cbn [map]. rewrite (IH r' Hf). reflexivity. }
  rewrite Ep.
  assert (B : forall p, In p (np_unique (map row_x (map lift_row rs))) ->
     map row_y (filter (fun q : xr * xr * xr => row_x q ==' p) (map lift_row rs')) = map row_y (filter (fun q : xr * xr * xr => row_x q ==' p) (map lift_row rs)) /\
     exists b, common_for_ints argsort (map lift_row rs) top true p = Ok b /\ common_for_ints argsort (map lift_row rs') top true p = Ok b).
  { intros p Hp. destruct (peaks_Fin rs p Hp) as (v & ->).
    destruct (ints_common argsort rs top true v (fun _ => 0%Z)) as (us & U1 & Y1 & E1 & _); [intros y; apply trunc_fraction, H1|].
    destruct (ints_common argsort rs' top true v (fun _ => 0%Z)) as (us' & U2 & Y2 & E2 & _); [intros y; apply trunc_fraction, H2|].
    rewrite <- Ex in U2, E2, Y2. split; [congruence|].
    assert (us' = us). { rewrite U1 in U2. clear - U2. revert us' U2. induction us as [|a us IH]; intros [|b us'] H; cbn in H; try discriminate; auto. injection H as -> H. f_equal. auto. }
    subst us'. eexists. split; [exact E1|exact E2]. }
  revert B. generalize (np_unique (map row_x (map lift_row rs))) as ps. induction ps as [|p r IH]; intros B; [eexists; split; reflexivity|].
  destruct (B p (or_introl eq_refl)) as (Y & b & B1 & B2). destruct IH as (out & O1 & O2); [intros q Hq; apply B; right; exact Hq|].
  cbn [common_loop]. rewrite B1, B2, Y. cbn [bind]. rewrite O1, O2. cbn [bind]. eexists. split; reflexivity.
Qed.

(** C151 fails: peak 10 with wavelength 4000 (weight 0.2) and 5000 (weight 0.9).  Given
    as floats the better one is kept, given as whole numbers the other. *)
Lemma whole_votes_refuted_main :
  let cs := [[(fz 10, fz 4000, fd 2 (-1)); (fz 10, fz 5000, fd 9 (-1))]] in
  most_common_candidates argsort_stable cs 1 true = ([fz 10], [fz 5000]) /\
  most_common_ints argsort_stable cs 1 true = Ok ([fz 10], [fz 4000]).
Proof. vm_compute. auto. Qed.

Example whole_candidates_partial_example_main :
  let cs := [[(fz 10, fz 4000, fd 2 (-1)); (fz 10, fz 5000, fd 9 (-1))]; [(fz 10, fz 5000, fd 4 (-1))]] in
  most_common_ints argsort_stable cs 1 false = Ok (most_common_candidates argsort_stable cs 1 false).
Proof. vm_compute. auto. Qed.

(** Two lists with the same pairs and opposite weights. *)
Example whole_candidates_refuted_example_main :
  let rs := [(10, 4000, 1/5); (10, 5000, 9/10)]%R in
  let rs' := [(10, 4000, 9/10); (10, 5000, 1/5)]%R in
  map fst rs = map fst rs' /\
  (forall p y, 0 <= total true rs p y < 1)%R /\ (forall p y, 0 <= total true rs' p y < 1)%R.
Proof.
  cbv zeta. split; [reflexivity|]. split; intros p y; cbn [total fst snd];
    destruct (Req_EM_T 10 p); destruct (Req_EM_T 4000 y); destruct (Req_EM_T 5000 y); lra.
Qed.

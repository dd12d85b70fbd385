(** * Main_Bright: min_distance together with brightest_n_lines (C06). *)

From Coq Require Import ZArith Bool List String Lia Reals Lra Sorted Permutation.
From Verif Require Import Num F64 XReal Py Np NpFacts ArgsortFacts Util SpecUtil UtilFacts SepFacts LoadFacts Main_Util.
Import ListNotations.
Local Open Scope string_scope.
Local Open Scope list_scope.
Local Open Scope num_scope.

Lemma increasing_NoDup (l : list (line xr)) : increasing_wl l -> NoDup l.
Proof.
  intros S. apply (SS_NoDup (fun a b => l_wl a <' l_wl b = true)); auto. intros x H. rewrite ltb_irrefl in H. discriminate.
Qed.

Lemma gather_sorted (lines : list (line xr)) p :
  (forall r, In r lines -> nisnan (l_int r) = false) -> (forall i, In i p -> (i < List.length lines)%nat) ->
  StronglySorted (fun i j => forall x y, nth_error (map l_int lines) j = Some x -> nth_error (map l_int lines) i = Some y ->
     np_lt y x = false) p ->
  StronglySorted (fun r q => l_int q <=' l_int r = true) (gather lines p).
Proof.
  intros Hn. induction p as [|i p IH]; intros Hi S; [constructor|].
  inversion S as [|? ? S1 S2]; subst. unfold gather. cbn [flat_map]. fold (gather lines p).
  destruct (nth_error lines i) as [r|] eqn:Er.
  2:{ cbn [app]. apply IH; auto. intros j Hj. apply Hi. right; auto. }
  cbn [app]. constructor; [apply IH; auto; intros j Hj; apply Hi; right; auto|].
  apply Forall_forall. intros q Hq. apply gather_In in Hq. destruct Hq as (j & Hj & Ej).
  rewrite Forall_forall in S2. specialize (S2 j Hj (l_int q) (l_int r)).
  rewrite !nth_error_map, Er, Ej in S2. specialize (S2 eq_refl eq_refl).
  assert (nisnan (l_int r) = false) by (apply Hn; eapply nth_error_In; eauto).
  assert (nisnan (l_int q) = false) by (apply Hn; eapply nth_error_In; eauto).
  rewrite np_lt_ltb in S2 by auto. apply ltb_false_leb; auto.
Qed.

(** C06 (what holds): with brightest_n_lines = n the n brightest lines are taken, brightest
    first, and a line is kept if its signed distances to the next less bright one and from
    the next brighter one, of which the smaller counts, differ from zero by min_distance.
    This is the promise if the chosen lines, in order of brightness, happen to be in order
    of wavelength. *)
Lemma load_brightest_distance_partial_main :
  forall argsort (cat : catalogue xr) (a : load_args xr) rows n (d : R) out,
    (forall l, is_argsort l (argsort l)) ->
    la_brightest_n a = Some n -> la_min_distance a = Fin d -> (0 < d)%R ->
    read_linelist cat (la_linelist a) = Ok rows ->
    (forall r, In r rows -> (exists w, l_wl r = Fin w) /\ nisnan (l_int r) = false) ->
    load_calibration_lines argsort cat a = Ok out ->
    exists lo hi sel chosen rest kept,
      vacuum_limits a lo hi /\
      selection rows (la_elements a) lo hi (la_min_intensity a) sel /\
      Permutation (chosen ++ rest) sel /\
      List.length chosen = Nat.min n (List.length sel) /\
      (forall r q, In r rest -> In q chosen -> l_int r <=' l_int q = true) /\
      StronglySorted (fun r q => l_int q <=' l_int r = true) chosen /\
      subseq kept chosen /\
      (forall i p r q x y z, nth_error chosen i = Some p -> nth_error chosen (S i) = Some r -> nth_error chosen (S (S i)) = Some q ->
         l_wl p = Fin x -> l_wl r = Fin y -> l_wl q = Fin z ->
         (In r kept <-> (d <= Rabs (Rmin (z - y) (y - x)))%R)) /\
      (increasing_wl chosen -> forall r q, In r kept -> In q kept -> r <> q -> apart d r q) /\
      Forall2 (presented a) kept out.
Proof.
  intros argsort cat a rows n d out Ha Hn Hd Hpos Hr Hf H.
  apply load_unfold in H. destruct H as (sel & kept & H1 & H2 & ->).
  destruct (load_select_spec cat a rows sel Hr) as [SL I]; auto.
  { intros r Hin. destruct (Hf r Hin) as [[w ->] _]. reflexivity. }
  destruct (load_brightest_spec argsort n sel (Ha _)) as (L & rest & P & B).
  { intros r Hin. apply Hf, I; auto. }
  rewrite Hn, Hd in H2. set (chosen := load_brightest argsort (Some n) sel) in *.
  assert (Hc : forall r, In r chosen -> In r sel).
  { intros r Hin. apply (Permutation_in _ P). apply in_or_app. auto. }
  assert (Hfc : forall r, In r chosen -> exists w, l_wl r = Fin w) by (intros r Hin; apply Hf, I; auto).
  assert (ND : NoDup chosen).
  { assert (Q : NoDup (chosen ++ rest)) by (apply (Permutation_NoDup (Permutation_sym P)), increasing_NoDup, SL).
    clear - Q. induction chosen as [|r l IH]; [constructor|]. inversion Q as [|? ? Q1 Q2]; subst.
    constructor; [intros K; apply Q1; apply in_or_app; auto|auto]. }
  exists (fst (load_limits a)), (snd (load_limits a)), sel, chosen, rest, kept.
  split; [apply load_limits_vacuum|]. split; [exact SL|]. split; [exact P|]. split; [exact L|]. split; [exact B|].
  assert (SO : StronglySorted (fun r q => l_int q <=' l_int r = true) chosen).
  { unfold chosen, load_brightest. destruct (Ha (map l_int sel)) as [HP HS]. rewrite map_length in HP.
    set (p := argsort (map l_int sel)) in *.
    apply gather_sorted.
    - intros r Hin. apply Hf, I; auto.
    - intros i Hi. assert (Hi' : In i (rev p)) by (rewrite <- (firstn_skipn n (rev p)); apply in_or_app; auto).
      apply in_rev in Hi'. apply (Permutation_in _ HP) in Hi'. apply in_seq in Hi'. lia.
    - apply SS_firstn. apply SS_rev in HS. exact HS. }
  split; [exact SO|].
  assert (SK : subseq kept chosen /\ (increasing_wl chosen -> forall r q, In r kept -> In q kept -> r <> q -> apart d r q)).
  { split.
    - unfold load_separate in H2. destruct (nZ 0 <' Fin d).
      + destruct (filter_separation (map l_wl chosen) (Fin d)) as [m|]; [|discriminate]. injection H2 as <-. apply subseq_mask.
      + injection H2 as <-. apply subseq_mask.
    - intros Hi. destruct (load_separate_spec chosen d kept Hfc Hi H2) as (_ & _ & K3). exact (K3 Hpos). }
  destruct SK as [SK1 SK2]. split; [exact SK1|]. split; [|split; [exact SK2|apply presented_map]].
  intros i p r q x y z Ep Er Eq Wp Wr Wq.
  unfold load_separate in H2. rewrite nZ_Fin in H2. change (Fin 0 <' Fin d) with (Rltb 0 d) in H2.
  destruct (Rltb_spec 0 d) as [_|]; [|lra].
  assert (Lc : (S (S i) < List.length chosen)%nat) by (apply nth_error_Some; congruence).
  destruct (filter_separation_dist (map l_wl chosen) (Fin d)) as (m & Hm & Hml & Hdist); [rewrite map_length; lia|].
  rewrite Hm in H2. cbn [bind] in H2. injection H2 as <-.
  destruct (Hdist (S i)) as (dd & (xx & Ex & Hx) & Hmi); [rewrite map_length; lia|].
  rewrite map_length in Hx. destruct (Nat.eqb_spec (S (S i)) (List.length chosen)) as [|_]; [lia|].
  cbn [Nat.eqb] in Hx. destruct Hx as (pp & qq & Epp & Eqq & Edd).
  replace (S i - 1)%nat with i in Epp by lia. rewrite nth_error_map in Ex, Epp, Eqq. rewrite Ep in Epp. rewrite Er in Ex. rewrite Eq in Eqq.
  cbn [option_map] in *. rewrite Wp in Epp. rewrite Wr in Ex. rewrite Wq in Eqq. injection Epp as <-. injection Ex as <-. injection Eqq as <-.
  change (Fin z -' Fin y) with (Fin (z - y)%R) in Edd. change (Fin y -' Fin x) with (Fin (y - x)%R) in Edd. rewrite np_minimum_Fin in Edd. subst dd.
  rewrite mask_select_In. change (Fin d <=' nabs (Fin (Rmin (z - y) (y - x)))) with (Rleb d (Rabs (Rmin (z - y) (y - x)))) in Hmi.
  split.
  - intros (j & Hj & Ej). assert (j = S i).
    { apply (proj1 (NoDup_nth_error chosen) ND); [apply nth_error_Some; congruence|congruence]. }
    subst j. rewrite Hmi in Hj. destruct (Rleb_spec d (Rabs (Rmin (z - y) (y - x)))); [assumption|discriminate].
  - intros Hle. exists (S i). split; [|exact Er]. rewrite Hmi. destruct (Rleb_spec d (Rabs (Rmin (z - y) (y - x)))); [reflexivity|contradiction].
Qed.

(** Three lines whose brightness decreases with the wavelength: the promise is kept; with
    the first two exchanged in brightness it is not. *)
Example load_brightest_distance_example_main :
  let cat l := mkCatalogue (l : list (line f64)) (fun _ => None) in
  let a := ex_args ["Xe"] ThNone (fz 10) (Some 1000%nat) in
  load_calibration_lines argsort_stable
    (cat [mkLine "Xe" (fz 100) (fz 30); mkLine "Xe" (fz 101) (fz 20); mkLine "Xe" (fz 200) (fz 10)]) a
  = Ok [mkLine "Xe" (fz 200) (fz 10)] /\
  load_calibration_lines argsort_stable
    (cat [mkLine "Xe" (fz 100) (fz 10); mkLine "Xe" (fz 101) (fz 30); mkLine "Xe" (fz 200) (fz 20)]) a
  = Ok [mkLine "Xe" (fz 101) (fz 30); mkLine "Xe" (fz 200) (fz 20); mkLine "Xe" (fz 100) (fz 10)].
Proof. cbv zeta. split; vm_compute; reflexivity. Qed.

(** * Main_Util: the properties of util.py (C01-C17) with their proofs.  The
    statements are repeated, without proofs, in Props_Util.v. *)

From Coq Require Import ZArith Bool List String Lia Permutation Sorted Reals Lra.
From Verif Require Import Num F64 XReal Py Np NpFacts Util SpecUtil SpecPoly.
From Verif Require Import UtilFacts SepFacts LoadFacts RefineFacts RefineFacts2 ArgsortFacts EdlenFacts PolyFacts.
Import ListNotations.
Local Open Scope string_scope.
Local Open Scope list_scope.
Local Open Scope num_scope.

(* ------------------------------------------------------------------ *)
(** ** C01 *)

(** C01: filter_wavelengths returns, in strictly increasing wavelength, exactly
    the rows with lo <= wavelength <= hi that are the first of their wavelength. *)
Lemma filter_wavelengths_exact_main :
  forall (A : Type) (N : Num A) (O : NumOrder A) (lines : list (line A)) (lo hi : A),
    (forall r, In r lines -> nisnan (l_wl r) = false) ->
    increasing_wl (filter_wavelengths lines lo hi) /\
    (forall r, In r (filter_wavelengths lines lo hi) <->
               within lo hi (l_wl r) /\ exists i, earliest lines i r).
Proof. intros A N O lines lo hi. apply filter_wavelengths_spec. Qed.

Definition ex_lines : list (line f64) :=
  [mkLine "He" (fz 30) (fz 5); mkLine "Xe" (fz 10) (fz 2); mkLine "Kr" (fz 30) (fz 9);
   mkLine "Xe" (fz 70) (fz 1)].

Example filter_wavelengths_exact_example_main :
  (forall r, In r ex_lines -> nisnan (l_wl r) = false) /\
  filter_wavelengths ex_lines (fz 10) (fz 30) =
    [mkLine "Xe" (fz 10) (fz 2); mkLine "He" (fz 30) (fz 5)].
Proof.
  split; [|vm_compute; reflexivity].
  intros r Hr. repeat (destruct Hr as [<-|Hr]; [vm_compute; reflexivity|]). destruct Hr.
Qed.

(* ------------------------------------------------------------------ *)
(** ** C02 *)

(** C02: on non-decreasing wavelengths filter_separation marks exactly the lines
    at least s away from each neighbour; marked lines are pairwise s apart. *)
Lemma filter_separation_exact_main :
  forall (rs : list R) (s : R),
    (2 <= List.length rs)%nat -> StronglySorted Rle rs ->
    exists m, filter_separation (map Fin rs) (Fin s) = Ok m /\ List.length m = List.length rs /\
      (forall i w, nth_error rs i = Some w ->
         (nth_error m i = Some true <->
          forall j v, (j = S i \/ i = S j)%nat -> nth_error rs j = Some v -> (s <= Rabs (v - w))%R)) /\
      (forall i j w v, i <> j -> nth_error m i = Some true -> nth_error m j = Some true ->
         nth_error rs i = Some w -> nth_error rs j = Some v -> (s <= Rabs (v - w))%R).
Proof. intros. apply filter_separation_real; auto. Qed.

Example filter_separation_exact_example_main :
  (2 <= List.length [10; 11; 30; 45])%nat /\ StronglySorted Rle [10; 11; 30; 45]%R /\
  filter_separation [fz 10; fz 11; fz 30; fz 45] (fz 5) = Ok [false; false; true; true].
Proof.
  split; [cbn; lia|]. split; [|vm_compute; reflexivity].
  repeat (constructor; [|repeat (constructor; try lra)]); constructor.
Qed.

(* ------------------------------------------------------------------ *)
(** ** C03 *)

(** C03: the result of filter_intensity, when there is one. *)
Lemma filter_intensity_exact_main :
  forall (A : Type) (N : Num A) (elements : list string) (lines : list (line A)) (m : thr A) mask,
    filter_intensity elements lines m = Ok mask <->
    (valid_thr elements m /\ List.length mask = List.length lines /\
     forall i l, nth_error lines i = Some l ->
       exists t, threshold elements m (l_el l) t /\ nth_error mask i = Some (t <=' l_int l)).
Proof. intros A N. apply filter_intensity_ok. Qed.

(** C03: when filter_intensity raises, and what. *)
Lemma filter_intensity_errors_main :
  forall (A : Type) (N : Num A) (elements : list string) (lines : list (line A)) (m : thr A) e,
    filter_intensity elements lines m = Raise e <->
    ((e = ValueError /\ m = ThOther) \/
     (e = AssertionError /\ exists l, m = ThList l /\ List.length l <> List.length elements) \/
     (e = KeyError /\ valid_thr elements m /\ exists l, In l lines /\ ~ In (l_el l) elements)).
Proof. intros A N. apply filter_intensity_raise. Qed.

Example filter_intensity_example_main :
  filter_intensity ["He"; "Xe"; "Kr"] ex_lines (ThList [fz 5; fz 2; fz 10])
    = Ok [true; true; false; false] /\
  filter_intensity ["He"; "Xe"] ex_lines (ThNum (fz 1)) = Raise KeyError /\
  filter_intensity ["He"; "Xe"] ex_lines (ThList [fz 1]) = Raise AssertionError.
Proof. vm_compute. auto. Qed.

(* ------------------------------------------------------------------ *)
(** ** C04 *)

Lemma load_limits_vacuum (A : Type) (N : Num A) (a : load_args A) :
  vacuum_limits a (fst (load_limits a)) (snd (load_limits a)).
Proof. unfold vacuum_limits, load_limits. destruct (la_vacuum a); cbn; auto. Qed.

Lemma presented_map (A : Type) (N : Num A) (a : load_args A) (l : list (line A)) :
  Forall2 (presented a) l (if la_vacuum a then l else map (row_to_air a) l).
Proof.
  unfold presented. destruct (la_vacuum a).
  - induction l; constructor; auto.
  - induction l; cbn; constructor; auto.
Qed.

(** C04: without brightest_n_lines a successful load returns exactly the requested
    rows in the limits (converted to vacuum) that are bright enough, one per
    wavelength, minus (for d > 0) those with a neighbour nearer than d; in
    increasing order and pairwise at least d apart in vacuum wavelength. *)
Lemma load_exact_main :
  forall argsort (cat : catalogue xr) (a : load_args xr) rows (d : R) out,
    la_brightest_n a = None ->
    la_min_distance a = Fin d ->
    read_linelist cat (la_linelist a) = Ok rows ->
    (forall r, In r rows -> exists w, l_wl r = Fin w) ->
    load_calibration_lines argsort cat a = Ok out ->
    exists lo hi sel kept,
      vacuum_limits a lo hi /\
      selection rows (la_elements a) lo hi (la_min_intensity a) sel /\
      subseq kept sel /\
      (List.length sel <> 1%nat \/ (d <= 0)%R ->
       forall i r, nth_error sel i = Some r ->
         (In r kept <-> ((0 < d)%R -> forall j q, (j = S i \/ i = S j)%nat ->
                          nth_error sel j = Some q -> apart d r q))) /\
      ((0 < d)%R -> forall r q, In r kept -> In q kept -> r <> q -> apart d r q) /\
      Forall2 (presented a) kept out.
Proof.
  intros argsort cat a rows d out Hb Hd Hr Hf H.
  apply load_unfold in H. destruct H as (sel & kept & H1 & H2 & ->).
  rewrite Hb in H2. cbn [load_brightest] in H2. rewrite Hd in H2.
  destruct (load_select_spec cat a rows sel Hr) as [S I]; auto.
  { intros r Hin. destruct (Hf r Hin) as [w ->]. reflexivity. }
  assert (Hfs : forall r, In r sel -> exists w, l_wl r = Fin w) by (intros r Hin; apply Hf, I; auto).
  destruct (load_separate_spec sel d kept Hfs (proj1 S) H2) as (K1 & K2 & K3).
  exists (fst (load_limits a)), (snd (load_limits a)), sel, kept.
  split; [apply load_limits_vacuum|]. split; auto. split; auto. split.
  { intros Hn i r Hi. rewrite (K2 i r Hi). split; intros G Hp.
    - apply (G Hp).
    - split; [|exact (G Hp)]. destruct Hn as [Hn|Hn]; [|lra].
      assert (i < List.length sel)%nat by (apply nth_error_Some; congruence). lia. }
  split; auto. apply presented_map.
Qed.

Definition ex_cat (l : list (line f64)) : catalogue f64 := mkCatalogue l (fun _ => None).
Definition ex_args (els : list string) (m : thr f64) (dist : f64) (n : option nat) : load_args f64 :=
  mkLoadArgs els (fz 1) (fz 1000) m dist true (fz 101325) (fd 27315 (-2)) (fz 0) (LLStr "nist") n.

(** Evaluate a closed term over xr, deciding comparisons of literals with lra. *)
Ltac xcompute :=
  repeat (cbv -[Rleb Rltb Reqb IZR Rlit Rplus Rminus Rmult Rinv Ropp Rdiv]; rewrite ?Rlit_0;
          match goal with
          | |- context[Rltb ?a ?b] => destruct (Rltb_spec a b); try (exfalso; lra)
          | |- context[Rleb ?a ?b] => destruct (Rleb_spec a b); try (exfalso; lra)
          | |- context[Reqb ?a ?b] => destruct (Reqb_spec a b); try (exfalso; lra)
          end); cbv -[Rleb Rltb Reqb IZR Rlit Rplus Rminus Rmult Rinv Ropp Rdiv]; rewrite ?Rlit_0.

(** A small catalogue in exact reals, loaded with and without conversion. *)
Example load_exact_example_main :
  load_calibration_lines argsort_stable (ex_cat ex_lines)
    (ex_args ["He"; "Xe"] (ThNum (fz 2)) (fz 5) None)
  = Ok [mkLine "Xe" (fz 10) (fz 2); mkLine "He" (fz 30) (fz 5)] /\
  exists out, load_calibration_lines (fun _ => [])
    (mkCatalogue [mkLine "Xe" (Fin 3000) (Fin 1); mkLine "Xe" (Fin 2500) (Fin 1)] (fun _ => None))
    (mkLoadArgs ["Xe"] (Fin 2000) (Fin 9000) ThNone (Fin (-1)) true (Fin 0) (Fin 300) (Fin 0)
                (LLStr "nist") None) = Ok out /\ map l_wl out = [Fin 2500; Fin 3000].
Proof.
  split; [vm_compute; reflexivity|].
  eexists. split.
  - xcompute. reflexivity.
  - reflexivity.
Qed.

(* ------------------------------------------------------------------ *)
(** ** C05 *)

(** C05: with brightest_n_lines = n and no separation filter, the n brightest of
    the selected rows are returned, whatever the tie-breaking of the sort. *)
Lemma load_brightest_exact_main :
  forall (A : Type) (N : Num A) (O : NumOrder A) argsort (cat : catalogue A) (a : load_args A) rows n out,
    (forall l, is_argsort l (argsort l)) ->
    la_brightest_n a = Some n ->
    nZ 0 <' la_min_distance a = false ->
    read_linelist cat (la_linelist a) = Ok rows ->
    (forall r, In r rows -> nisnan (l_wl r) = false /\ nisnan (l_int r) = false) ->
    load_calibration_lines argsort cat a = Ok out ->
    exists lo hi sel chosen rest,
      vacuum_limits a lo hi /\
      selection rows (la_elements a) lo hi (la_min_intensity a) sel /\
      Permutation (chosen ++ rest) sel /\
      List.length chosen = Nat.min n (List.length sel) /\
      (forall r q, In r rest -> In q chosen -> l_int r <=' l_int q = true) /\
      Forall2 (presented a) chosen out.
Proof.
  intros A N O argsort cat a rows n out Ha Hn Hd Hr Hnan H.
  apply load_unfold in H. destruct H as (sel & kept & H1 & H2 & ->).
  destruct (load_select_spec cat a rows sel Hr) as [S I]; auto.
  { intros r Hin. apply Hnan; auto. }
  destruct (load_brightest_spec argsort n sel (Ha _)) as (L & rest & P & B).
  { intros r Hin. apply Hnan, I; auto. }
  rewrite Hn in H2. unfold load_separate in H2. rewrite Hd in H2.
  rewrite mask_select_all_true in H2. injection H2 as <-.
  exists (fst (load_limits a)), (snd (load_limits a)), sel, (load_brightest argsort (Some n) sel), rest.
  split; [apply load_limits_vacuum|]. split; auto. split; auto. split; auto. split; auto.
  apply presented_map.
Qed.

Example load_brightest_exact_example_main :
  (forall l : list f64, is_argsort l (argsort_stable l)) /\
  load_calibration_lines argsort_stable (ex_cat ex_lines)
    (ex_args ["He"; "Xe"; "Kr"] ThNone (fz 0) (Some 2%nat))
  = Ok [mkLine "He" (fz 30) (fz 5); mkLine "Xe" (fz 10) (fz 2)].
Proof. split; [intros; apply argsort_stable_ok|vm_compute; reflexivity]. Qed.

(* ------------------------------------------------------------------ *)
(** ** C06 *)

Definition close_lines : list (line f64) :=
  [mkLine "Xe" (fz 100) (fz 10); mkLine "Xe" (fz 101) (fz 30); mkLine "Xe" (fz 200) (fz 20)].

(** C06 REFUTED: with brightest_n_lines given, two returned lines can be nearer
    than min_distance (here 1 apart although 10 was asked for): the rows are in
    order of brightness when the separation filter compares neighbours. *)
Lemma load_min_distance_refuted_main :
  exists (cat : catalogue f64) (a : load_args f64) out r q,
    (forall l : list f64, is_argsort l (argsort_stable l)) /\
    load_calibration_lines argsort_stable cat a = Ok out /\
    la_brightest_n a = Some 1000%nat /\
    In r out /\ In q out /\ r <> q /\
    nabs (l_wl r -' l_wl q) <' la_min_distance a = true.
Proof.
  exists (ex_cat close_lines), (ex_args ["Xe"] ThNone (fz 10) (Some 1000%nat)).
  eexists. exists (mkLine "Xe" (fz 100) (fz 10)), (mkLine "Xe" (fz 101) (fz 30)).
  split; [intros; apply argsort_stable_ok|].
  split; [vm_compute; reflexivity|]. split; [reflexivity|].
  split; [vm_compute; auto 6|]. split; [vm_compute; auto 6|].
  split; [|vm_compute; reflexivity]. intros H. apply (f_equal l_wl) in H. vm_compute in H. discriminate.
Qed.

(* ------------------------------------------------------------------ *)
(** ** C07 *)

Lemma vacuum_limits_eq {A} {N : Num A} (a : load_args A) lo hi :
  vacuum_limits a lo hi -> lo = fst (load_limits a) /\ hi = snd (load_limits a).
Proof.
  unfold vacuum_limits, load_limits. destruct (la_vacuum a); [auto|]. cbn. intros H.
  split; congruence.
Qed.

(** C07 (part that holds): without a separation filter (min_distance <= 0) the
    selection is returned whatever its size, also when it has one or no line. *)
Lemma load_small_selection_partial_main :
  forall (A : Type) (N : Num A) (O : NumOrder A) argsort (cat : catalogue A) (a : load_args A) rows lo hi sel,
    la_brightest_n a = None ->
    nZ 0 <' la_min_distance a = false ->
    read_linelist cat (la_linelist a) = Ok rows ->
    (forall r, In r rows -> nisnan (l_wl r) = false) ->
    (forall l, la_min_intensity a = ThList l -> List.length l = List.length (la_elements a)) ->
    vacuum_limits a lo hi ->
    selection rows (la_elements a) lo hi (la_min_intensity a) sel ->
    exists out, load_calibration_lines argsort cat a = Ok out /\ Forall2 (presented a) sel out.
Proof.
  intros A N O argsort cat a rows lo hi sel Hb Hd Hr Hn Ht Hl Hs.
  apply vacuum_limits_eq in Hl. destruct Hl; subst lo hi.
  pose proof (load_select_total cat a rows sel Hr Hn Ht Hs) as E.
  exists (if la_vacuum a then sel else map (row_to_air a) sel). split; [|apply presented_map].
  apply load_unfold. exists sel, sel. split; auto. split; auto.
  rewrite Hb. unfold load_separate. rewrite Hd. cbn [load_brightest]. rewrite mask_select_all_true. auto.
Qed.

(** C07 REFUTED: every request with min_distance > 0 whose selection is a single
    line returns nothing, and every one whose selection is empty raises. *)
Lemma load_small_selection_fails_main :
  forall argsort (cat : catalogue xr) (a : load_args xr) (d : R) rows lo hi,
    la_brightest_n a = None -> la_min_distance a = Fin d -> (0 < d)%R ->
    read_linelist cat (la_linelist a) = Ok rows ->
    (forall r, In r rows -> nisnan (l_wl r) = false) ->
    (forall l, la_min_intensity a = ThList l -> List.length l = List.length (la_elements a)) ->
    vacuum_limits a lo hi ->
    (selection rows (la_elements a) lo hi (la_min_intensity a) [] ->
       load_calibration_lines argsort cat a = Raise IndexError) /\
    (forall r, selection rows (la_elements a) lo hi (la_min_intensity a) [r] ->
       load_calibration_lines argsort cat a = Ok []).
Proof.
  intros argsort cat a d rows lo hi Hb Hd Hp Hr Hn Ht Hl.
  apply vacuum_limits_eq in Hl. destruct Hl; subst lo hi.
  assert (Hlt : nltb (nZ 0) (Fin d) = true).
  { rewrite nZ_Fin. cbn. apply Rltb_true. exact Hp. }
  split; [intros H|intros r H]; pose proof (load_select_total cat a rows _ Hr Hn Ht H) as E;
    unfold load_calibration_lines; rewrite E; cbn [bind];
    rewrite Hb; cbn [load_brightest]; unfold load_separate; rewrite Hd, Hlt; cbn [map].
  - reflexivity.
  - change (filter_separation [l_wl r] (Fin d)) with (Ok [xleb (Fin d) (xabs (nZ 0 : xr))]).
    rewrite nZ_Fin. cbn [bind xabs xleb]. rewrite Rabs_R0.
    destruct (Rleb_spec d 0); [lra|]. rewrite mask_select_cons, mask_select_nil_l.
    destruct (la_vacuum a); reflexivity.
Qed.

(** C04: such a request succeeds, unless a positive min_distance meets an empty
    selection or a list of thresholds has the wrong length. *)
Lemma load_succeeds_main :
  forall (A : Type) (N : Num A) (O : NumOrder A) argsort (cat : catalogue A) (a : load_args A) rows lo hi sel,
    la_brightest_n a = None ->
    read_linelist cat (la_linelist a) = Ok rows ->
    (forall r, In r rows -> nisnan (l_wl r) = false) ->
    (forall l, la_min_intensity a = ThList l -> List.length l = List.length (la_elements a)) ->
    vacuum_limits a lo hi ->
    selection rows (la_elements a) lo hi (la_min_intensity a) sel ->
    nZ 0 <' la_min_distance a = false \/ sel <> [] ->
    exists out, load_calibration_lines argsort cat a = Ok out.
Proof.
  intros A N O argsort cat a rows lo hi sel Hb Hr Hn Ht Hl Hs Hd.
  apply vacuum_limits_eq in Hl. destruct Hl; subst lo hi.
  pose proof (load_select_total cat a rows sel Hr Hn Ht Hs) as E.
  assert (K : exists kept, load_separate (la_min_distance a) sel = Ok kept).
  { unfold load_separate. destruct (nZ 0 <' la_min_distance a); [|eauto].
    destruct Hd as [Hd|Hd]; [discriminate|]. destruct sel as [|r sel]; [congruence|].
    cbn [map filter_separation]. cbn [bind]. eauto. }
  destruct K as [kept K]. eexists. apply load_unfold. exists sel, kept. rewrite Hb. cbn [load_brightest]. eauto.
Qed.

(** C07 REFUTED, concretely, in double precision. *)
Lemma load_small_selection_refuted_main :
  load_calibration_lines argsort_stable (ex_cat close_lines) (ex_args ["He"] ThNone (fz 10) None)
    = Raise IndexError /\
  load_calibration_lines argsort_stable (ex_cat ex_lines) (ex_args ["He"] ThNone (fz 10) None) = Ok [] /\
  load_calibration_lines argsort_stable (ex_cat ex_lines) (ex_args ["He"] ThNone (fz 0) None)
    = Ok [mkLine "He" (fz 30) (fz 5)].
Proof. vm_compute. auto. Qed.

Example load_small_selection_example_main :
  read_linelist (ex_cat ex_lines) (LLStr "nist") = Ok ex_lines /\
  vacuum_limits (ex_args ["He"] ThNone (fz 0) None) (fz 1) (fz 1000) /\
  selection ex_lines ["He"] (fz 1) (fz 1000) ThNone [mkLine "He" (fz 30) (fz 5)] /\
  selection ex_lines ["Ar"] (fz 1) (fz 1000) ThNone [] /\
  selection ex_lines ["Xe"; "Kr"] (fz 1) (fz 1000) (ThList [fz 2; fz 3])
    [mkLine "Xe" (fz 10) (fz 2); mkLine "Kr" (fz 30) (fz 9)].
Proof.
  assert (Hn : forall r, In r ex_lines -> nisnan (l_wl r) = false).
  { intros r Hr. repeat (destruct Hr as [<-|Hr]; [vm_compute; reflexivity|]). destruct Hr. }
  split; [reflexivity|]. split; [split; reflexivity|]. split; [|split].
  - apply (load_select_spec (ex_cat ex_lines) (ex_args ["He"] ThNone (fz 0) None)); auto.
  - apply (load_select_spec (ex_cat ex_lines) (ex_args ["Ar"] ThNone (fz 0) None)); auto.
  - apply (load_select_spec (ex_cat ex_lines) (ex_args ["Xe"; "Kr"] (ThList [fz 2; fz 3]) (fz 0) None)); auto.
Qed.

(* ------------------------------------------------------------------ *)
(** ** C08-C11 *)

Local Open Scope R_scope.

(** C08: vacuum_to_air strictly shortens, air_to_vacuum strictly lengthens. *)
Lemma air_shorter_than_vacuum_main :
  forall w t p : R, 2000 < w -> 0 <= t <= 60 -> 0 < p ->
    (exists a, vacuum_to_air [Fin w] (Fin (t + 273.15)) (Fin p) (Fin 0) = [Fin a] /\ 0 < a < w) /\
    (exists v, air_to_vacuum [Fin w] (Fin (t + 273.15)) (Fin p) (Fin 0) = [Fin v] /\ w < v).
Proof.
  intros w t p Hw Ht Hp. pose proof (dry_index_gt1 w t p Hw Ht Hp).
  unfold vacuum_to_air, air_to_vacuum. cbn [map]. rewrite refraction_dry' by auto. split.
  - exists (vac2air w t p). split; [|apply vac2air_shorter; auto].
    rewrite xdiv_F by lra. reflexivity.
  - exists (air2vac w t p). split; [reflexivity|apply air2vac_longer; auto].
Qed.

(** C08: both conversions preserve the strict order of wavelengths. *)
Lemma conversion_preserves_order_main :
  forall w1 w2 t p : R, 2000 < w1 -> w1 < w2 -> 0 <= t <= 60 -> 0 < p ->
    (exists a1 a2, vacuum_to_air [Fin w1; Fin w2] (Fin (t + 273.15)) (Fin p) (Fin 0) = [Fin a1; Fin a2]
                   /\ a1 < a2) /\
    (p <= 120000 ->
     exists v1 v2, air_to_vacuum [Fin w1; Fin w2] (Fin (t + 273.15)) (Fin p) (Fin 0) = [Fin v1; Fin v2]
                   /\ v1 < v2).
Proof.
  intros w1 w2 t p Hw H12 Ht Hp.
  pose proof (dry_index_gt1 w1 t p Hw Ht Hp). pose proof (dry_index_gt1 w2 t p ltac:(lra) Ht Hp).
  unfold vacuum_to_air, air_to_vacuum. cbn [map]. rewrite !refraction_dry' by (auto; lra). split.
  - exists (vac2air w1 t p), (vac2air w2 t p). split; [|apply vac2air_mono; auto].
    rewrite !xdiv_F by lra. reflexivity.
  - intros Hq. exists (air2vac w1 t p), (air2vac w2 t p). split; [reflexivity|apply air2vac_mono; auto].
Qed.

Example conversion_example_main :
  2000 < 5000 /\ 5000 < 5001 /\ 0 <= 10 <= 60 /\ 0 < 101325 <= 120000.
Proof. lra. Qed.

(** C09: air to vacuum and back lengthens a wavelength by less than one part in
    10^7, and never by zero. *)
Lemma air_vacuum_round_trip_main :
  forall w t p : R, 2000 < w -> 0 <= t <= 60 -> 0 < p <= 120000 ->
    exists v a, air_to_vacuum [Fin w] (Fin (t + 273.15)) (Fin p) (Fin 0) = [Fin v] /\
      vacuum_to_air [Fin v] (Fin (t + 273.15)) (Fin p) (Fin 0) = [Fin a] /\
      0 < a - w < w * 0.0000001.
Proof.
  intros w t p Hw Ht Hp. exists (air2vac w t p), (vac2air (air2vac w t p) t p).
  pose proof (air2vac_longer w t p Hw Ht ltac:(lra)).
  pose proof (dry_index_gt1 (air2vac w t p) t p ltac:(lra) Ht ltac:(lra)).
  split; [|split].
  - unfold air_to_vacuum. cbn [map]. rewrite refraction_dry' by auto. reflexivity.
  - unfold vacuum_to_air. cbn [map]. rewrite refraction_dry' by (auto; lra).
    rewrite xdiv_F by lra. reflexivity.
  - apply round_trip; auto.
Qed.

(** C09: both conversions use one index of refraction function, evaluated at the
    wavelength that is passed in. *)
Lemma conversions_share_index_main :
  forall (A : Type) (N : Num A) (T P rh : A), exists n : A -> A,
    (forall ws, vacuum_to_air ws T P rh = map (fun w => w /' n w) ws) /\
    (forall ws, air_to_vacuum ws T P rh = map (fun w => w *' n w) ws).
Proof. intros A N T P rh. exists (fun w => refraction_at w T P rh). split; reflexivity. Qed.

(** C10: no pressure and no humidity: nothing is changed. *)
Lemma no_atmosphere_identity_main :
  forall (ws : list R) (T : R),
    0.15 <= T <= 673.15 ->
    (forall w, In w ws -> w <> 0 /\ 1 / (w / 10000 * (w / 10000)) <> 130 /\
                          1 / (w / 10000 * (w / 10000)) <> 389 / 10) ->
    vacuum_to_air (map Fin ws) (Fin T) (Fin 0) (Fin 0) = map Fin ws /\
    air_to_vacuum (map Fin ws) (Fin T) (Fin 0) (Fin 0) = map Fin ws.
Proof.
  intros ws T HT Hw. unfold vacuum_to_air, air_to_vacuum. rewrite !map_map.
  split; apply map_ext_in; intros w Hin; destruct (Hw w Hin) as (H0 & H1 & H2);
    rewrite refraction_dry by (auto; lra); rewrite dry_index_vacuum.
  - rewrite xdiv_F by lra. f_equal. field.
  - rewrite xmul_F. f_equal. ring.
Qed.

Example no_atmosphere_example_main :
  0.15 <= 273.15 <= 673.15 /\
  (forall w, In w [5000; 7000] -> w <> 0 /\ 1 / (w / 10000 * (w / 10000)) <> 130 /\
                          1 / (w / 10000 * (w / 10000)) <> 389 / 10).
Proof.
  split; [lra|].
  assert (E1 : 1 / (5000 / 10000 * (5000 / 10000)) = 4) by field.
  assert (E2 : 1 / (7000 / 10000 * (7000 / 10000)) = 100 / 49) by field.
  intros w [<-|[<-|[]]]; rewrite ?E1, ?E2; lra.
Qed.

(** C11: the conversions act element by element. *)
Lemma conversions_elementwise_main :
  forall (A : Type) (N : Num A) (conv : list A -> A -> A -> A -> list A),
    (conv = vacuum_to_air \/ conv = air_to_vacuum) ->
    forall (ws : list A) (T P rh : A),
      List.length (conv ws T P rh) = List.length ws /\
      forall k w, nth_error ws k = Some w ->
        exists w', conv [w] T P rh = [w'] /\ nth_error (conv ws T P rh) k = Some w'.
Proof.
  intros A N conv [->| ->] ws T P rh; (split; [apply map_length|]); intros k w Hk;
    eexists; (split; [reflexivity|]).
  - unfold vacuum_to_air. rewrite nth_error_map, Hk. reflexivity.
  - unfold air_to_vacuum. rewrite nth_error_map, Hk. reflexivity.
Qed.

(* ------------------------------------------------------------------ *)
(** ** C12 *)

(** C12: the gaussian weight. *)
Lemma gauss_weight_main :
  forall a x0 sigma : R, 0 <= a ->
    exists g : R -> R,
      (forall x, gauss (Fin x) (Fin a) (Fin x0) (Fin sigma) = Fin (g x)) /\
      (forall x, 0 <= g x <= a) /\
      (0 < a -> forall x, 0 < g x) /\
      g x0 = a /\
      (forall u, g (x0 + u) = g (x0 - u)) /\
      (forall x y, Rabs (x - x0) <= Rabs (y - x0) -> g y <= g x).
Proof.
  intros a x0 sigma Ha. exists (fun x => a * exp (gauss_exponent x x0 sigma)).
  assert (E : forall x, 0 < exp (gauss_exponent x x0 sigma) <= 1).
  { intros x. split; [apply exp_pos|]. rewrite <- exp_0. apply exp_le_mono, gauss_exponent_le. }
  split; [intros; apply gauss_real|]. split.
  { intros x. pose proof (E x). nra. }
  split.
  { intros Hp x. pose proof (E x). nra. }
  split.
  { unfold gauss_exponent. rewrite Rminus_diag_eq by reflexivity.
    replace (- (0 * 0)) with 0 by ring. unfold Rdiv. rewrite Rmult_0_l, exp_0. ring. }
  split.
  { intros u. unfold gauss_exponent. do 2 f_equal. f_equal. ring. }
  intros x y H. apply Rmult_le_compat_l; auto. apply exp_le_mono, gauss_exponent_mono; auto.
Qed.

Local Close Scope R_scope.

(* ------------------------------------------------------------------ *)
(** ** C13-C16 *)

(** C13: the output of refine_peaks lies strictly inside the spectrum and consists
    of fitted centres shifted by (peak - width), for a subsequence of the peaks. *)
Lemma refine_peaks_output_main :
  forall (A : Type) (N : Num A) (cf : curve_fitter A) (sp peaks : list A) (width : Z) out,
    refine_peaks cf sp peaks width = Ok out ->
    (forall x, In x out -> nZ 0 <' x = true /\ x <' nZ (Z.of_nat (List.length sp)) = true) /\
    (List.length out <= List.length peaks)%nat /\
    exists picks : list (A * A),
      out = map (fun pc => fst pc -' nZ width +' snd pc) picks /\
      subseq (map fst picks) peaks /\
      forall pc, In pc picks -> fitted cf sp width (fst pc) (snd pc).
Proof.
  intros A N cf sp peaks width out H. destruct (refine_peaks_spec _ _ _ _ _ H) as (B & picks & E & S & F).
  split; auto. split; [|eauto]. subst out. rewrite map_length.
  apply subseq_length in S. rewrite map_length in S. exact S.
Qed.

Definition ramp : list f64 := map fz [1; 2; 4; 2; 1; 3; 8; 3; 1; 1]%Z.
(** A fitter that always reports height 1 and centre c. *)
Definition fit_const (c : f64) : curve_fitter f64 := fun _ _ _ _ => Ok (fz 1, c).
(** A fitter that reports the first sample as the centre. *)
Definition fit_first : curve_fitter f64 := fun _ ys _ _ => Ok (fz 1, hd (fz 0) ys).
(** A fitter that reports the position of the (first) sample equal to one, i.e. of
    the maximum of the normalised window. *)
Definition fit_peak : curve_fitter f64 := fun xs ys _ _ =>
  Ok (fz 1, hd (fz 0) (map fst (filter (fun q => snd q ==' fz 1) (combine xs ys)))).

Example refine_peaks_output_example_main :
  refine_peaks fit_peak ramp [fz 2; fz 6] 2 = Ok [fz 2; fz 6].
Proof. vm_compute. reflexivity. Qed.

(** C14 (part that holds): for integer peaks at least [width] from the left edge,
    every returned location is (first sample of the window) + (fitted centre). *)
Lemma refine_location_partial_main :
  forall (cf : curve_fitter xr) sp peaks (width : Z) out,
    (forall p, In p peaks -> exists ip, p = Fin (IZR ip) /\ (0 <= width <= ip)%Z) ->
    refine_peaks cf sp peaks width = Ok out ->
    forall loc, In loc out ->
      exists ip c, In (Fin (IZR ip)) peaks /\ fitted cf sp width (Fin (IZR ip)) c /\
        loc = nadd (Fin (IZR (ip - width))) c.
Proof. intros cf sp peaks width out. apply refine_inside_lemma. Qed.

(** C14 REFUTED: for a peak nearer than [width] to the left edge the window starts
    at sample 0, yet a centre of 5 is reported as position 4 (peak 2, width 3); for
    a fractional peak 4.5 the window starts at 1, yet centre 2 is reported as 3.5. *)
Lemma refine_location_refuted_main :
  window_samples ramp 3 2 (map (fun v => v /' fz 4) (map fz [1; 2; 4; 2; 1]%Z)) /\
  refine_peaks (fit_const (fz 5)) ramp [fz 2] 3 = Ok [fz 4] /\
  window_samples ramp 3 4 (map (fun v => v /' fz 8) (map fz [2; 4; 2; 1; 3; 8]%Z)) /\
  refine_peaks (fit_const (fz 2)) ramp [fd 45 (-1)] 3 = Ok [fd 35 (-1)].
Proof.
  split.
  { split; [cbn; lia|]. split; [reflexivity|]. intros k v Hk. exists (nth k ramp (fz 0)).
    do 5 (destruct k as [|k]; [injection Hk as <-; split; [reflexivity|exists [fz 4]; reflexivity]|]).
    destruct k; discriminate. }
  split; [vm_compute; reflexivity|]. split; [|vm_compute; reflexivity].
  split; [cbn; lia|]. split; [reflexivity|]. intros k v Hk.
  exists (nth (1 + k) ramp (fz 0)).
  do 6 (destruct k as [|k]; [injection Hk as <-; split; [reflexivity|exists [fz 8]; reflexivity]|]).
  destruct k; discriminate.
Qed.

Lemma slices_disjoint (len width a b : Z) (x y : nat * nat) :
  (0 <= len)%Z -> (0 <= width)%Z -> (width <= a)%Z -> (width <= b)%Z -> (2 * width <= Z.abs (a - b))%Z ->
  Ok (slice_range len (Z.max 0 (a - width)) (Z.min (a + width) len)) = Ok x ->
  Ok (slice_range len (Z.max 0 (b - width)) (Z.min (b + width) len)) = Ok y ->
  (fst x + snd x <= fst y \/ fst y + snd y <= fst x)%nat.
Proof.
  intros H0 H1 H2 H3 H4 E1 E2.
  assert (F : forall c, (width <= c)%Z ->
     slice_range len (Z.max 0 (c - width)) (Z.min (c + width) len) =
     (Z.to_nat (Z.min len (c - width)), (Z.to_nat (Z.min (c + width) len) - Z.to_nat (Z.min len (c - width)))%nat)).
  { intros c Hc. unfold slice_range, slice_bound.
    destruct (Z.ltb_spec (Z.max 0 (c - width)) 0); [lia|].
    destruct (Z.ltb_spec (Z.min (c + width) len) 0); [lia|].
    rewrite Z.max_r by lia. rewrite (Z.min_r len (Z.min (c + width) len)) by lia. reflexivity. }
  rewrite F in E1, E2 by auto.
  assert (x = (Z.to_nat (Z.min len (a - width)), (Z.to_nat (Z.min (a + width) len) - Z.to_nat (Z.min len (a - width)))%nat)) by congruence.
  assert (y = (Z.to_nat (Z.min len (b - width)), (Z.to_nat (Z.min (b + width) len) - Z.to_nat (Z.min len (b - width)))%nat)) by congruence.
  subst x y. cbn [fst snd]. lia.
Qed.

(** C15 (part that holds): if the windows of the peaks do not overlap, every
    location returned is what its peak alone gives. *)
Lemma refine_independent_partial_main :
  forall (A : Type) (N : Num A) (cf : curve_fitter A) (sp peaks : list A) (width : Z) out,
    ForallOrdPairs (fun p q => exists a b, ntrunc p = Some a /\ ntrunc q = Some b /\
                      (0 <= width <= a)%Z /\ (width <= b)%Z /\ (2 * width <= Z.abs (a - b))%Z) peaks ->
    refine_peaks cf sp peaks width = Ok out ->
    exists outs, Forall2 (fun p o => refine_peaks cf sp [p] width = Ok o) peaks outs /\
      subseq out (List.concat outs).
Proof.
  intros A N cf sp peaks width out D. apply refine_independent_lemma.
  clear out. induction D as [|p l Hp D IH]; constructor; auto.
  apply Forall_forall. rewrite Forall_forall in Hp. intros q Hq.
  destruct (Hp q Hq) as (a & b & Ha & Hb & H1 & H2 & H3).
  intros x y. unfold peak_window. rewrite Ha, Hb. intros E1 E2.
  apply slices_disjoint with (len := Z.of_nat (List.length sp)) (width := width) (a := a) (b := b); auto; lia || congruence.
Qed.

Example refine_independent_example_main :
  ForallOrdPairs (fun p q : f64 => exists a b, ntrunc p = Some a /\ ntrunc q = Some b /\
                      (0 <= 2 <= a)%Z /\ (2 <= b)%Z /\ (2 * 2 <= Z.abs (a - b))%Z) [fz 2; fz 6] /\
  refine_peaks fit_peak ramp [fz 2; fz 6] 2 = Ok [fz 2; fz 6].
Proof.
  split; [|vm_compute; reflexivity]. constructor; [|constructor; constructor].
  constructor; [|constructor]. exists 2%Z, 6%Z. vm_compute. intuition congruence.
Qed.

(** C15 REFUTED: the location found for the peak at 6 (3.25) changes to 3.0625
    when the peak at 2, whose window overlaps, is refined before it. *)
Lemma refine_independent_refuted_main :
  refine_peaks fit_first ramp [fz 6] 3 = Ok [fd 325 (-2)] /\
  exists b, refine_peaks fit_first ramp [fz 2; fz 6] 3 = Ok (b ++ [fd 30625 (-4)]) /\
            fd 325 (-2) ==' fd 30625 (-4) = false.
Proof. split; [vm_compute; reflexivity|]. eexists []. vm_compute. auto. Qed.

(** C16 (part that holds): of the locations found, one for each of some of the peaks in
    their order, only those are returned that are not close to the one found just before. *)
Lemma refine_no_adjacent_duplicates_partial_main :
  forall (A : Type) (N : Num A) (cf : curve_fitter A) (sp peaks : list A) (width : Z) out,
    refine_peaks cf sp peaks width = Ok out ->
    exists picks : list (A * A),
      subseq (map fst picks) peaks /\
      (forall pc, In pc picks -> fitted cf sp width (fst pc) (snd pc)) /\
      let found := map (fun pc => fst pc -' nZ width +' snd pc) picks in
      subseq out found /\
      forall x, In x out -> exists i, nth_error found i = Some x /\
        forall p, nth_error found (i - 1) = Some p -> (0 < i)%nat -> np_isclose p x = false.
Proof.
  intros A N cf sp peaks width out H. destruct (refine_peaks_adjacent _ _ _ _ _ H) as (raw & E & S & D).
  destruct (refine_loop_spec _ _ _ _ _ _ (rescaled_all_refl sp) E) as (picks & -> & Sp & Hf).
  exists picks. auto.
Qed.

Definition not_close (x y : xr) : Prop := np_isclose x y = false /\ np_isclose y x = false.

Lemma not_close_between a p b : (0 < a)%R -> (a <= p <= b)%R -> np_isclose (Fin p) (Fin b) = false ->
  not_close (Fin a) (Fin b).
Proof.
  unfold not_close, np_isclose. intros Ha Hp. change (nisfinite (Fin p) && nisfinite (Fin b)) with true.
  change (nisfinite (Fin a) && nisfinite (Fin b)) with true. change (nisfinite (Fin b) && nisfinite (Fin a)) with true.
  cbv iota. rlit. xop. cbn [nleb XRnum xleb]. intros H.
  destruct (Rleb_spec (Rabs (p - b)) (1 / 100000000 + 1 / 100000 * Rabs b)) as [|H1]; [discriminate|].
  rewrite (Rabs_pos_eq b) in * by lra. rewrite (Rabs_pos_eq a) by lra.
  rewrite (Rabs_minus_sym p b), (Rabs_pos_eq (b - p)) in H1 by lra.
  rewrite (Rabs_minus_sym a b), (Rabs_pos_eq (b - a)) by lra.
  destruct (Rleb_spec (b - a) (1 / 100000000 + 1 / 100000 * b)); [lra|].
  destruct (Rleb_spec (b - a) (1 / 100000000 + 1 / 100000 * a)); [lra|]. auto.
Qed.

Lemma mask_cons {T} b m (x : T) l : mask_select (b :: m) (x :: l) = if b then x :: mask_select m l else mask_select m l.
Proof. unfold mask_select. cbn. destruct b; reflexivity. Qed.

Lemma not_close_select n l : forall prev,
  ForallOrdPairs (fun x y : xr => x <=' y = true) (prev :: l) ->
  let out := mask_select (map (fun q => fst q && negb (snd q))
     (combine (map (fun p => (nZ 0 <' p) && (p <' nZ (Z.of_nat n))) l) (close_to_prev prev l))) l in
  ForallOrdPairs not_close out /\
  forall x y, x <=' prev = true -> nZ 0 <' x = true -> In y out -> not_close x y.
Proof.
  induction l as [|z l IH]; intros prev H; cbn zeta; [split; [constructor|intros ? ? _ _ []]|].
  inversion H as [|? ? H1 H2]; subst. specialize (IH z H2). cbv zeta in IH. destruct IH as [I1 I2].
  inversion H1 as [|? ? Hpz _]; subst.
  cbn [map combine close_to_prev fst snd]. rewrite mask_cons.
  set (out := mask_select _ l) in *. clearbody out.
  destruct ((nZ 0 <' z) && (z <' nZ (Z.of_nat n)) && negb (np_isclose prev z)) eqn:E.
  - apply andb_true_iff in E. destruct E as [E E3]. apply andb_true_iff in E. destruct E as [E1 E2].
    apply negb_true_iff in E3. split.
    + constructor; auto. apply Forall_forall. intros y Hy. apply I2; auto.
      rewrite nZ_Fin in E1. rewrite nZ_Fin in E2. destruct z as [z|[|]|]; try discriminate. cbn. destruct (Rleb_spec z z); [auto|lra].
    + intros x y Hx H0 [<-|Hy].
      * rewrite nZ_Fin in E1, E2, H0. destruct z as [z|[|]|]; try discriminate.
        destruct x as [x|[|]|]; try discriminate; destruct prev as [p|[|]|]; try discriminate. cbn in Hx, Hpz, H0, E1.
        destruct (Rleb_spec x p); [|discriminate]. destruct (Rleb_spec p z); [|discriminate].
        destruct (Rltb_spec 0 x); [|discriminate]. apply not_close_between with p; auto; lra.
      * apply I2; auto. exact (leb_trans _ _ _ Hx Hpz).
  - split; auto. intros x y Hx H0 Hy. apply I2; auto. exact (leb_trans _ _ _ Hx Hpz).
Qed.

Lemma subseq_FOP {T} (P : T -> T -> Prop) l1 l2 : subseq l1 l2 -> ForallOrdPairs P l2 -> ForallOrdPairs P l1.
Proof.
  induction 1 as [|x l1 l2 S IH|x l1 l2 S IH]; intros H; auto.
  - inversion H as [|? ? H1 H2]; subst. constructor; auto. rewrite Forall_forall in *.
    intros y Hy. apply H1. eapply subseq_incl; eauto.
  - inversion H; auto.
Qed.

(** C16 (part that holds): if the fits keep the order of the peaks, that is, no
    location fitted for a peak exceeds one fitted for a later peak of the list,
    no two returned locations are close, in either order. *)
Lemma refine_ordered_no_duplicates_partial_main :
  forall (cf : curve_fitter xr) (sp peaks : list xr) (width : Z) out,
    ForallOrdPairs (fun p q => forall c d, fitted cf sp width p c -> fitted cf sp width q d ->
                      p -' nZ width +' c <=' q -' nZ width +' d = true) peaks ->
    refine_peaks cf sp peaks width = Ok out ->
    ForallOrdPairs (fun x y => np_isclose x y = false /\ np_isclose y x = false) out.
Proof.
  intros cf sp peaks width out HO. unfold refine_peaks.
  destruct (refine_loop cf sp width peaks) as [r|e] eqn:E; cbn [bind]; [|discriminate].
  assert (HR : ForallOrdPairs (fun x y : xr => x <=' y = true) r).
  { destruct (refine_loop_spec _ _ _ _ _ _ (rescaled_all_refl sp) E) as (picks & -> & Sp & Hf).
    apply (subseq_FOP _ _ _ Sp) in HO. clear E Sp. induction picks as [|[p c] l IH]; cbn [map]; [constructor|].
    cbn [map] in HO. inversion HO as [|? ? H1 H2]; subst. constructor.
    - apply Forall_forall. intros y Hy. apply in_map_iff in Hy. destruct Hy as ([q d] & <- & Hq).
      rewrite Forall_forall in H1. cbn [fst snd]. apply H1; [apply (in_map fst) in Hq; exact Hq| |].
      + apply (Hf (p, c)). left; auto.
      + apply (Hf (q, d)). right; auto.
    - apply IH; auto. intros; apply Hf; right; auto. }
  intros H. assert (Ho : out = mask_select (map (fun q => fst q && negb (snd q))
    (combine (map (fun p => (nZ 0 <' p) && (p <' nZ (Z.of_nat (List.length sp)))) r) (distance_mask r))) r) by congruence.
  clear H. subst out. destruct r as [|z r]; [constructor|]. cbn [map combine distance_mask fst snd]. rewrite mask_cons.
  destruct (not_close_select (List.length sp) r z HR) as [H1 H2].
  destruct ((nZ 0 <' z) && (z <' nZ (Z.of_nat (List.length sp))) && negb false) eqn:Ez; [|exact H1].
  constructor; [|exact H1]. apply Forall_forall. intros y Hy.
  apply andb_true_iff in Ez. destruct Ez as [Ez _]. apply andb_true_iff in Ez. destruct Ez as [E1 E2].
  apply H2; auto. rewrite nZ_Fin in E1. rewrite nZ_Fin in E2. destruct z as [z|[|]|]; try discriminate. cbn. destruct (Rleb_spec z z); [auto|lra].
Qed.

(** The hypothesis is met: a fitter that reports the centre of the window for the
    peaks 3 and 6 of a spectrum of ten samples. *)
Example refine_ordered_example_main :
  let cf : curve_fitter xr := fun _ _ _ _ => Ok (Fin 1, Fin 2) in
  let sp := map Fin [1; 1; 2; 8; 2; 1; 9; 1; 1; 1]%R in
  let peaks := [Fin (IZR 3); Fin (IZR 6)] in
  ForallOrdPairs (fun p q => forall c d, fitted cf sp 2 p c -> fitted cf sp 2 q d ->
                    p -' nZ 2 +' c <=' q -' nZ 2 +' d = true) peaks /\
  (forall p, In p peaks -> exists ip y, p = Fin (IZR ip) /\ window_samples sp 2 ip y).
Proof.
  cbv zeta. split.
  - constructor; [|constructor; constructor]. constructor; [|constructor]. intros c d (ip & y & m & s & h & _ & _ & H & _) (ip' & y' & m' & s' & h' & _ & _ & H' & _).
    assert (c = Fin 2) as -> by congruence. assert (d = Fin 2) as -> by congruence. rewrite nZ_Fin. xop.
    cbn [nleb XRnum xleb]. destruct (Rleb_spec (3 - 2 + 2) (6 - 2 + 2)); auto. lra.
  - assert (G : forall ip, (ip = 3 \/ ip = 6)%Z -> exists y, window_samples (map Fin [1; 1; 2; 8; 2; 1; 9; 1; 1; 1]%R) 2 ip y).
    { intros ip Hi. exists (firstn 4 (skipn (Z.to_nat (ip - 2)) (map Fin [1; 1; 2; 8; 2; 1; 9; 1; 1; 1]%R))).
      destruct Hi as [-> | ->]; (split; [exact (Nat.lt_0_succ 3)|]); (split; [reflexivity|]); intros k v H;
        do 4 (destruct k as [|k]; [injection H as <-; eexists; split; [reflexivity|exists []; reflexivity]|]);
        destruct k; discriminate. }
    intros p [<-|[<-|[]]]; [destruct (G 3%Z) as [y Hy]|destruct (G 6%Z) as [y Hy]]; auto; eauto.
Qed.

Definition two_peaks : list f64 := map fz [1; 1; 1; 1; 1; 9; 1; 1; 1; 1; 1; 1; 7; 1; 1; 1; 1]%Z.

(** C16 REFUTED: the peaks 5, 12, 6 are refined to 5, 12, 5. *)
Lemma refine_no_duplicates_refuted_main :
  refine_peaks fit_peak two_peaks [fz 5; fz 12; fz 6] 3 = Ok [fz 5; fz 12; fz 5].
Proof. vm_compute. reflexivity. Qed.

(* ------------------------------------------------------------------ *)
(** ** C17 *)

Local Open Scope R_scope.

(** C17: _derivative gives the coefficients of the derivative. *)
Lemma derivative_correct_main :
  forall p : list R, exists dp : list R,
    derivative (map Fin p) = map Fin dp /\ List.length dp = (List.length p - 1)%nat /\
    forall x, derivable_pt_lim (fun t => basis_sum powB p t) x (basis_sum powB dp x).
Proof.
  intros p. exists (dcoef p). split; [apply derivative_real|]. split; [apply dcoef_length|].
  intros x. apply derivable_poly.
Qed.

Example derivative_example_main : derivative (map fz [5; 7; 2; 4]%Z) = map fz [7; 4; 12]%Z.
Proof. vm_compute. reflexivity. Qed.

(* ------------------------------------------------------------------ *)
(** ** C81 *)

(** C81 REFUTED: at 293.15 K and 100 % humidity the conversion uses a saturation
    pressure below 150 Pa (the formula is given the temperature in Celsius); the
    formula at the temperature in Kelvin gives 2300 to 2400 Pa.  The refractive
    index is too large by more than 7e-7. *)
Lemma humidity_vapour_pressure_refuted_main :
  let T := fd 29315 (-2) in
  let t := T -' fd 27315 (-2) in
  refraction_at (fz 5000) T (fz 101325) (fz 100) =
    edlen_refraction (fz 5000) t (fz 101325) (get_vapour_partial_pressure (fz 100) (get_vapour_pressure t)) /\
  get_vapour_pressure t <' fz 150 = true /\
  fz 2300 <' get_vapour_pressure T = true /\ get_vapour_pressure T <' fz 2400 = true /\
  fd 7 (-7) <'
    (refraction_at (fz 5000) T (fz 101325) (fz 100) -'
     edlen_refraction (fz 5000) t (fz 101325) (get_vapour_partial_pressure (fz 100) (get_vapour_pressure T))) = true.
Proof. vm_compute. auto 6. Qed.

(** C81 (part that holds): in the conversion the humidity term is that of the Edlen
    formula, but with the vapour pressure formula evaluated at the Celsius number.
    The error of the index is therefore exactly proportional to the humidity, and
    absent for dry air. *)
Lemma humidity_error_partial_main :
  forall w T p rh : R,
    (0.15 <= T <= 400)%R -> (2000 < w)%R ->
    exists vC vK used right,
      get_vapour_pressure (Fin (T - 273.15)) = Fin vC /\ get_vapour_pressure (Fin T) = Fin vK /\
      refraction_at (Fin w) (Fin T) (Fin p) (Fin rh) = Fin used /\
      edlen_refraction (Fin w) (Fin (T - 273.15)) (Fin p)
        (get_vapour_partial_pressure (Fin rh) (get_vapour_pressure (Fin T))) = Fin right /\
      used - right = rh / 100 * (vK - vC) * (292.75 / T) * (3.7345 - 0.0401 * (10000 / w) ^ 2) / 10 ^ 10 /\
      (rh = 0 -> used = right).
Proof.
  intros w T p rh HT Hw.
  destruct (vapour_finite (T - 273.15) ltac:(lra)) as [vC EC].
  destruct (vapour_finite T ltac:(lra)) as [vK EK].
  assert (F : exists base, forall u,
     edlen_refraction (Fin w) (Fin (T - 273.15)) (Fin p) (get_vapour_partial_pressure (Fin rh) (Fin u)) =
     Fin (base - rh / 100 * u * (292.75 / T) * (3.7345 - 0.0401 * (10000 / w) ^ 2) / 10 ^ 10)).
  { exists (dry_index w (T - 273.15) p). intros u. set (t := (T - 273.15)%R).
    assert (Ht : t = T - 273.15) by reflexivity. clearbody t.
    unfold get_vapour_partial_pressure, edlen_refraction. cbv zeta. rlit. xop.
    rewrite (xdiv_F rh 100) by lra. rewrite (xdiv_F w) by lra. xop.
    replace (1 * 10000) with 10000 by lra.
    assert (w / 10000 <> 0) by lra. pose proof (wavenum2_lt w Hw) as Hs.
    rewrite (xdiv_F 1) by nra. fold (wavenum2 w). 
    assert (Es : (10000 / w) ^ 2 = wavenum2 w) by (unfold wavenum2; field; lra). rewrite Es.
    set (s := wavenum2 w) in *. xop.
    repeat (rewrite xdiv_F by lra; xop). unfold dry_index. fold s. unfold disp, xfac. f_equal.
    replace (t + 27315 / 100) with T by lra.
    assert (1 + 3661 / 1000000 * t <> 0) by lra.
    replace 292.75 with (29275 / 100) by lra. replace 3.7345 with (37345 / 10000) by lra.
    replace 0.0401 with (401 / 10000) by lra.
    field. repeat split; lra. }
  destruct F as [base B]. exists vC, vK. do 2 eexists.
  split; [exact EC|]. split; [exact EK|].
  split.
  { unfold refraction_at. cbv zeta.
    replace (nsub (Fin T) (nlit 27315 (-2))) with (Fin (T - 273.15)) by (rlit; xop; f_equal; lra).
    rewrite EC. apply B. }
  split; [rewrite EK; apply B|].
  assert (T <> 0) by lra. assert (w <> 0) by lra. split; [field; auto|]. intros ->. field; auto.
Qed.

(** The hypotheses are met, with a humidity term that is not zero. *)
Example humidity_error_example_main :
  (0.15 <= 293.15 <= 400)%R /\ (2000 < 5000)%R /\ (3.7345 - 0.0401 * (10000 / 5000) ^ 2 <> 0)%R.
Proof. repeat split; lra. Qed.

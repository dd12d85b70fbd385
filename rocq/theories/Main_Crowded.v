(** * Main_Crowded: lines of one element that round to one wavelength (C100). *)
From Coq Require Import ZArith String List Bool Arith Lia Sorted.
From Verif Require Import Num F64 XReal Py Np Util Models Atlas Calib Plot Chart SpecChart ArgsortFacts RansacFacts SpecUtil Main_Util Main_Chart.
Import ListNotations.
Local Open Scope string_scope.
Local Open Scope list_scope.
Local Open Scope num_scope.

Section Count.
  Context {A : Type} {N : Num A} {O : NumOrder A}.

  Definition hits (grid ws : list A) : nat :=
    List.length (filter (fun b : bool => b) (map (fun g => existsb (fun w => g ==' w) ws) grid)).

  Lemma hits_cons grid w ws : (hits grid (w :: ws) <= hits grid [w] + hits grid ws)%nat.
  Proof.
    unfold hits. induction grid as [|g gs IH]; [cbn; lia|]. cbn [map filter existsb] in *.
    destruct (g ==' w); destruct (existsb (fun w0 => g ==' w0) ws); cbn [orb filter List.length] in *; lia.
  Qed.
  Lemma hits_one grid w : StronglySorted (fun a b : A => a <' b = true) grid -> (hits grid [w] <= 1)%nat.
  Proof.
    intros S0. unfold hits. induction S0 as [|g gs S1 IH F]; [cbn; lia|].
    change (map (fun g0 => existsb (fun w0 => g0 ==' w0) [w]) (g :: gs)) with (((g ==' w) || false) :: map (fun g0 => existsb (fun w0 => g0 ==' w0) [w]) gs).
    destruct (g ==' w) eqn:E; cbn [orb]; [|exact IH].
    assert (E0 : filter (fun b : bool => b) (map (fun g0 => existsb (fun w0 => g0 ==' w0) [w]) gs) = []).
    { rewrite Forall_forall in F. clear IH S1. induction gs as [|h hs I]; auto. cbn [map filter existsb].
      assert (Eh : h ==' w = false).
      { destruct (h ==' w) eqn:Eh; auto. rewrite eqb_sym in Eh. pose proof (eqb_trans _ _ _ E Eh) as E'.
        rewrite (ltb_neqb _ _ (F h (or_introl eq_refl))) in E'. discriminate. }
      rewrite Eh. cbn [orb]. apply I. intros x Hx. apply F. right; auto. }
    change (List.length (true :: filter (fun b : bool => b) (map (fun g0 => existsb (fun w0 => g0 ==' w0) [w]) gs)) <= 1)%nat. rewrite E0. cbn. lia.
  Qed.
  Lemma hits_le grid ws : StronglySorted (fun a b : A => a <' b = true) grid -> (hits grid ws <= List.length ws)%nat.
  Proof.
    intros S0. induction ws as [|w ws IH].
    - unfold hits. clear S0. induction grid; cbn in *; auto.
    - pose proof (hits_cons grid w ws). pose proof (hits_one grid w S0). cbn [List.length]. lia.
  Qed.
  Lemma hits_twice grid pre w1 mid w2 post :
    StronglySorted (fun a b : A => a <' b = true) grid -> w1 ==' w2 = true ->
    (hits grid (pre ++ w1 :: mid ++ w2 :: post) < List.length (pre ++ w1 :: mid ++ w2 :: post))%nat.
  Proof.
    intros S0 E.
    assert (Eh : hits grid (pre ++ w1 :: mid ++ w2 :: post) = hits grid (pre ++ w1 :: mid ++ post)).
    { unfold hits. do 2 f_equal. apply map_ext. intros g. rewrite !existsb_app. cbn [existsb]. rewrite !existsb_app. cbn [existsb].
      destruct (g ==' w1) eqn:E1.
      - rewrite !orb_true_r. reflexivity.
      - destruct (g ==' w2) eqn:E2; [|reflexivity]. rewrite eqb_sym in E. pose proof (eqb_trans _ _ _ E2 E). congruence. }
    rewrite Eh. pose proof (hits_le grid (pre ++ w1 :: mid ++ post) S0) as L.
    repeat (rewrite app_length in L || cbn [List.length] in L). repeat (rewrite app_length || cbn [List.length]). lia.
  Qed.
End Count.

Lemma line_spectrum_crowded {A} {N : Num A} {O : NumOrder A} (around : A -> A) grid lines e pre l1 mid l2 post :
  StronglySorted (fun a b : A => a <' b = true) grid ->
  filter (fun l => String.eqb (l_el l) e) lines = pre ++ l1 :: mid ++ l2 :: post ->
  around (l_wl l1) ==' around (l_wl l2) = true ->
  forall els i, In e els -> line_spectrum around grid lines els i = Raise ValueError.
Proof.
  intros S0 Ef E. induction els as [|e' els IH]; intros i Hin; [destruct Hin|]. cbn [line_spectrum].
  destruct Hin as [->|Hin].
  - rewrite Ef. set (sel := pre ++ l1 :: mid ++ l2 :: post).
    pose proof (hits_twice grid (map (fun l => around (l_wl l)) pre) _ (map (fun l => around (l_wl l)) mid) _
                  (map (fun l => around (l_wl l)) post) S0 E) as L.
    assert (Em : map (fun l => around (l_wl l)) pre ++ around (l_wl l1) :: map (fun l => around (l_wl l)) mid
                 ++ around (l_wl l2) :: map (fun l => around (l_wl l)) post = map (fun l => around (l_wl l)) sel).
    { unfold sel. rewrite map_app. cbn [map]. rewrite map_app. reflexivity. }
    rewrite Em in L. unfold hits in L. rewrite map_length in L. unfold add_at. rewrite map_length.
    destruct (Nat.eqb_spec (List.length sel)
      (List.length (filter (fun b : bool => b)
         (map (fun g => existsb (fun w => g ==' w) (map (fun l => around (l_wl l)) sel)) grid)))) as [X|_]; [exfalso; lia|].
    assert (L2 : (2 <= List.length (map l_int sel))%nat).
    { rewrite map_length. unfold sel. repeat (rewrite app_length || cbn [List.length]). lia. }
    destruct (map l_int sel) as [|y [|z v]]; cbn in L2; try lia. reflexivity.
  - match goal with |- bind ?x _ = _ => destruct x as [i'|e0] eqn:Ei end; cbn [bind]; [apply IH; exact Hin|].
    unfold add_at in Ei. destruct (Nat.eqb _ _); [discriminate|].
    match type of Ei with match ?v with _ => _ end = _ => destruct v as [|y0 [|z0 v0]] end; congruence.
Qed.

(** C100 fails for every line list in which two lines of a requested element round to
    one wavelength, on the grid or not: ValueError is raised, whatever the other
    arguments. *)
Lemma arc_crowded_refuted_main :
  forall (A : Type) (N : Num A) (O : NumOrder A) argsort around (cat : catalogue A) (a : arc_args A) lines e i j l1 l2,
    load_calibration_lines argsort cat (no_limits (ac_load a)) = Ok lines ->
    StronglySorted (fun a b : A => a <' b = true) (wave_grid around (la_min_wl (ac_load a)) (la_max_wl (ac_load a))) ->
    In e (la_elements (ac_load a)) ->
    i <> j -> nth_error lines i = Some l1 -> nth_error lines j = Some l2 -> l_el l1 = e -> l_el l2 = e ->
    around (l_wl l1) ==' around (l_wl l2) = true ->
    plot_calibration_lines argsort around cat a = Raise ValueError.
Proof.
  intros A N O argsort around cat a lines e i j l1 l2 Hl S0 He Hij H1 H2 E1 E2 Ew.
  assert (K : forall i j l1 l2, (i < j)%nat -> nth_error lines i = Some l1 -> nth_error lines j = Some l2 ->
     l_el l1 = e -> l_el l2 = e ->
     exists pre mid post, filter (fun l => String.eqb (l_el l) e) lines = pre ++ l1 :: mid ++ l2 :: post).
  { clear. intros i j l1 l2 Hlt H1 H2 E1 E2.
    destruct (nth_error_split _ _ H1) as (p & r & -> & Lp). rewrite nth_error_app2 in H2 by lia.
    replace (j - List.length p)%nat with (S (j - List.length p - 1))%nat in H2 by lia. cbn [nth_error] in H2.
    destruct (nth_error_split _ _ H2) as (m & q & -> & Lm).
    exists (filter (fun l => String.eqb (l_el l) e) p), (filter (fun l => String.eqb (l_el l) e) m), (filter (fun l => String.eqb (l_el l) e) q).
    rewrite filter_app. cbn [filter]. rewrite E1, String.eqb_refl. rewrite filter_app. cbn [filter]. rewrite E2, String.eqb_refl. reflexivity. }
  assert (P : exists pre x mid y post, filter (fun l => String.eqb (l_el l) e) lines = pre ++ x :: mid ++ y :: post /\ around (l_wl x) ==' around (l_wl y) = true).
  { destruct (Nat.lt_trichotomy i j) as [H|[H|H]]; [|contradiction|].
    - destruct (K i j l1 l2 H H1 H2 E1 E2) as (pre & mid & post & E). exists pre, l1, mid, l2, post. auto.
    - destruct (K j i l2 l1 H H2 H1 E2 E1) as (pre & mid & post & E). exists pre, l2, mid, l1, post. rewrite eqb_sym. auto. }
  destruct P as (pre & x & mid & y & post & Ef & Exy).
  unfold plot_calibration_lines. change (arc_load (ac_load a)) with (no_limits (ac_load a)). rewrite Hl. cbn [bind].
  rewrite (line_spectrum_crowded _ _ _ _ _ _ _ _ _ S0 Ef Exy); [reflexivity|exact He].
Qed.

(** Two helium lines 0.0002 A apart, one of neon elsewhere. *)
Example arc_crowded_example_main :
  let cat := mkCatalogue [he 40000010 3; mkLine "Ne" (fd 4000002 (-3)) (fz 5); he 40000012 9] (fun _ => None) in
  let a := arc_call None (fz 1) (fz 0) in
  load_calibration_lines argsort_stable cat (no_limits (ac_load a)) = Ok [he 40000010 3; he 40000012 9] /\
  StronglySorted (fun a b : f64 => a <' b = true) (wave_grid around3 (la_min_wl (ac_load a)) (la_max_wl (ac_load a))) /\
  around3 (l_wl (he 40000010 3)) ==' around3 (l_wl (he 40000012 9)) = true /\
  plot_calibration_lines argsort_stable around3 cat a = Raise ValueError.
Proof.
  cbv zeta. split; [vm_compute; reflexivity|]. split.
  - match goal with |- StronglySorted _ ?g => let v := eval vm_compute in g in change g with v end.
    repeat (constructor; [|repeat (constructor; [vm_compute; reflexivity|]); constructor]). constructor.
  - split; vm_compute; reflexivity.
Qed.

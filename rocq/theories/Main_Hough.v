(** * Main_Hough: the properties of houghtransform.py with their proofs.  The
    statements are repeated, without proofs, in Props_Hough.v. *)

From Coq Require Import ZArith Bool List Lia Reals Lra Permutation Sorted String.
From Verif Require Import Num F64 XReal Py Np NpFacts ArgsortFacts Hough SpecHough HoughFacts.
Import ListNotations.
Local Open Scope num_scope.

(** C26: set_constraints is all-or-nothing. *)
Lemma set_constraints_atomic_main :
  forall (A : Type) (N : Num A) (h h' : hough A) a b c d r,
    set_constraints h a b c d = (h', r) ->
    (r = Ok tt /\
     (exists a' b' c' d', a = Some a' /\ b = Some b' /\ c = Some c' /\ d = Some d' /\
        nisfinite a' = true /\ nisfinite b' = true /\ nisfinite c' = true /\ nisfinite d' = true) /\
     ho_min_slope h' = a /\ ho_max_slope h' = b /\
     ho_min_intercept h' = c /\ ho_max_intercept h' = d /\
     ho_points h' = ho_points h /\ ho_lines h' = ho_lines h /\ ho_hist h' = ho_hist h /\
     ho_xedges h' = ho_xedges h /\ ho_yedges h' = ho_yedges h) \/
    (h' = h /\ (r = Raise AssertionError \/ r = Raise TypeError) /\
     exists v, In v [a; b; c; d] /\ (v = None \/ exists w, v = Some w /\ nisfinite w = false)).
Proof.
  intros A N h h' a b c d r H. unfold set_constraints in H.
  assert (K : forall v : option A, (exists w, v = Some w /\ nisfinite w = true /\ check_finite v = Ok w) \/
     ((check_finite v = Raise AssertionError \/ check_finite v = Raise TypeError) /\
      (v = None \/ exists w, v = Some w /\ nisfinite w = false))).
  { intros [w|]; [|right; auto]. cbn. destruct (nisfinite w) eqn:E; [left; eauto|].
    right. split; auto. right. eauto. }
  destruct (K a) as [(a' & -> & Fa & Ea)|[E V]];
    [rewrite Ea in H; cbn [bind] in H
    |right; split; [|split; [|exists a; cbn; auto]]; destruct E as [E|E]; rewrite E in H; cbn in H;
     injection H as <- <-; auto].
  destruct (K b) as [(b' & -> & Fb & Eb)|[E V]];
    [rewrite Eb in H; cbn [bind] in H
    |right; split; [|split; [|exists b; cbn; auto]]; destruct E as [E|E]; rewrite E in H; cbn in H;
     injection H as <- <-; auto].
  destruct (K c) as [(c' & -> & Fc & Ec)|[E V]];
    [rewrite Ec in H; cbn [bind] in H
    |right; split; [|split; [|exists c; cbn; auto]]; destruct E as [E|E]; rewrite E in H; cbn in H;
     injection H as <- <-; auto].
  destruct (K d) as [(d' & -> & Fd & Ed)|[E V]];
    [rewrite Ed in H; cbn [bind] in H
    |right; split; [|split; [|exists d; cbn; auto 6]]; destruct E as [E|E]; rewrite E in H; cbn in H;
     injection H as <- <-; auto].
  injection H as <- <-. left. cbn. split; auto. split; [|auto 12].
  exists a', b', c', d'. auto 12.
Qed.

(** C26: the converse: finite numbers are always accepted. *)
Lemma set_constraints_accepts_main :
  forall (A : Type) (N : Num A) (h : hough A) a b c d,
    nisfinite a = true -> nisfinite b = true -> nisfinite c = true -> nisfinite d = true ->
    snd (set_constraints h (Some a) (Some b) (Some c) (Some d)) = Ok tt.
Proof.
  intros A N h a b c d Ha Hb Hc Hd. unfold set_constraints. cbn. rewrite Ha. cbn. rewrite Hb. cbn.
  rewrite Hc. cbn. rewrite Hd. reflexivity.
Qed.

Example set_constraints_example_main :
  set_constraints hough_init (Some (fz 1)) (Some (fz 3)) (Some (fz 100)) (Some ninf) =
    (hough_init, Raise AssertionError) /\
  ho_max_slope (fst (set_constraints hough_init (Some (fz 1)) (Some (fz 3)) (Some (fz 100)) (Some (fz 900))))
    = Some (fz 3).
Proof. split; vm_compute; reflexivity. Qed.

Definition with_limits (a b c d : xr) (h : hough xr) : Prop :=
  ho_min_slope h = Some a /\ ho_max_slope h = Some b /\
  ho_min_intercept h = Some c /\ ho_max_intercept h = Some d.

(** C27: the points are, slope by slope, the lines of the n evenly spaced slopes
    through the pairs, restricted to the (closed) range of intercepts. *)
Lemma hough_points_exact_main :
  forall (h h' : hough xr) (data : list (R * R)) n lo_s hi_s lo_i hi_i r,
    ho_min_slope h = Some (Fin lo_s) -> ho_max_slope h = Some (Fin hi_s) ->
    ho_min_intercept h = Some (Fin lo_i) -> ho_max_intercept h = Some (Fin hi_i) ->
    data <> [] -> (n >= 1)%nat ->
    generate_hough_points h (map (fun p => Fin (fst p)) data) (map (fun p => Fin (snd p)) data) n = (h', r) ->
    r = Ok tt /\
    ho_points h' = Some (HArr (map FinP
      (filter (fun q => Rleb lo_i (snd q) && Rleb (snd q) hi_i) (all_lines lo_s hi_s n data)))) /\
    same_but_points h h'.
Proof.
  intros h h' data n lo_s hi_s lo_i hi_i r H1 H2 H3 H4 Hd Hn.
  unfold generate_hough_points. rewrite H1, H2, H3, H4, !map_length, Nat.eqb_refl. cbn [negb].
  destruct (Nat.eqb_spec n 0); [lia|]. destruct data as [|p data]; [contradiction|].
  cbn [List.length Nat.eqb orb]. rewrite combine_FinP, slope_points_Fin.
  intros H. injection H as <- <-. split; auto. split; [reflexivity|].
  unfold same_but_points, ho_lims. cbn. auto.
Qed.

(** C27: every point passes through one of the pairs, with a slope between the
    limits and an intercept between the limits. *)
Lemma hough_points_sound_main :
  forall (data : list (R * R)) n lo_s hi_s lo_i hi_i line,
    (lo_s <= hi_s)%R -> (n >= 1)%nat ->
    In line (filter (fun q => Rleb lo_i (snd q) && Rleb (snd q) hi_i) (all_lines lo_s hi_s n data)) ->
    (exists p, In p data /\ on_line line p) /\
    (lo_s <= fst line <= hi_s)%R /\ (lo_i <= snd line <= hi_i)%R.
Proof.
  intros data n lo_s hi_s lo_i hi_i line Hs Hn H. apply filter_In in H. destruct H as [H F].
  unfold all_lines in H. apply in_flat_map in H. destruct H as (i & Hi & H). apply in_seq in Hi.
  apply in_map_iff in H. destruct H as (p & <- & Hp). split; [|split].
  - exists p. split; auto. unfold on_line, line_with. cbn. ring.
  - cbn. unfold slope_at. destruct (Nat.eqb_spec n 1); [lra|].
    assert (0 <= INR i)%R by apply pos_INR.
    assert (INR i <= INR (n - 1))%R by (apply le_INR; lia).
    assert (0 < INR (n - 1))%R by (apply lt_0_INR; lia).
    assert (0 <= INR i * (hi_s - lo_s) / INR (n - 1) <= hi_s - lo_s)%R; [|lra].
    unfold Rdiv. split.
    + apply Rmult_le_pos; [nra|]. left. apply Rinv_0_lt_compat. lra.
    + apply (Rmult_le_reg_r (INR (n - 1))); [lra|].
      rewrite Rmult_assoc, Rinv_l by lra. nra.
  - destruct (Rleb_spec lo_i (snd (line_with (slope_at lo_s hi_s n i) p))); [|discriminate].
    destruct (Rleb_spec (snd (line_with (slope_at lo_s hi_s n i) p)) hi_i); [|discriminate]. lra.
Qed.

(** A check in double precision: slopes 1 and 2 through (1, 10) and (4, 10);
    intercepts 9, 6, 8, 2 of which those in [3, 8] are kept. *)
Example hough_points_example_main :
  let h := mkHough None None None None None (Some (fz 1)) (Some (fz 2)) (Some (fz 3)) (Some (fz 8)) in
  generate_hough_points h [fz 1; fz 4] [fz 10; fz 10] 2 =
  (ho_set_points h (HArr [(fz 1, fz 6); (fz 2, fz 8)]), Ok tt).
Proof. vm_compute. reflexivity. Qed.

(** C28: one point for each unordered pair of data points with different abscissae
    whose line is strictly inside the limits; nothing else. *)
Lemma brute_force_exact_main :
  forall (argsort : list xr -> list nat) (h h' : hough xr) (data : list (R * R)) lo_s hi_s lo_i hi_i r,
    (forall l, is_argsort l (argsort l)) ->
    ho_min_slope h = Some (Fin lo_s) -> ho_max_slope h = Some (Fin hi_s) ->
    ho_min_intercept h = Some (Fin lo_i) -> ho_max_intercept h = Some (Fin hi_i) ->
    (List.length data >= 2)%nat ->
    generate_hough_points_brute_force argsort h
      (map (fun p => Fin (fst p)) data) (map (fun p => Fin (snd p)) data) = (h', r) ->
    r = Ok tt /\ same_but_points h h' /\
    exists lines, ho_points h' = Some (HArr (map FinP lines)) /\
      Permutation lines (map join (filter (admissible lo_s hi_s lo_i hi_i) (pairs_of data))).
Proof.
  intros argsort h h' data lo_s hi_s lo_i hi_i r Ha H1 H2 H3 H4 Hl.
  unfold generate_hough_points_brute_force. rewrite H1, H2, H3, H4, combine_FinP.
  destruct (Ha (map (fun p => Fin (fst p)) data)) as [Hp _]. rewrite map_length in Hp.
  set (idx := argsort _) in *. rewrite gather_map.
  assert (P : Permutation (gather data idx) data).
  { apply gather_perm. exact Hp. }
  rewrite !map_length. destruct (Nat.ltb_spec (List.length data) (List.length data)); [lia|].
  destruct (Nat.leb_spec (List.length (gather data idx)) 1).
  { apply Permutation_length in P. lia. }
  intros H'. injection H' as <- <-. split; auto. split.
  { unfold same_but_points, ho_lims. cbn. auto. }
  exists (map join (filter (admissible lo_s hi_s lo_i hi_i) (pairs_of (gather data idx)))). split.
  - cbn [ho_points ho_set_points]. do 2 f_equal.
    rewrite lines_through_pairs, pairs_of_map, map_map. cbn [fst snd].
    exact (brute_filter lo_s hi_s lo_i hi_i (pairs_of (gather data idx))).
  - apply admissible_lines_perm. auto.
Qed.

(** C28: the lines of the previous theorem are exactly the lines through two data
    points with different abscissae that lie strictly inside the limits. *)
Lemma brute_force_lines_main :
  forall (data : list (R * R)) lo_s hi_s lo_i hi_i line,
    In line (map join (filter (admissible lo_s hi_s lo_i hi_i) (pairs_of data))) <->
    (exists i j p q, (i < j)%nat /\ nth_error data i = Some p /\ nth_error data j = Some q /\
       fst p <> fst q /\ on_line line p /\ on_line line q) /\
    (lo_s < fst line < hi_s)%R /\ (lo_i < snd line < hi_i)%R.
Proof.
  intros data lo_s hi_s lo_i hi_i line. rewrite in_map_iff. split.
  - intros ([p q] & <- & H). apply filter_In in H. destruct H as [H F].
    apply pairs_of_In in H. destruct H as (i & j & L & Hi & Hj).
    unfold admissible in F. cbn [fst snd] in F. destruct (Reqb_spec (fst p) (fst q)); [discriminate|].
    cbn [negb andb] in F. repeat rewrite andb_true_iff in F. destruct F as [[F1 F2] [F3 F4]].
    repeat match goal with H : Rltb ?a ?b = true |- _ => destruct (Rltb_spec a b); [clear H|discriminate] end.
    split; [|split; split; auto].
    exists i, j, p, q. split; auto. split; auto. split; auto. split; auto.
    unfold on_line, join, line_with. cbn. destruct p, q; cbn in *. split; field; lra.
  - intros ((i & j & p & q & L & Hi & Hj & Hx & P & Q) & [S1 S2] & [I1 I2]).
    assert (E : join (p, q) = line).
    { unfold on_line, join, line_with in *. destruct p as [xp yp], q as [xq yq], line as [g c]. cbn in *.
      subst. f_equal; field; lra. }
    exists (p, q). split; auto. apply filter_In. split.
    + apply pairs_of_In. eauto.
    + unfold admissible. rewrite E. cbn [fst snd]. destruct (Reqb_spec (fst p) (fst q)); [congruence|]. cbn.
      destruct (Rltb_spec lo_s (fst line)); [|contradiction].
      destruct (Rltb_spec (fst line) hi_s); [|contradiction].
      destruct (Rltb_spec lo_i (snd line)); [|contradiction].
      destruct (Rltb_spec (snd line) hi_i); [|contradiction]. reflexivity.
Qed.

(** A check in double precision: (1,10), (1,12), (3,14): two lines, of slopes 1 and
    2; the vertical pair is skipped. *)
Example brute_force_example_main :
  let h := mkHough None None None None None (Some (fz 0)) (Some (fz 5)) (Some (fz 0)) (Some (fz 99)) in
  generate_hough_points_brute_force argsort_stable h [fz 3; fz 1; fz 1] [fz 14; fz 10; fz 12] =
  (ho_set_points h (HArr [(fz 2, fz 8); (fz 1, fz 11)]), Ok tt).
Proof. vm_compute. reflexivity. Qed.

(** C29: after any sequence of add_hough_points calls, rejected or not, the points
    are the old ones followed by those of the usable arguments in order. *)
Lemma add_hough_points_history_main :
  forall (A : Type) (N : Num A) (h : hough A) (pts : list (A * A)) (args : list (add_points_arg A)),
    ho_points h = Some (HArr pts) ->
    ho_points (add_all h args) = Some (HArr (pts ++ List.concat (map carried args))) /\
    same_but_points h (add_all h args).
Proof.
  intros A N h pts args. revert h pts. induction args as [|a args IH]; intros h pts H.
  - cbn. rewrite app_nil_r. split; auto. unfold same_but_points. auto.
  - unfold add_all. cbn [fold_left map List.concat].
    assert (S : ho_points (fst (add_hough_points h a)) = Some (HArr (pts ++ carried a)) /\
                same_but_points h (fst (add_hough_points h a))).
    { unfold add_hough_points. destruct a as [g|l|]; cbn [carried].
      - rewrite H. destruct (ho_points g) as [[l|[|x l]|]|]; cbn;
          rewrite ?app_nil_r; (split; [auto|]); unfold same_but_points, ho_lims; cbn; auto.
      - rewrite H. cbn. split; [auto|]; unfold same_but_points, ho_lims; cbn; auto.
      - cbn. rewrite app_nil_r. split; [auto|]; unfold same_but_points, ho_lims; cbn; auto. }
    destruct S as [S1 S2]. destruct (IH _ _ S1) as [I1 I2]. fold (add_all (fst (add_hough_points h a)) args).
    rewrite app_assoc. split; auto.
    unfold same_but_points in *. destruct S2 as (A1 & A2 & A3 & A4 & A5), I2 as (B1 & B2 & B3 & B4 & B5).
    repeat split; congruence.
Qed.

(** C29: which calls are rejected, on a transform that has points.  A transform
    without points accepts nothing but another transform without points, after
    which neither can be binned. *)
Lemma add_hough_points_outcome_main :
  forall (A : Type) (N : Num A) (h : hough A) (a : add_points_arg A),
    let '(h', r) := add_hough_points h a in
    (a = AddOther -> r = Raise TypeError) /\
    ((exists e, r = Raise e) -> h' = h) /\
    (forall pts l, ho_points h = Some (HArr pts) -> a = AddArray l -> r = Ok tt) /\
    (forall pts g l, ho_points h = Some (HArr pts) -> a = AddHough g -> ho_points g = Some (HArr l) -> r = Ok tt) /\
    (forall l, ho_points h = None -> a = AddArray l -> r = Raise ValueError) /\
    (forall g, ho_points h = None -> a = AddHough g -> ho_points g = None ->
       r = Ok tt /\ forall argsort xb yb, snd (bin_hough_points argsort h' xb yb) = Raise IndexError).
Proof.
  intros A N h a. unfold add_hough_points. destruct a as [g|l|].
  - destruct (vstack (ho_points h) (ho_points g)) as [q|e] eqn:E.
    + split; [discriminate|]. split; [intros [e He]; discriminate|]. split; [auto|]. split; [auto|].
      split; [discriminate|]. intros g' H Hg Hg'. injection Hg as <-. split; auto. intros.
      rewrite H, Hg' in E. injection E as <-. reflexivity.
    + split; [discriminate|]. split; [auto|]. split; [discriminate|]. split.
      * intros pts g' l H Hg Hl. injection Hg as <-. rewrite H, Hl in E. discriminate.
      * split; [discriminate|]. intros g' H Hg Hg'. injection Hg as <-. rewrite H, Hg' in E. discriminate.
  - destruct (ho_points h) as [[pts|[|x pts]|]|]; cbn; split; try discriminate;
      (split; [first [intros [e He]; discriminate | auto]|]); repeat split; intros; try discriminate; auto;
      congruence.
  - split; [auto|]. split; auto. split; [discriminate|]. split; [discriminate|]. split; discriminate.
Qed.

Example add_hough_points_example_main :
  ho_points (add_all (ho_set_points hough_init (HArr [(fz 1, fz 2)]))
    [AddArray [(fz 3, fz 4)]; AddOther; AddHough hough_init;
     AddHough (ho_set_points hough_init (HArr [(fz 5, fz 6); (fz 7, fz 8)]))]) =
  Some (HArr [(fz 1, fz 2); (fz 3, fz 4); (fz 5, fz 6); (fz 7, fz 8)]).
Proof. vm_compute. reflexivity. Qed.

Lemma nnat_lt (i j : nat) : (i < j)%nat -> nltb (nnat i : xr) (nnat j) = true.
Proof.
  intros H. rewrite !nnat_Fin. change (Rltb (INR i) (INR j) = true).
  apply lt_INR in H. destruct (Rltb_spec (INR i) (INR j)); auto.
Qed.

(** C30: the bins cover the range of the data with equal widths; bin (i, j) holds
    the number of points in its cell; every point is in exactly one cell and the
    counts sum to the number of points.  C31: the lines are the centres of all
    bins, by non-increasing count. *)
Lemma bin_hough_points_exact_main :
  forall (argsort : list xr -> list nat) (h h' : hough xr) (pts : list (R * R)) xb yb r,
    (forall l, is_argsort l (argsort l)) ->
    ho_points h = Some (HArr (map FinP pts)) -> (xb >= 1)%nat -> (yb >= 1)%nat ->
    bin_hough_points argsort h xb yb = (h', r) ->
    r = Ok tt /\ ho_points h' = ho_points h /\ ho_lims h' = ho_lims h /\
    exists lo_s hi_s lo_i hi_i hist bins,
      data_range (map fst pts) lo_s hi_s /\ data_range (map snd pts) lo_i hi_i /\
      (forall p, In p pts ->
         (exists! i, (i < xb)%nat /\ in_bin lo_s hi_s xb i (fst p) = true) /\
         (exists! j, (j < yb)%nat /\ in_bin lo_i hi_i yb j (snd p) = true)) /\
      ho_xedges h' = Some (map (fun i => Fin (edge lo_s hi_s xb i)) (seq 0 (S xb))) /\
      ho_yedges h' = Some (map (fun j => Fin (edge lo_i hi_i yb j)) (seq 0 (S yb))) /\
      ho_hist h' = Some hist /\ List.length hist = xb /\ (forall row, In row hist -> List.length row = yb) /\
      (forall i j, (i < xb)%nat -> (j < yb)%nat ->
         count_at hist (i, j) =
         List.length (filter (fun p => in_bin lo_s hi_s xb i (fst p) && in_bin lo_i hi_i yb j (snd p)) pts)) /\
      list_sum (List.concat hist) = List.length pts /\
      ho_lines h' = Some (map (fun b => (Fin (centre lo_s hi_s xb (fst b)), Fin (centre lo_i hi_i yb (snd b)))) bins) /\
      Permutation bins (list_prod (seq 0 xb) (seq 0 yb)) /\
      StronglySorted (fun b c => (count_at hist c <= count_at hist b)%nat) bins.
Proof.
  intros argsort h h' pts xb yb r Ha Hp Hx Hy. unfold bin_hough_points. rewrite Hp.
  assert (F1 : map fst (map FinP pts) = map Fin (map fst pts)) by (rewrite !map_map; reflexivity).
  assert (F2 : map snd (map FinP pts) = map Fin (map snd pts)) by (rewrite !map_map; reflexivity).
  rewrite F1, F2.
  destruct (bin_edges_Fin (map fst pts) xb Hx) as (lo_s & hi_s & E1 & D1 & L1 & R1).
  destruct (bin_edges_Fin (map snd pts) yb Hy) as (lo_i & hi_i & E2 & D2 & L2 & R2).
  rewrite E1, E2. intros H. pose proof (f_equal fst H) as H1. pose proof (f_equal snd H) as H2.
  cbn [fst snd] in H1, H2. subst h' r. clear H. cbn [ho_points ho_lims ho_hist ho_lines ho_xedges ho_yedges].
  split; auto. split; auto. split; [reflexivity|].
  assert (RP : forall p, In p pts -> (lo_s <= fst p <= hi_s)%R /\ (lo_i <= snd p <= hi_i)%R).
  { intros p Hin. split; [apply R1|apply R2]; apply in_map; auto. }
  set (hist := hist_counts _ _ _ _ _).
  assert (EH : hist = map (fun i => map (fun j => List.length
     (filter (fun p => in_bin lo_s hi_s xb i (fst p) && in_bin lo_i hi_i yb j (snd p)) pts)) (seq 0 yb)) (seq 0 xb)).
  { unfold hist. apply hist_counts_Fin; auto. }
  assert (HL : List.length hist = xb) by (rewrite EH, map_length, seq_length; auto).
  assert (HR : forall row, In row hist -> List.length row = yb).
  { intros row Hin. rewrite EH in Hin. apply in_map_iff in Hin. destruct Hin as (i & <- & _).
    rewrite map_length, seq_length. auto. }
  destruct (sorted_bins_ok argsort hist xb yb nnat_lt Ha HL HR) as [SP SS].
  exists lo_s, hi_s, lo_i, hi_i, hist, (sorted_bins argsort hist yb).
  split; auto. split; auto. split.
  { intros p Hin. destruct (RP p Hin) as [Q1 Q2]. split.
    - destruct (in_bin_unique lo_s hi_s xb (fst p) Hx L1 Q1) as (i & Hi & Hb & Hu).
      exists i. split; auto. intros j [Hj Hj']. symmetry. auto.
    - destruct (in_bin_unique lo_i hi_i yb (snd p) Hy L2 Q2) as (i & Hi & Hb & Hu).
      exists i. split; auto. intros j [Hj Hj']. symmetry. auto. }
  split; [rewrite map_map; auto|]. split; [rewrite map_map; auto|].
  split; auto. split; auto. split; auto. split; [|split; [|split; [|split; auto]]].
  - intros i j Hi Hj. unfold count_at. cbn [fst snd]. rewrite EH.
    rewrite (nth_indep _ [] (map (fun j => List.length
     (filter (fun p => in_bin lo_s hi_s xb 0 (fst p) && in_bin lo_i hi_i yb j (snd p)) pts)) (seq 0 yb)))
      by (rewrite map_length, seq_length; auto).
    rewrite (map_nth (fun i => map (fun j => List.length
     (filter (fun p => in_bin lo_s hi_s xb i (fst p) && in_bin lo_i hi_i yb j (snd p)) pts)) (seq 0 yb))).
    rewrite seq_nth by auto. cbn [plus].
    rewrite (nth_indep _ 0%nat (List.length
     (filter (fun p => in_bin lo_s hi_s xb i (fst p) && in_bin lo_i hi_i yb 0 (snd p)) pts)))
      by (rewrite map_length, seq_length; auto).
    rewrite (map_nth (fun j => List.length
     (filter (fun p => in_bin lo_s hi_s xb i (fst p) && in_bin lo_i hi_i yb j (snd p)) pts))).
    rewrite seq_nth by auto. reflexivity.
  - rewrite list_sum_concat, EH, map_map.
    rewrite (map_ext _ (fun i => List.length (filter (fun p => in_bin lo_s hi_s xb i (fst p)) pts))).
    + rewrite (map_ext _ (fun i => List.length (filter (fun p => true && in_bin lo_s hi_s xb i (fst p)) pts)))
        by reflexivity.
      rewrite (sum_over_bins (fun i p => in_bin lo_s hi_s xb i (fst p)) (fun _ => true)).
      * f_equal. clear. induction pts; cbn; congruence.
      * intros p Hin. apply in_bin_unique; auto. apply RP; auto.
    + intros i. rewrite (sum_over_bins (fun j p => in_bin lo_i hi_i yb j (snd p)) (fun p => in_bin lo_s hi_s xb i (fst p))); auto.
      intros p Hin. apply in_bin_unique; auto. apply RP; auto.
  - f_equal. unfold bin_lines. apply map_ext_in. intros [i j] Hin.
    apply (Permutation_in _ SP) in Hin. apply in_prod_iff in Hin. destruct Hin as [Hi Hj].
    apply in_seq in Hi, Hj. rewrite !map_map.
    assert (NE : forall lo hi n k, (k <= n)%nat -> nth k (map (fun x => Fin (edge lo hi n x)) (seq 0 (S n))) (nZ 0) = Fin (edge lo hi n k)).
    { intros lo hi n k Hk. rewrite (nth_indep _ _ (Fin (edge lo hi n 0))) by (rewrite map_length, seq_length; lia).
      rewrite (map_nth (fun x => Fin (edge lo hi n x))). rewrite seq_nth by lia. reflexivity. }
    cbn [fst snd]. rewrite !NE by lia.
    assert (CE : forall lo hi n k, (1 <= n)%nat ->
       Fin (edge lo hi n k) +' ((Fin (edge lo hi n 1) -' Fin (edge lo hi n 0)) /' nZ 2) = Fin (centre lo hi n k)).
    { intros lo hi n k Hn. rewrite nZ_Fin. cbn -[INR edge centre].
      destruct (Reqb_spec (IZR 2) 0); [lra|]. cbn -[INR edge centre]. f_equal.
      unfold centre, edge. rewrite (S_INR k). change (INR 1) with 1%R. change (INR 0) with 0%R.
      pose proof (INR_neq0 n Hn). field. auto. }
    rewrite !CE by lia. reflexivity.
Qed.

(** A check in double precision. *)
Example bin_hough_points_example_main :
  let h := fst (bin_hough_points argsort_stable
      (ho_set_points hough_init (HArr [(fz 0, fz 0); (fz 1, fz 1); (fz 2, fz 4); (fz 2, fz 3)])) 2 2) in
  ho_hist h = Some [[1; 0]; [1; 2]]%nat /\
  ho_xedges h = Some [fz 0; fz 1; fz 2] /\ ho_yedges h = Some [fz 0; fz 2; fz 4] /\
  ho_lines h = Some [(fd 15 (-1), fz 3); (fd 15 (-1), fz 1); (fd 5 (-1), fz 1); (fd 5 (-1), fz 3)].
Proof. vm_compute. auto. Qed.

Local Open Scope string_scope.

Lemma load_fields_full : forall (A : Type) (h : hough A) p hi xe ye a b c d,
  load_fields h p (Some hi) (Some xe) (Some ye) (Some a, Some b, Some c, Some d) =
  (mkHough p (ho_lines h) (Some hi) (Some xe) (Some ye) (Some a) (Some b) (Some c) (Some d), Ok tt).
Proof. reflexivity. Qed.

(** C32: after saving in a format that includes npy, loading the same name (not
    ending in .npy) into any transform restores everything stored; its hough_lines
    stay; only the files of that name change. *)
Lemma npy_round_trip_main :
  forall (A : Type) (N : Num A) (h g g' : hough A) fs fs' name fmt r rl,
    complete h -> str_in "npy" (split_plus fmt) = true -> str_last 4 name <> ".npy" ->
    hough_save h fs name fmt true = (fs', r) ->
    hough_load g fs' name "npy" = (g', rl) ->
    rl = Ok tt /\ same_stored h g' /\ ho_lines g' = ho_lines g /\
    forall n, n <> name ++ ".npy" -> n <> name ++ ".json" \/ str_in "json" (split_plus fmt) = false ->
      fs' n = fs n.
Proof.
  intros A N h g g' fs fs' name fmt r rl C Hn Hname Hs Hl.
  assert (W : fs' (name ++ ".npy") = Some (FNpy (npy_of h)) /\
     forall n, n <> name ++ ".npy" -> n <> name ++ ".json" \/ str_in "json" (split_plus fmt) = false -> fs' n = fs n).
  { unfold hough_save in Hs. rewrite Hn in Hs. cbn [andb] in Hs.
    assert (K1 : forall n, write fs (name ++ ".npy") (FNpy (npy_of h)) n =
       if String.eqb n (name ++ ".npy") then Some (FNpy (npy_of h)) else fs n) by reflexivity.
    assert (K2 : String.eqb (name ++ ".npy") (name ++ ".json") = false).
    { apply String.eqb_neq. intros E. apply (f_equal String.length) in E. rewrite !str_append_length in E.
      cbn in E. lia. }
    destruct (str_in "json" (split_plus fmt)) eqn:J.
    - destruct (json_of h) as [j|e]; cbn [bind] in Hs; injection Hs as <- <-.
      + split.
        * unfold write at 1. rewrite K2. rewrite K1, String.eqb_refl. auto.
        * intros n N1 [N2|N2]; [|discriminate]. unfold write at 1.
          apply String.eqb_neq in N1, N2. rewrite N2, K1, N1. auto.
      + split; [rewrite K1, String.eqb_refl; auto|]. intros n N1 _. apply String.eqb_neq in N1.
        rewrite K1, N1. auto.
    - injection Hs as <- <-. split; [rewrite K1, String.eqb_refl; auto|].
      intros n N1 _. apply String.eqb_neq in N1. rewrite K1, N1. auto. }
  destruct W as [W1 W2]. unfold hough_load in Hl. cbn [String.eqb Ascii.eqb Bool.eqb] in Hl.
  unfold with_suffix in Hl. cbn [String.length] in Hl. apply String.eqb_neq in Hname.
  rewrite Hname, W1 in Hl. unfold npy_of in Hl. cbn [np_points np_hist np_xedges np_yedges np_lims] in Hl.
  unfold ho_lims in Hl. unfold complete in C.
  destruct C as (C1 & C2 & C3 & C4 & C5 & C6 & C7).
  destruct (ho_hist h) eqn:Eh; [|congruence]. destruct (ho_xedges h) eqn:Ex; [|congruence].
  destruct (ho_yedges h) eqn:Ey; [|congruence]. destruct (ho_min_slope h) eqn:L1; [|congruence].
  destruct (ho_max_slope h) eqn:L2; [|congruence]. destruct (ho_min_intercept h) eqn:L3; [|congruence].
  destruct (ho_max_intercept h) eqn:L4; [|congruence]. rewrite load_fields_full in Hl.
  injection Hl as <- <-. split; auto. split.
  - unfold same_stored, ho_lims. cbn. rewrite Eh, Ex, Ey, L1, L2, L3, L4. auto.
  - auto.
Qed.

(** C32: the same for json, except that the points come back as a python list. *)
Lemma json_round_trip_main :
  forall (A : Type) (N : Num A) (h g g' : hough A) pts fs fs' name fmt r rl,
    complete h -> ho_points h = Some (HArr pts) ->
    str_in "json" (split_plus fmt) = true -> str_last 5 name <> ".json" ->
    hough_save h fs name fmt true = (fs', r) ->
    hough_load g fs' name "json" = (g', rl) ->
    r = Ok SvNone /\ rl = Ok tt /\ ho_points g' = Some (HList pts) /\
    ho_hist g' = ho_hist h /\ ho_xedges g' = ho_xedges h /\ ho_yedges g' = ho_yedges h /\
    ho_lims g' = ho_lims h /\ ho_lines g' = ho_lines g.
Proof.
  intros A N h g g' pts fs fs' name fmt r rl C Hp Hn Hname Hs Hl. unfold complete in C.
  unfold hough_save in Hs. rewrite Hn in Hs. unfold json_of in Hs. rewrite Hp in Hs.
  destruct (ho_hist h) eqn:Eh, (ho_xedges h) eqn:Ex, (ho_yedges h) eqn:Ey; try intuition congruence.
  cbn [bind] in Hs. injection Hs as <- <-. split; auto.
  unfold hough_load in Hl. cbn [String.eqb Ascii.eqb Bool.eqb] in Hl.
  unfold with_suffix in Hl. cbn [String.length] in Hl. apply String.eqb_neq in Hname.
  rewrite Hname in Hl. unfold write at 1 in Hl. rewrite String.eqb_refl in Hl.
  cbn [js_points js_hist js_xedges js_yedges js_lims] in Hl.
  unfold ho_lims in Hl.
  destruct C as (C1 & C2 & C3 & C4 & C5 & C6 & C7). destruct (ho_min_slope h) eqn:L1; [|congruence].
  destruct (ho_max_slope h) eqn:L2; [|congruence]. destruct (ho_min_intercept h) eqn:L3; [|congruence].
  destruct (ho_max_intercept h) eqn:L4; [|congruence]. rewrite load_fields_full in Hl.
  injection Hl as <- <-. unfold ho_lims. cbn. rewrite L1, L2, L3, L4. auto 10.
Qed.

Definition binned_example : hough f64 :=
  fst (bin_hough_points argsort_stable
        (mkHough (Some (HArr [(fz 0, fz 0); (fz 1, fz 1); (fz 2, fz 4)])) None None None None
           (Some (fz 0)) (Some (fz 3)) (Some (fz 0)) (Some (fz 9))) 2 2).

Example round_trip_example_main :
  complete binned_example /\ ho_points binned_example <> None /\
  str_in "npy" (split_plus "json+npy") = true /\ str_last 4 "my_hough" <> ".npy".
Proof. vm_compute. repeat split; discriminate. Qed.

(** C33: refuted: save appends .npy even when the name already ends in .npy, load
    does not, so for such a name the saved data is never read back. *)
Lemma npy_name_refuted_main :
  exists (h g : hough f64) fs fs' name,
    complete h /\
    hough_save h fs name "npy" true = (fs', Ok SvNone) /\
    hough_load g fs' name "npy" = (g, Raise FileNotFoundError).
Proof.
  exists binned_example, hough_init, (fun _ => None). eexists. exists "hough.npy".
  split; [vm_compute; repeat split; discriminate|]. split; [reflexivity|]. vm_compute. reflexivity.
Qed.

(** C33: exactly which names are affected: those ending in the suffix.  Loading
    then gives what it would have given without saving. *)
Lemma npy_name_affected_partial_main :
  forall (A : Type) (N : Num A) (h g : hough A) fs name,
    str_last 4 name = ".npy" ->
    hough_load g (fst (hough_save h fs name "npy" true)) name "npy" = hough_load g fs name "npy".
Proof.
  intros A N h g fs name H. unfold hough_save. cbn [split_plus]. cbn.
  unfold hough_load. cbn [String.eqb Ascii.eqb Bool.eqb]. unfold with_suffix. cbn [String.length].
  rewrite H. rewrite String.eqb_refl. unfold write.
  destruct (String.eqb_spec name (name ++ ".npy")) as [E|]; auto.
  exfalso. apply (f_equal String.length) in E. rewrite str_append_length in E. cbn in E. lia.
Qed.

(** C34: refuted: a transform restored from json cannot be binned or saved as json
    again. *)
Lemma json_loaded_usable_refuted_main :
  exists (h : hough f64) fs,
    complete h /\ snd (bin_hough_points argsort_stable h 2 2) = Ok tt /\
    let g := fst (hough_load hough_init (fst (hough_save h fs "t" "json" true)) "t" "json") in
    snd (bin_hough_points argsort_stable g 2 2) = Raise TypeError /\
    snd (hough_save g fs "u" "json" true) = Raise AttributeError.
Proof.
  exists binned_example, (fun _ => None). split; [vm_compute; repeat split; discriminate|].
  vm_compute. auto.
Qed.

(** C34: refuted: the lines of the saved transform are not restored. *)
Lemma loaded_lines_refuted_main :
  exists (h : hough f64) fs,
    complete h /\ ho_lines h <> None /\
    let '(g, r) := hough_load hough_init (fst (hough_save h fs "t" "npy" true)) "t" "npy" in
    r = Ok tt /\ ho_lines g = None.
Proof.
  exists binned_example, (fun _ => None). split; [vm_compute; repeat split; discriminate|].
  vm_compute. split; [discriminate|auto].
Qed.

(** C34: what does hold: a transform restored from npy can be binned again, with
    the outcome the original would give. *)
Lemma loaded_npy_usable_partial_main :
  forall (A : Type) (N : Num A) (argsort : list A -> list nat) (h g : hough A) fs name,
    complete h -> str_last 4 name <> ".npy" ->
    let g' := fst (hough_load g (fst (hough_save h fs name "npy" true)) name "npy") in
    forall xb yb,
      snd (bin_hough_points argsort g' xb yb) = snd (bin_hough_points argsort h xb yb) /\
      (snd (bin_hough_points argsort h xb yb) = Ok tt ->
       fst (bin_hough_points argsort g' xb yb) = fst (bin_hough_points argsort h xb yb)).
Proof.
  intros A N argsort h g fs name C Hname g' xb yb.
  destruct (hough_save h fs name "npy" true) as [fs' r] eqn:Es.
  destruct (hough_load g fs' name "npy") as [g'' rl] eqn:El.
  destruct (npy_round_trip_main A N h g g'' fs fs' name "npy" r rl C eq_refl Hname Es El) as (_ & S & _ & _).
  unfold g'. cbn [fst]. rewrite El. cbn [fst]. unfold same_stored, ho_lims in S.
  destruct S as (S1 & S2 & S3 & S4 & S5). injection S5 as S5 S6 S7 S8.
  unfold bin_hough_points. rewrite S1. destruct (ho_points h) as [[pts|l|]|]; cbn; try (split; [auto|discriminate]).
  destruct (bin_edges (map fst pts) xb); cbn; try (split; [auto|discriminate]).
  destruct (bin_edges (map snd pts) yb); cbn; try (split; [auto|discriminate]).
  rewrite S5, S6, S7, S8. auto.
Qed.

(** The contract of argsort used in C28 and C31 can be met. *)
Example argsort_contract_example_main : forall l : list xr, is_argsort l (argsort_stable l).
Proof. intros l. apply argsort_stable_ok. Qed.

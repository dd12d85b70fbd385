(** * Main_Scale: what refine_peaks hands to the Gaussian fit (C142). *)

From Coq Require Import ZArith Bool List String Lia Arith Reals Lra.
From Verif Require Import Num F64 XReal Py Np NpFacts Util SpecUtil RefineFacts RefineFacts2 SampleFacts EdlenFacts Main_Util Main_Window.
Import ListNotations.
Local Open Scope num_scope.

(** Times k. *)
Definition times (k : R) (v : xr) : xr := nmul (Fin k) v.

Section Scale.
  Variable k : R.
  Hypothesis Hk : (0 < k)%R.

  Lemma Reqb_scale a : Reqb (k * a) 0 = Reqb a 0.
  Proof.
    unfold Reqb. destruct (Req_EM_T (k * a) 0) as [E|E], (Req_EM_T a 0) as [F|F]; auto; exfalso; nra.
  Qed.
  Lemma Rltb_scale a b : Rltb (k * a) (k * b) = Rltb a b.
  Proof. unfold Rltb. destruct (Rlt_dec (k * a) (k * b)), (Rlt_dec a b); auto; exfalso; nra. Qed.
  Lemma Rleb_scale a b : Rleb (k * a) (k * b) = Rleb a b.
  Proof. unfold Rleb. destruct (Rle_dec (k * a) (k * b)), (Rle_dec a b); auto; exfalso; nra. Qed.
  Lemma Rltb_scale0 a : Rltb (k * a) 0 = Rltb a 0.
  Proof. rewrite <- (Rltb_scale a 0), Rmult_0_r. reflexivity. Qed.
  Lemma times_Inf s : times k (Inf s) = Inf s.
  Proof.
    unfold times. cbn. unfold Reqb, Rltb. destruct (Req_EM_T k 0); [lra|].
    destruct (Rlt_dec k 0); [lra|]. destruct s; reflexivity.
  Qed.

  Lemma times_div v m : times k v /' times k m = v /' m.
  Proof.
    destruct v as [v|s|], m as [m|t|]; rewrite ?times_Inf; try reflexivity.
    - unfold times. cbn. rewrite !Reqb_scale, Rltb_scale0. destruct (Reqb m 0) eqn:E; [reflexivity|].
      f_equal. unfold Reqb in E. destruct (Req_EM_T m 0); [discriminate|]. field. lra.
    - unfold times. cbn. now rewrite Rltb_scale0.
  Qed.

  Lemma times_isnan v : nisnan (times k v) = nisnan v.
  Proof. destruct v; [reflexivity|now rewrite times_Inf|reflexivity]. Qed.
  Lemma times_leb a b : times k a <=' times k b = (a <=' b).
  Proof.
    destruct a as [a|s|], b as [b|t|]; rewrite ?times_Inf; try reflexivity.
    unfold times. cbn. apply Rleb_scale.
  Qed.
  Lemma times_max a b : np_maximum (times k a) (times k b) = times k (np_maximum a b).
  Proof. unfold np_maximum. rewrite times_leb, times_isnan. now destruct (_ || _). Qed.

  Lemma times_fold l a : fold_left np_maximum (map (times k) l) (times k a) = times k (fold_left np_maximum l a).
  Proof. revert a. induction l as [|b l IH]; intros a; cbn [map fold_left]; [reflexivity|]. now rewrite times_max, IH. Qed.

  Lemma times_filter l : filter (fun v => negb (nisnan v)) (map (times k) l) = map (times k) (filter (fun v => negb (nisnan v)) l).
  Proof.
    induction l as [|v l IH]; [reflexivity|]. cbn [map filter]. rewrite times_isnan.
    destruct (negb (nisnan v)); cbn [map]; now rewrite IH.
  Qed.

  Lemma times_nanmax l : np_nanmax (map (times k) l) = match np_nanmax l with Ok m => Ok (times k m) | Raise e => Raise e end.
  Proof.
    destruct l as [|v l]; [reflexivity|]. unfold np_nanmax. cbn [map].
    change (times k v :: map (times k) l) with (map (times k) (v :: l)). rewrite times_filter.
    destruct (filter _ (v :: l)) as [|w r]; cbn [map]; [reflexivity|]. now rewrite times_fold.
  Qed.

  (** One turn of the loop: the same answer when the window of one spectrum is k times that of the other. *)
  Lemma refine_one_scale cf (s1 s2 : list xr) width p :
    List.length s1 = List.length s2 ->
    (forall sc, peak_window (Z.of_nat (List.length s1)) width p = Ok sc -> win s1 sc = map (times k) (win s2 sc)) ->
    snd (refine_one cf s1 width p) = snd (refine_one cf s2 width p).
  Proof.
    intros L H. unfold refine_one. rewrite <- L.
    destruct (peak_window _ _ _) as [[start cnt]|e]; [|reflexivity].
    specialize (H _ eq_refl). unfold win in H. cbn [fst snd] in H. rewrite H. rewrite times_nanmax.
    destruct (np_nanmax _) as [m|e]; [|reflexivity].
    assert (E : map (fun v => v /' times k m) (map (times k) (firstn cnt (skipn start s2))) =
                map (fun v => v /' m) (firstn cnt (skipn start s2))).
    { rewrite map_map. apply map_ext. intros v. apply times_div. }
    rewrite E.
    destruct (Nat.eqb _ 0); [reflexivity|].
    destruct (cf _ _ _ _) as [[h c]|e]; [|destruct e; reflexivity].
    destruct (h <' nZ 0); [reflexivity|].
    destruct (_ || _); reflexivity.
  Qed.

  Definition apart (len width : Z) (p q : xr) : Prop :=
    forall x y, peak_window len width p = Ok x -> peak_window len width q = Ok y ->
      (fst x + snd x <= fst y \/ fst y + snd y <= fst x)%nat.

  Lemma refine_loop_scale cf width peaks : forall s1 s2 : list xr,
    List.length s1 = List.length s2 ->
    (forall p sc i, In p peaks -> peak_window (Z.of_nat (List.length s1)) width p = Ok sc ->
       (fst sc <= i < fst sc + snd sc)%nat -> nth_error s1 i = option_map (times k) (nth_error s2 i)) ->
    ForallOrdPairs (apart (Z.of_nat (List.length s1)) width) peaks ->
    refine_loop cf s1 width peaks = refine_loop cf s2 width peaks.
  Proof.
    induction peaks as [|p peaks IH]; intros s1 s2 L H D; [reflexivity|]. cbn [refine_loop].
    inversion D as [|? ? Hp D']; subst. rewrite Forall_forall in Hp.
    assert (G : snd (refine_one cf s1 width p) = snd (refine_one cf s2 width p)).
    { apply refine_one_scale; [exact L|]. intros sc W. transitivity (win (map (times k) s2) sc).
      - apply win_ext. intros i Hi. rewrite nth_error_map. apply (H p sc i); [left; reflexivity|exact W|exact Hi].
      - unfold win. now rewrite skipn_map, firstn_map. }
    pose proof (refine_one_length cf width s1 p) as L1.
    pose proof (refine_one_length cf width s2 p) as L2.
    assert (O1 := refine_one_outside cf s1 width p). assert (O2 := refine_one_outside cf s2 width p).
    destruct (refine_one cf s1 width p) as [t1 o1] eqn:E1, (refine_one cf s2 width p) as [t2 o2] eqn:E2.
    cbn [fst snd] in *. subst o2. destruct o1 as [v|e]; cbn [bind]; [|reflexivity].
    rewrite (IH t1 t2); [reflexivity|congruence| |rewrite L1; exact D'].
    intros q sc i Hq W Hi. rewrite L1 in W.
    destruct (peak_window (Z.of_nat (List.length s1)) width p) as [sp|e] eqn:Ep.
    2:{ unfold refine_one in E1. rewrite Ep in E1. discriminate. }
    assert (Hi' : (i < fst sp \/ fst sp + snd sp <= i)%nat) by (destruct (Hp q Hq _ _ Ep W); lia).
    rewrite (O1 sp eq_refl i Hi'), (O2 sp) by (congruence || exact Hi').
    apply (H q sc i); [right; exact Hq|exact W|exact Hi].
  Qed.
End Scale.

(** C142 (part that holds): if the windows of the peaks do not overlap, the units
    of the intensities do not matter: multiplying the spectrum by a positive
    constant changes neither the refined peaks nor the exception raised. *)
Lemma refine_scale_partial_main :
  forall (cf : curve_fitter xr) (sp peaks : list xr) (width : Z) (k : R),
    (0 < k)%R ->
    ForallOrdPairs (fun p q => exists a b, ntrunc p = Some a /\ ntrunc q = Some b /\
                      (0 <= width <= a)%Z /\ (width <= b)%Z /\ (2 * width <= Z.abs (a - b))%Z) peaks ->
    refine_peaks cf (map (nmul (Fin k)) sp) peaks width = refine_peaks cf sp peaks width.
Proof.
  intros cf sp peaks width k Hk D. unfold refine_peaks. rewrite map_length.
  rewrite (refine_loop_scale k Hk cf width peaks (map (nmul (Fin k)) sp) sp); [reflexivity|apply map_length| |].
  - intros p sc i _ _ _. apply nth_error_map.
  - rewrite map_length. induction D as [|p l Hp D IH]; constructor; auto.
    apply Forall_forall. rewrite Forall_forall in Hp. intros q Hq.
    destruct (Hp q Hq) as (a & b & Ha & Hb & H1 & H2 & H3).
    intros x y. unfold peak_window. rewrite Ha, Hb. intros E1 E2.
    apply slices_disjoint with (len := Z.of_nat (List.length sp)) (width := width) (a := a) (b := b); auto; lia || congruence.
Qed.

(** C142 REFUTED where windows overlap: with the spectrum multiplied by 16 the
    first sample fitted for the peak at 6 is 1/256 and not 1/16 of the highest
    one, because the samples shared with the peak at 2 were scaled to at most one
    before: the refined location changes with the units of the intensities. *)
Lemma refine_scale_refuted_main :
  refine_peaks fit_first ramp [fz 2; fz 6] 3 = Ok [fd 30625 (-4)] /\
  refine_peaks fit_first (map (fun u => fz 16 *' u) ramp) [fz 2; fz 6] 3 = Ok [fd 300390625 (-8)] /\
  fd 30625 (-4) ==' fd 300390625 (-8) = false.
Proof. split; [vm_compute; reflexivity|]. split; vm_compute; reflexivity. Qed.

Local Open Scope R_scope.

(** The samples of a window: s splits into what is before number max(0, ip-width),
    the window, and what comes from number min(ip+width, length) on. *)
Definition window_of (s : list R) (width ip : Z) (ys : list R) : Prop :=
  exists before after, s = (before ++ ys ++ after)%list /\
    Z.of_nat (List.length before) = Z.max 0 (ip - width) /\
    Z.of_nat (List.length before + List.length ys) = Z.min (ip + width) (Z.of_nat (List.length s)).

Definition total (l : list R) : R := fold_right Rplus 0 l.

Lemma window_of_slice s width ip ys p :
  ntrunc p = Some ip -> window_of s width ip ys -> ys <> [] ->
  exists sc, peak_window (Z.of_nat (List.length (map Fin s))) width p = Ok sc /\ win (map Fin s) sc = map Fin ys.
Proof.
  intros Ht (b & a & E & L1 & L2) Hne. unfold peak_window. rewrite Ht, map_length. eexists. split; [reflexivity|].
  unfold slice_range, slice_bound. cbv zeta.
  destruct (Z.ltb_spec (Z.max 0 (ip - width)) 0); [lia|].
  destruct (Z.ltb_spec (Z.min (ip + width) (Z.of_nat (List.length s))) 0); [lia|].
  assert (Ls : List.length s = (List.length b + List.length ys + List.length a)%nat).
  { rewrite E, !app_length. lia. }
  unfold win. cbn [fst snd].
  replace (Z.to_nat (Z.min (Z.of_nat (List.length s)) (Z.max 0 (ip - width)))) with (List.length b) by lia.
  replace (Z.to_nat _) with (List.length b + List.length ys)%nat by lia.
  replace (List.length b + List.length ys - List.length b)%nat with (List.length ys) by lia.
  rewrite skipn_map, firstn_map. f_equal. rewrite E.
  rewrite skipn_app, skipn_all, Nat.sub_diag. cbn [skipn app].
  rewrite firstn_app, firstn_all, Nat.sub_diag. cbn [firstn]. apply app_nil_r.
Qed.

Lemma fold_max_Fin l : forall a, exists m, fold_left np_maximum (map Fin l) (Fin a) = Fin m /\
  In m (a :: l) /\ forall v, In v (a :: l) -> v <= m.
Proof.
  induction l as [|b l IH]; intros a; cbn [map fold_left].
  - exists a. repeat split; [left; auto|]. intros v [->|[]]. lra.
  - assert (E : np_maximum (Fin a) (Fin b) = Fin (if Rle_dec b a then a else b)).
    { unfold np_maximum. cbn. unfold Rleb. destruct (Rle_dec b a); reflexivity. }
    rewrite E. destruct (IH (if Rle_dec b a then a else b)) as (m & Em & Hin & Hle). exists m. split; [exact Em|].
    destruct (Rle_dec b a) as [H|H]; split.
    + destruct Hin as [<-|Hin]; [left; auto|right; right; auto].
    + intros v [<-|[<-|Hv]]; [apply Hle; left; auto| |apply Hle; right; auto].
      pose proof (Hle a (or_introl eq_refl)). lra.
    + destruct Hin as [<-|Hin]; right; [left|right]; auto.
    + intros v [<-|[<-|Hv]]; [|apply Hle; left; auto|apply Hle; right; auto].
      pose proof (Hle b (or_introl eq_refl)). lra.
Qed.

Lemma nanmax_Fin ys M : In M ys -> (forall v, In v ys -> v <= M) -> np_nanmax (map Fin ys) = Ok (Fin M).
Proof.
  intros HM Hle. destruct ys as [|y r]; [destruct HM|]. unfold np_nanmax. cbn [map].
  assert (F : filter (fun v : xr => negb (nisnan v)) (Fin y :: map Fin r) = Fin y :: map Fin r).
  { cbn. f_equal. induction r as [|z r IH]; [reflexivity|]. cbn. f_equal. clear - r. induction r; cbn; congruence. }
  rewrite F. destruct (fold_max_Fin r y) as (m & -> & Hm & Hmax). do 2 f_equal.
  apply Rle_antisym; [apply Hle, Hm|apply Hmax, HM].
Qed.

Lemma combine_Fin (f : R -> R -> R) (g : xr * xr -> xr) x y :
  (forall a b, g (Fin a, Fin b) = Fin (f a b)) ->
  map g (combine (map Fin x) (map Fin y)) = map Fin (map (fun q => f (fst q) (snd q)) (combine x y)).
Proof.
  intros Hg. revert y. induction x as [|a x IH]; intros [|b y]; cbn; try reflexivity.
  now rewrite Hg, IH.
Qed.

Lemma mask_all (y : list R) : map (fun v : xr => nisfinite v && negb (nisnan v)) (map Fin y) = repeat true (List.length y).
Proof. induction y as [|v y IH]; [reflexivity|]. cbn [map repeat List.length]. rewrite IH. reflexivity. Qed.
Lemma mask_select_all {T} (l : list T) n : n = List.length l -> mask_select (repeat true n) l = l.
Proof. intros ->. induction l as [|x l IH]; [reflexivity|]. cbn [List.length repeat]. rewrite mask_select_cons. now rewrite IH. Qed.

(** C142: what is fitted for a peak, over exact numbers.  The samples of its window
    are divided by the largest of them and fitted against 0, 1, 2, ...; the fit
    starts from the mean index weighted by the scaled samples and the mean weighted
    squared distance from it.  The one peak is kept exactly if the fitted height is
    not negative, the centre is between 0 and the length of the spectrum, and the
    shifted position is strictly inside the spectrum; a failed fit drops it. *)
Lemma refine_single_fit_main :
  forall (cf : curve_fitter xr) (s : list R) (p : xr) (ip width : Z) (ys : list R) (M : R),
    ntrunc p = Some ip -> window_of s width ip ys ->
    In M ys -> (forall v, In v ys -> v <= M) -> M <> 0 ->
    let n := INR (List.length ys) in
    let len := Fin (INR (List.length s)) in
    let x := map INR (seq 0 (List.length ys)) in
    let y := map (fun v => v / M) ys in
    let centre := total (map (fun q => fst q * snd q) (combine x y)) / n in
    let spread := total (map (fun q => snd q * ((fst q - centre) * (fst q - centre))) (combine x y)) / n in
    refine_peaks cf (map Fin s) [p] width =
    match cf (map Fin x) (map Fin y) (Fin centre) (Fin spread) with
    | Raise RuntimeError => Ok []
    | Raise e => Raise e
    | Ok (h, c) =>
        let loc := nadd (nsub p (Fin (IZR width))) c in
        if nltb h (Fin 0) || nltb len c || nltb c (Fin 0) then Ok []
        else if nltb (Fin 0) loc && nltb loc len then Ok [loc] else Ok []
    end.
Proof.
  intros cf s p ip width ys M Ht W HM Hle HM0 n len x y centre spread.
  assert (Hne : ys <> []) by (intros ->; destruct HM).
  assert (Hn : n <> 0) by (apply not_0_INR; destruct ys; [contradiction|discriminate]).
  destruct (window_of_slice s width ip ys p Ht W Hne) as ([start cnt] & Ew & Ewin).
  unfold win in Ewin. cbn [fst snd] in Ewin.
  unfold refine_peaks. cbn [refine_loop]. unfold refine_one. cbv zeta.
  rewrite Ew, Ewin, (nanmax_Fin ys M HM Hle).
  assert (Ey : map (fun v => ndiv v (Fin M)) (map Fin ys) = map Fin y).
  { unfold y. rewrite !map_map. apply map_ext. intros v. now apply xdiv_F. }
  rewrite Ey. rewrite mask_all.
  assert (Ly : List.length y = List.length ys) by apply map_length.
  assert (Ex : map nnat (seq 0 (List.length (map Fin y))) = map Fin x).
  { unfold x. rewrite !map_map, map_length, Ly. apply map_ext. intros i. apply nnat_Fin. }
  rewrite Ex.
  assert (Lx : List.length x = List.length ys) by (unfold x; rewrite map_length; apply seq_length).
  assert (Ef : filter (fun b : bool => b) (repeat true (List.length y)) = repeat true (List.length y)).
  { generalize (List.length y). intros j. induction j as [|j IH]; [reflexivity|]. cbn. now rewrite IH. }
  rewrite Ef, repeat_length, Ly.
  destruct (Nat.eqb_spec (List.length ys) 0) as [E0|_]; [destruct ys; [contradiction|discriminate]|].
  rewrite !mask_select_all by (rewrite map_length; congruence).
  rewrite nnat_Fin. fold n.
  rewrite (combine_Fin (fun a b => a * b)) by reflexivity. rewrite np_sum_Fin_R, xdiv_F by exact Hn.
  change (fold_right Rplus 0 (map (fun q => fst q * snd q) (combine x y)) / n) with centre.
  rewrite (combine_Fin (fun a b => b * ((a - centre) * (a - centre)))) by reflexivity.
  rewrite np_sum_Fin_R, xdiv_F by exact Hn.
  change (fold_right Rplus 0 (map (fun q => snd q * ((fst q - centre) * (fst q - centre))) (combine x y)) / n) with spread.
  rewrite map_length, !nZ_Fin, <- INR_IZR_INZ. fold len.
  destruct (cf (map Fin x) (map Fin y) (Fin centre) (Fin spread)) as [[h c]|e]; [|destruct e; reflexivity].
  destruct (nltb h (Fin 0)); [reflexivity|]. cbn [orb].
  destruct (nltb len c || nltb c (Fin 0)); [reflexivity|].
  cbn [bind map distance_mask combine]. cbn [fst snd negb]. rewrite andb_true_r.
  destruct (_ && _); reflexivity.
Qed.

Lemma trunc_int z : ntrunc (Fin (IZR z)) = Some z.
Proof. apply xtrunc_IZR. Qed.

Example refine_single_fit_example_main :
  ntrunc (Fin 2) = Some 2%Z /\
  window_of [1; 2; 4; 2; 1] 2 2 [1; 2; 4; 2] /\
  In 4 [1; 2; 4; 2] /\ (forall v, In v [1; 2; 4; 2] -> v <= 4).
Proof.
  split; [exact (trunc_int 2)|]. split.
  { exists [], [1]. repeat split. }
  split; [cbn; auto|]. intros v [<-|[<-|[<-|[<-|[]]]]]; lra.
Qed.

Example refine_scale_example_main :
  ForallOrdPairs (fun p q : xr => exists a b, ntrunc p = Some a /\ ntrunc q = Some b /\
                      (0 <= 2 <= a)%Z /\ (2 <= b)%Z /\ (2 * 2 <= Z.abs (a - b))%Z) [Fin 2; Fin 6] /\
  refine_peaks (fun _ _ _ _ => Ok (Fin 1, Fin 2)) (map (nmul (Fin 16)) (map Fin [1; 2; 4; 2; 1; 3; 8; 3; 1; 1])) [Fin 2; Fin 6] 2 =
  refine_peaks (fun _ _ _ _ => Ok (Fin 1, Fin 2)) (map Fin [1; 2; 4; 2; 1; 3; 8; 3; 1; 1]) [Fin 2; Fin 6] 2.
Proof.
  assert (H : ForallOrdPairs (fun p q : xr => exists a b, ntrunc p = Some a /\ ntrunc q = Some b /\
                      (0 <= 2 <= a)%Z /\ (2 <= b)%Z /\ (2 * 2 <= Z.abs (a - b))%Z) [Fin 2; Fin 6]).
  { constructor; [|constructor; constructor]. constructor; [|constructor].
    exists 2%Z, 6%Z. split; [exact (trunc_int 2)|]. split; [exact (trunc_int 6)|]. lia. }
  split; [exact H|]. apply refine_scale_partial_main; [lra|exact H].
Qed.

(** * Main_Match: the properties of match_peaks, of the editing of matched pairs and of
    manual_refit, with their proofs.  The statements are repeated, without proofs, in
    Props_Match.v. *)

From Coq Require Import ZArith Bool List String Lia Reals Lra Sorted Permutation.
From Verif Require Import Num F64 XReal Py Np NpFacts ArgsortFacts Util Models Atlas Hough PolyEval Calib SpecCalib Main_Calib Cand SpecCand Ransac RansacFacts SampleFacts Main_Ransac Fit Main_Fit MatchPeaks SpecMatch MatchFacts.
Import ListNotations.
Local Open Scope num_scope.

(** The calibrator of the session of Main_Fit after a successful fit. *)
Definition c_fitted : calib f64 := Eval vm_compute in
  match fit o_ex 60 c_session a_session with Some (c, Ok _) => c | _ => calib_blank [] None end.
(** The calibrator used in the examples below is the one a successful fit leaves. *)
Example fitted_state_example_main :
  match fit o_ex 60 c_session a_session with Some (c, Ok _) => c = c_fitted | _ => False end.
Proof. vm_compute. reflexivity. Qed.
Definition no_mini {A : Type} : minimiser A := fun _ x0 => Ok x0.
Definition ma_plain (tol : f64) (refine robust : bool) : match_args f64 := mkMA MNone None refine tol (fd 5 (-1)) robust None.

(** C69: the matched peaks are those peaks of the calibrator, in order, that have a line
    within the tolerance of the input fit, each with its only such line, and there are
    as many residuals. *)
Lemma match_peaks_within_main :
  forall (A : Type) (N : Num A) (o : oracle A) mini c a c' v xs,
    match_peaks o mini c a = (c', Ok v) -> mv_peaks v = MArr xs ->
    exists co k at_ ys r,
      input_coeff c a co /\ c_kind c = Some k /\ c_atlas c = Some at_ /\
      mv_atlas v = MArr ys /\ mv_resid v = Some r /\ xs <> [] /\
      List.length ys = List.length xs /\ List.length r = List.length xs /\
      xs = filter (fun p => existsb (within (fun p => eval_kind k p co) (ma_tol a) p) (get_lines at_)) (c_peaks c) /\
      Forall2 (only_line (fun p => eval_kind k p co) (ma_tol a) (get_lines at_)) xs ys.
Proof.
  intros A N o mini c a c' v xs H Hx.
  destruct (match_peaks_inv _ _ _ _ _ _ H) as (co & Hin & Hne & [(_ & _ & K & _)|(at_ & k & xs' & cand & refined & Ha & Hk & _ & Exs & Hc & Hs)]);
    [congruence|].
  destruct (match_store_Ok _ _ _ _ _ _ _ _ _ _ Hs) as
    (S1 & S2 & _ & _ & _ & S6 & S7 & (r & S8 & S9 & _) & _).
  assert (xs' = xs) as -> by congruence.
  exists co, k, at_, cand, r. split; auto. split; auto. split; auto. split; auto. split; auto. split; auto.
  split; auto. split; auto. split; auto.
  rewrite Exs in Hc. destruct (candidate_of_spec _ _ _ (near_nonempty _ _ _ _) Hc) as (_ & K).
  rewrite map_length, <- Exs, <- S2 in K. destruct K as (ys & Ey & Em); auto. cbn in Ey. subst ys.
  apply singles_only. exact Em.
Qed.

(** A call to which C69 and C70 apply: after the fit of the session, all five peaks are
    matched again. *)
Example match_peaks_example_main :
  match match_peaks o_ex no_mini c_fitted (ma_plain (fz 20) false true) with
  | (c', Ok v) => mv_peaks v = MArr ex_peaks /\ mv_atlas v = MArr ex_waves
  | _ => False
  end.
Proof. vm_compute. repeat split. Qed.

(** C70, the part that holds, over exact numbers: if the fitted wavelengths of different
    peaks are at least twice the tolerance apart, different peaks get different lines
    and no more lines are matched than the atlas has. *)
Lemma match_peaks_one_to_one_partial_main :
  forall (o : oracle xr) mini c a c' v at_ co k ps lines (t : R) (g : R -> R) ys,
    match_peaks o mini c a = (c', Ok v) -> mv_atlas v = MArr ys ->
    input_coeff c a co -> c_kind c = Some k -> c_atlas c = Some at_ ->
    c_peaks c = map Fin ps -> get_lines at_ = map Fin lines -> ma_tol a = Fin t ->
    (forall p, In p ps -> eval_kind k (Fin p) co = Fin (g p)) ->
    StronglySorted (fun p q => (2 * t <= Rabs (g p - g q))%R) ps ->
    NoDup ys /\ (List.length ys <= List.length lines)%nat.
Proof.
  intros o mini c a c' v at_ co k ps lines t g ys H Hys Hin Hk Ha Hp Hl Ht Hg Hsep.
  assert (Hx : exists xs, mv_peaks v = MArr xs).
  { destruct (match_peaks_inv _ _ _ _ _ _ H) as (co' & _ & _ & [(R1 & R2 & K & _)|(at' & k' & xs' & cand & refined & _ & _ & _ & _ & _ & Hs)]).
    - exfalso. clear -H Hys K. unfold match_peaks in H.
      destruct (match ma_coeff a with MNone => _ | _ => _ end) as [m|]; [|discriminate].
      destruct (mseq_vals m); [discriminate|]. cbv zeta in H.
      destruct (if ma_refine a then _ else _) as [q|]; [|discriminate].
      assert (E : v = mkMV (x :: l) MNone MNone None None None None \/ exists xs, mv_peaks v = MArr xs).
      { destruct q as [[new|]|]; [|left; congruence|];
          (destruct (c_atlas c); [|discriminate]; destruct (bind _ _) as [[xs cand]|]; [|discriminate];
           right; apply match_store_Ok in H; exists xs; apply H). }
      destruct E as [->|(xs & E)]; [discriminate|congruence].
    - apply match_store_Ok in Hs. exists xs'. apply Hs. }
  destruct Hx as (xs & Hx).
  destruct (match_peaks_within_main _ _ _ _ _ _ _ _ _ H Hx) as
    (co' & k' & at' & ys' & r & Hin' & Hk' & Ha' & Hy' & _ & _ & _ & _ & Exs & HF).
  assert (co' = co).
  { unfold input_coeff in *. destruct (ma_coeff a); congruence. }
  subst co'. assert (k' = k) as -> by congruence. assert (at' = at_) as -> by congruence.
  assert (ys' = ys) as -> by congruence.
  assert (Hsub : exists qs, xs = map Fin qs /\ StronglySorted (fun p q => (2 * t <= Rabs (g p - g q))%R) qs /\ incl qs ps).
  { rewrite Exs, Hp. clear -Hsep. induction ps as [|p r IH].
    - exists []. cbn. split; auto. split; [constructor|]. intros ? [].
    - inversion Hsep as [|? ? S1 F]; subst. destruct (IH S1) as (qs & E & S & I). cbn [map filter].
      destruct (existsb _ _).
      + exists (p :: qs). cbn. rewrite E. split; auto. split.
        * constructor; auto. rewrite Forall_forall in *. intros q Hq. apply F. auto.
        * intros q [->|Hq]; [left; auto|right; auto].
      + exists qs. split; auto. split; auto. intros q Hq. right; auto. }
  destruct Hsub as (qs & Eq & Sq & Iq).
  assert (Hgq : forall p, In p qs -> eval_kind k (Fin p) co = Fin (g p)) by auto.
  rewrite Eq, Hl, Ht in HF.
  assert (Hys' : exists ws, ys = map Fin ws /\ incl ws lines /\ Forall2 (fun p w => (Rabs (w - g p) < t)%R) qs ws).
  { clear -HF Hgq. revert ys HF. induction qs as [|p qs IH]; intros ys HF; inversion HF; subst.
    - exists []. cbn. split; auto. split; [intros ? []|constructor].
    - destruct (IH (fun q Hq => Hgq q (or_intror Hq)) l') as (ws & -> & I & F); auto.
      destruct H1 as (H1 & H2 & _). apply in_map_iff in H1. destruct H1 as (w & <- & Hw).
      exists (w :: ws). cbn. split; auto. split; [intros q [->|Hq]; auto|].
      constructor; auto. unfold within in H2. rewrite (Hgq p) in H2 by (left; auto).
      change (nabs (Fin w -' Fin (g p))) with (Fin (Rabs (w - g p))) in H2.
      change (nltb (Fin (Rabs (w - g p))) (Fin t)) with (Rltb (Rabs (w - g p)) t) in H2.
      destruct (Rltb_spec (Rabs (w - g p)) t); [auto|discriminate]. }
  destruct Hys' as (ws & Ew & Iw & Fw).
  assert (Nw : NoDup ws).
  { clear -Fw Sq. revert qs Sq Fw. induction ws as [|w ws IH]; intros qs Sq Fw; [constructor|].
    inversion Fw as [|p ? qs' ? Hp Hr]; subst. inversion Sq as [|? ? S1 F]; subst. constructor; [|eauto].
    intros Hin. apply In_nth_error in Hin. destruct Hin as (i & Hi).
    assert (exists q, nth_error qs' i = Some q /\ (Rabs (w - g q) < t)%R).
    { clear -Hr Hi. revert i Hi. induction Hr as [|a b qs' ws' H Hr IH]; intros [|i] Hi; try discriminate.
      - injection Hi as ->. exists a. auto. - cbn in Hi. destruct (IH _ Hi) as (q & Q1 & Q2). exists q. auto. }
    destruct H as (q & Hq & Hd). apply nth_error_In in Hq. rewrite Forall_forall in F. specialize (F _ Hq).
    assert (Rabs (g p - g q) <= Rabs (w - g p) + Rabs (w - g q))%R.
    { replace (g p - g q)%R with ((w - g q) - (w - g p))%R by ring.
      unfold Rminus at 1. eapply Rle_trans; [apply Rabs_triang|]. rewrite Rabs_Ropp. lra. }
    lra. }
  subst ys. rewrite map_length. split.
  - apply FinFun.Injective_map_NoDup; auto. intros u w E. congruence.
  - apply NoDup_incl_length; auto.
Qed.

Lemma lines_within_eq {A} {N : Num A} k lines co tol (peaks : list A) : co <> [] ->
  lines_within (Some k) lines co tol peaks =
  Ok (map (fun p => (p, near_lines (fun p => eval_kind k p co) tol lines p))
       (filter (fun p => existsb (within (fun p => eval_kind k p co) tol p) lines) peaks)).
Proof.
  intros Hco. destruct (lines_within (Some k) lines co tol peaks) as [m|e] eqn:E.
  - apply lines_within_spec in E; auto. destruct E as [(-> & ->)|(k' & Ek & ->)]; [reflexivity|].
    injection Ek as <-. reflexivity.
  - exfalso. revert e E. induction peaks as [|p r IH]; intros e E; [discriminate|].
    cbn [lines_within] in E. unfold polyval_of in E. destruct co as [|a co]; [contradiction|]. cbn [bind] in E.
    destruct (lines_within (Some k) lines (a :: co) tol r) as [m|e']; [|eapply IH; eauto].
    cbn [bind] in E. destruct (filter _ _); discriminate.
Qed.

Lemma candidate_of_singles {A} {N : Num A} (ms : list (list A)) : forall cand,
  (forall m, In m ms -> List.length m <= 1)%nat -> candidate_of ms cand = Ok (cand ++ List.concat ms).
Proof.
  induction ms as [|m ms IH]; intros cand H; cbn [candidate_of List.concat]; [rewrite app_nil_r; auto|].
  assert (H1 := H m (or_introl eq_refl)). assert (H2 : forall m, In m ms -> (List.length m <= 1)%nat) by (intros q Hq; apply H; right; auto).
  destruct m as [|l [|l' m]]; cbn in H1; [|rewrite IH by auto; rewrite <- app_assoc; reflexivity|lia].
  rewrite IH by auto. reflexivity.
Qed.

Lemma abs_minus {A} {N : Num A} (f : A -> A) : forall xs ys,
  map nabs (minus ys (map f xs)) = map (fun q => nabs (fst q -' f (snd q))) (combine ys xs).
Proof.
  unfold minus. induction xs as [|p r IH]; intros [|y ys]; auto. cbn. rewrite IH. reflexivity.
Qed.

Lemma match_peaks_succeeds_if :
  forall (A : Type) (N : Num A) (o : oracle A) mini c a co k at_ fitted,
    let near := fun p => filter (within (fun p => eval_kind k p co) (ma_tol a) p) (get_lines at_) in
    let xs := filter (fun p => existsb (within (fun p => eval_kind k p co) (ma_tol a) p) (get_lines at_)) (c_peaks c) in
    let ys := flat_map near xs in
    let deg := oget (List.length co - 1)%nat (ma_deg a) in
    input_coeff c a co -> co <> [] -> c_kind c = Some k -> c_atlas c = Some at_ ->
    (forall p, In p (c_peaks c) -> List.length (near p) <= 1)%nat -> xs <> [] ->
    (ma_refine a = true ->
      exists new, refine_coeff mini c (match ma_coeff a with MNone => MArr co | m => m end) (ma_ndelta a) (ma_tol a) (ma_frac a) = Ok (Some new)) ->
    ma_refine a = true \/ ma_robust a = true ->
    o_polyfit o k xs ys deg = Ok fitted -> fitted <> [] ->
    np_sum (map (fun q => nabs (fst q -' eval_kind k (snd q) fitted)) (combine ys xs)) <' nlit 1 9 = true ->
    (ma_robust a = true -> exists co', robust_polyfit (o_ls o) xs ys deg None = Ok co' /\ co' <> []) ->
    exists c' v, match_peaks o mini c a = (c', Ok v) /\ mv_peaks v = MArr xs /\ mv_atlas v = MArr ys.
Proof.
  intros A N o mini c a co k at_ fitted near xs ys deg Hin Hco Hk Ha Hone Hxs Href Hflag Hfit Hfne Hsum Hrob.
  assert (Hc : match ma_coeff a, c_coeff c with
               | MNone, None => Raise AttributeError
               | MNone, Some l => Ok (MArr l)
               | m, _ => Ok m
               end = Ok (match ma_coeff a with MNone => MArr co | m => m end)).
  { unfold input_coeff in Hin. destruct (ma_coeff a); auto. rewrite Hin. reflexivity. }
  assert (Hv : mseq_vals (match ma_coeff a with MNone => MArr co | m => m end) = co).
  { unfold input_coeff in Hin. destruct (ma_coeff a); auto. }
  unfold match_peaks. rewrite Hc, Hv. destruct co as [|c0 co0]; [contradiction|].
  cbv zeta. fold deg. rewrite Ha, Hk.
  rewrite (lines_within_eq k (get_lines at_) (c0 :: co0) (ma_tol a) (c_peaks c) Hco). cbn [bind].
  fold xs. rewrite !map_map. cbn [fst snd]. rewrite map_id.
  change (map (fun x => near_lines (fun p => eval_kind k p (c0 :: co0)) (ma_tol a) (get_lines at_) x) xs) with (map near xs).
  rewrite candidate_of_singles.
  2: { intros m Hm. apply in_map_iff in Hm. destruct Hm as (p & <- & Hp). apply Hone. apply filter_In in Hp. apply Hp. }
  cbn [app bind].
  assert (Ey : List.concat (map near xs) = ys) by (unfold ys; symmetry; apply flat_map_concat_map).
  rewrite Ey.
  assert (L : List.length xs = List.length ys).
  { unfold ys. assert (K : forall p, In p xs -> List.length (near p) = 1%nat).
    { intros p Hp. apply filter_In in Hp. destruct Hp as (Hp1 & Hp2). apply Hone in Hp1.
      apply existsb_exists in Hp2. destruct Hp2 as (w & Hw & Ww).
      assert (Hnw : In w (near p)) by (apply filter_In; auto).
      destruct (near p) as [|w0 [|]]; [destruct Hnw|auto|cbn in Hp1; lia]. }
    clear -K. induction xs as [|p r IH]; auto. cbn. rewrite app_length, (K p), <- IH; auto.
    - intros q Hq. apply K. right; auto. - left; auto. }
  assert (Hpk : c_peaks c <> []) by (intros E; apply Hxs; unfold xs; rewrite E; reflexivity).
  assert (Hat : atlas_len at_ <> 0%nat).
  { intros E. apply Hxs. unfold xs. replace (get_lines at_) with (@nil A).
    - clear. induction (c_peaks c); auto.
    - unfold atlas_len in E. unfold get_lines. destruct (at_lines at_); [reflexivity|discriminate]. }
  clearbody ys. clearbody xs.
  assert (Hst : forall refined, (ma_robust a = true \/ refined <> None) ->
     exists c' v, match_store o c deg (ma_robust a) refined xs ys (atlas_len at_) = (c', Ok v) /\
        mv_peaks v = MArr xs /\ mv_atlas v = MArr ys).
  { intros refined Hr. unfold match_store. rewrite Hk. unfold polyfit_of.
    destruct xs as [|x0 xs0] eqn:Exs; [contradiction|]. rewrite <- Exs in *. rewrite L, Nat.eqb_refl.
    rewrite Hfit. cbn [bind]. rewrite polyvals_map by auto. cbn [bind].
    assert (Es : map nabs (minus ys (map (fun p => eval_kind k p fitted) xs)) =
       map (fun q => nabs (fst q -' eval_kind k (snd q) fitted)) (combine ys xs)).
    { exact (abs_minus (fun p => eval_kind k p fitted) xs ys). }
    rewrite Es, Hsum. cbn [negb]. cbv zeta.
    destruct (Nat.eqb_spec (List.length (c_peaks c)) 0) as [E|_].
    { destruct (c_peaks c); [contradiction|discriminate]. }
    destruct (Nat.eqb_spec (atlas_len at_) 0) as [E|_]; [contradiction|].
    destruct (ma_robust a) eqn:Er.
    - destruct (Hrob eq_refl) as (co' & Hr' & Hne'). rewrite Hr'.
      destruct (existsb nisnan co'); [eexists _, _; split; [reflexivity|split; reflexivity]|].
      rewrite polyvals_map by auto. eexists _, _; split; [reflexivity|split; reflexivity].
    - destruct Hr as [|Hr]; [discriminate|]. destruct refined; [|contradiction].
      eexists _, _; split; [reflexivity|split; reflexivity]. }
  destruct (ma_refine a) eqn:Er.
  - destruct (Href eq_refl) as (new & Hn). rewrite Hn. cbn [bind].
    destruct (Hst (Some new)) as (c' & v & H); [right; discriminate|]. exists c', v. exact H.
  - destruct (Hst None) as (c' & v & H); [left; destruct Hflag; congruence|]. exists c', v. exact H.
Qed.

Lemma add_delta_total {A} {N : Num A} : forall d l : list A, (List.length d <= List.length l)%nat ->
  existsb nisnan l = false -> (forall u v, In u l -> In v d -> nisnan (u +' v) = false) ->
  exists r, add_delta l d = Ok r /\ existsb nisnan r = false.
Proof.
  induction d as [|v d IH]; intros l L H1 H2; [exists l; destruct l; auto|].
  destruct l as [|u l]; [cbn in L; lia|]. cbn in L, H1. apply orb_false_iff in H1. destruct H1 as (_ & H1).
  destruct (IH l) as (r & E & Hr); [lia|exact H1|intros; apply H2; right; auto|].
  cbn [add_delta]. rewrite E. eexists. split; [reflexivity|]. cbn. rewrite Hr, (H2 u v); auto; left; auto.
Qed.

(** C71, the part that holds: match_peaks succeeds when each peak has at most one line
    within the tolerance of the input fit and some peak has one, refine or robust_refit
    is set, the minimiser of the refinement returns numbers that can be added,
    and the library's fits succeed (with a plausible result for polyfit). *)
Lemma match_peaks_succeeds_partial_main :
  forall (A : Type) (N : Num A) (o : oracle A) mini c a co k at_ fitted,
    let near := fun p => filter (within (fun p => eval_kind k p co) (ma_tol a) p) (get_lines at_) in
    let xs := filter (fun p => existsb (within (fun p => eval_kind k p co) (ma_tol a) p) (get_lines at_)) (c_peaks c) in
    let ys := flat_map near xs in
    let deg := oget (List.length co - 1)%nat (ma_deg a) in
    input_coeff c a co -> co <> [] -> c_kind c = Some k -> c_atlas c = Some at_ ->
    (forall p, In p (c_peaks c) -> List.length (near p) <= 1)%nat -> xs <> [] ->
    (ma_refine a = true ->
      (forall l, ma_coeff a <> MList l) /\ existsb nisnan co = false /\
      forall f n, exists d, mini f (map (fun v => v *' nlit 1 (-3)) (firstn n co)) = Ok d /\ (List.length d <= n)%nat /\
        (List.length d <= List.length co)%nat /\ forall u v, In u co -> In v d -> nisnan (u +' v) = false) ->
    ma_refine a = true \/ ma_robust a = true ->
    o_polyfit o k xs ys deg = Ok fitted -> fitted <> [] ->
    np_sum (map (fun q => nabs (fst q -' eval_kind k (snd q) fitted)) (combine ys xs)) <' nlit 1 9 = true ->
    (ma_robust a = true -> exists co', robust_polyfit (o_ls o) xs ys deg None = Ok co' /\ co' <> []) ->
    exists c' v, match_peaks o mini c a = (c', Ok v) /\ mv_peaks v = MArr xs /\ mv_atlas v = MArr ys.
Proof.
  intros A N o mini c a co k at_ fitted near xs ys deg Hin Hco Hk Ha Hone Hxs Href.
  apply (match_peaks_succeeds_if A N o mini c a co k at_ fitted Hin Hco Hk Ha Hone Hxs).
  intros Hr. destruct (Href Hr) as (Hl & Hn & Hm). clear Href.
  assert (E : match ma_coeff a with MNone => MArr co | m => m end = MArr co).
  { unfold input_coeff in Hin. destruct (ma_coeff a) as [|l|l]; auto; [exfalso; eapply Hl; reflexivity|cbn in Hin; congruence]. }
  rewrite E. cbn [refine_coeff].
  unfold slice_to. match goal with |- context [firstn ?m co] => set (n := m) end.
  destruct (Hm (fun d => snd (adjust_polyfit c d co (ma_tol a) (ma_frac a))) n) as (d & Ed & _ & Ld & Hd).
  rewrite Ed. cbn [bind]. destruct (add_delta_total d co) as (r & Er & Hrn); auto.
  rewrite Er. cbn [bind]. rewrite Hrn. eauto.
Qed.

(** The hypotheses of the previous theorem are met: two peaks, two lines, the line
    10 p + 3000, which the library's polyfit returns. *)
Definition c_real : calib xr :=
  set_c_kind (Some FitPoly) (set_c_coeff (Some (map Fin [3000; 10]%R))
    (set_c_atlas (Some (mkAtlas (map (fun w => mkAL (Fin w) "Ar"%string (Fin 1) None) [3001; 3040]%R) (Fin 3000) (Fin 9000) (Fin 500)))
       (calib_blank (map Fin [0; 4]%R) None))).
Definition o_real : oracle xr :=
  mkO (fun l => seq 0 (List.length l)) (fun n => repeat (Fin 0) n) (fun _ _ _ _ => Ok (map Fin [3000; 10]%R))
    (fun _ _ _ _ => Raise ValueError) (fun _ l n _ => firstn n l) (fun _ l => hd (Fin 0) l)
    (fun _ _ _ => Raise ValueError) false.
Ltac rdec := repeat match goal with
  | |- context [Rltb ?a ?b] => destruct (Rltb_spec a b); try (exfalso; revert_rabs)
  end
with revert_rabs := unfold Rabs in *; repeat destruct (Rcase_abs _); lra.
Lemma real_val p : eval_kind FitPoly (Fin p) (map Fin [3000; 10]%R) = Fin (3000 + 10 * p)%R.
Proof.
  cbn [eval_kind]. unfold polyval. cbn [map rev app fold_left]. rewrite (nZ_Fin 0). cbn. f_equal. ring.
Qed.
Lemma real_within p w t : within (fun p => eval_kind FitPoly p (map Fin [3000; 10]%R)) (Fin t) (Fin p) (Fin w) =
  Rltb (Rabs (w - (3000 + 10 * p))) t.
Proof. unfold within. rewrite real_val. reflexivity. Qed.
Example match_peaks_one_to_one_example_main :
  let a := mkMA (MArr (map Fin [3000; 10]%R)) (Some 1%Z) true (Fin 5) (Fin 1) false None in
  let g := fun p => (3000 + 10 * p)%R in
  (exists c' v, match_peaks o_real (fun _ x0 => Ok x0) c_real a = (c', Ok v) /\ mv_atlas v = MArr (map Fin [3001; 3040]%R)) /\
  input_coeff c_real a (map Fin [3000; 10]%R) /\
  (forall p, In p [0; 4]%R -> eval_kind FitPoly (Fin p) (map Fin [3000; 10]%R) = Fin (g p)) /\
  StronglySorted (fun p q => (2 * 5 <= Rabs (g p - g q))%R) [0; 4]%R.
Proof.
  cbv zeta. set (a := mkMA _ _ _ _ _ _ _). set (g := fun p => (3000 + 10 * p)%R).
  split; [|split; [reflexivity|split; [intros p _; apply real_val|]]].
  2: { unfold g. repeat constructor; unfold Rabs; destruct (Rcase_abs _); lra. }
  destruct (c_atlas c_real) as [at_|] eqn:Ea; [|discriminate].
  assert (El : get_lines at_ = map Fin [3001; 3040]%R) by (injection Ea as <-; reflexivity).
  pose proof (match_peaks_succeeds_partial_main xr XRnum o_real (fun _ x0 => Ok x0) c_real a (map Fin [3000; 10]%R)
    FitPoly at_ (map Fin [3000; 10]%R)) as K. cbv zeta in K.
  assert (Xs : filter (fun p => existsb (within (fun p => eval_kind FitPoly p (map Fin [3000; 10]%R)) (ma_tol a) p) (get_lines at_)) (c_peaks c_real)
     = map Fin [0; 4]%R).
  { rewrite El. change (c_peaks c_real) with (map Fin [0; 4]%R). change (ma_tol a) with (Fin 5).
    cbn [map filter existsb]. rewrite !real_within. rdec. reflexivity. }
  assert (Ys : forall p, In p [0; 4]%R ->
     filter (within (fun p => eval_kind FitPoly p (map Fin [3000; 10]%R)) (ma_tol a) (Fin p)) (get_lines at_) =
     if Rltb p 2 then [Fin 3001] else [Fin 3040]).
  { intros p [<-|[<-|[]]]; rewrite El; change (ma_tol a) with (Fin 5); cbn [map filter]; rewrite !real_within; rdec; reflexivity. }
  assert (Yf : flat_map (fun p => filter (within (fun p => eval_kind FitPoly p (map Fin [3000; 10]%R)) (ma_tol a) p) (get_lines at_)) (map Fin [0; 4]%R) =
     map Fin [3001; 3040]%R).
  { cbn [map flat_map]. rewrite !Ys by (cbn; auto). rdec. reflexivity. }
  rewrite Xs in K. rewrite Yf in K.
  destruct K as (c' & v & K1 & _ & K2); [reflexivity|discriminate|reflexivity|exact Ea| |discriminate| |left; reflexivity|reflexivity|discriminate| |discriminate|].
  - intros p Hp. change (c_peaks c_real) with (map Fin [0; 4]%R) in Hp. apply in_map_iff in Hp. destruct Hp as (q & <- & Hq).
    rewrite Ys by auto. destruct (Rltb q 2); cbn; lia.
  - intros _. split; [discriminate|]. split; [reflexivity|]. intros f n. eexists. split; [reflexivity|].
    rewrite map_length, firstn_length. split; [lia|]. split; [lia|].
    intros u v Hu Hv. apply in_map_iff in Hv. destruct Hv as (v' & <- & Hv).
    assert (Hv' : In v' (map Fin [3000; 10]%R)).
    { rewrite <- (firstn_skipn n (map Fin [3000; 10]%R)). apply in_or_app. left. exact Hv. }
    apply in_map_iff in Hu, Hv'. destruct Hu as (u' & <- & _), Hv' as (v'' & <- & _). reflexivity.
  - cbn [map combine fst snd]. change [Fin 3000; Fin 10] with (map Fin [3000; 10]%R). rewrite !real_val.
    change (nabs (Fin 3001 -' Fin (3000 + 10 * 0)%R)) with (Fin (Rabs (3001 - (3000 + 10 * 0))%R)).
    change (nabs (Fin 3040 -' Fin (3000 + 10 * 4)%R)) with (Fin (Rabs (3040 - (3000 + 10 * 4))%R)).
    change [Fin (Rabs (3001 - (3000 + 10 * 0))%R); Fin (Rabs (3040 - (3000 + 10 * 4))%R)] with
      (map Fin [Rabs (3001 - (3000 + 10 * 0)); Rabs (3040 - (3000 + 10 * 4))]%R).
    rewrite np_sum_Fin_R. cbn [fold_right].
    change (nltb (Fin (Rabs (3001 - (3000 + 10 * 0)) + (Rabs (3040 - (3000 + 10 * 4)) + 0))) (nlit 1 9)) with
      (Rltb (Rabs (3001 - (3000 + 10 * 0)) + (Rabs (3040 - (3000 + 10 * 4)) + 0)) (Rlit 1 9)). unfold Rlit.
    assert (Hp : powerRZ 10 9 = 1000000000%R) by (unfold powerRZ; change (Pos.to_nat 9) with 9%nat; unfold pow; lra).
    rewrite ?Hp. rdec. reflexivity.
  - exists c', v. auto.
Qed.

(** C70 fails in binary64: with peaks at 100 and 101, close compared with the tolerance,
    both are matched to the line 4002, and atlas_utilisation exceeds 1. *)
Definition wide_peaks : list f64 := [fz 100; fz 101; fz 190; fz 191; fz 310; fz 430; fz 500].
Definition c_wide : calib f64 :=
  match fit o_ex 60 (after wide_peaks (session 2 (fz 1) ex_waves)) a_session with
  | Some (c, _) => c
  | None => calib_blank [] None
  end.
Lemma match_peaks_one_to_one_refuted_main :
  match match_peaks o_ex no_mini c_wide (mkMA (MArr [fz 3000; fz 10]) None false (fz 30) (fd 5 (-1)) true None) with
  | (_, Ok v) =>
      match mv_atlas v, mv_autil v with
      | MArr (w1 :: w2 :: _), Some u => w1 = w2 /\ fz 1 <' u = true
      | _, _ => False
      end
  | _ => False
  end.
Proof. vm_compute. repeat split. Qed.

(** What a successful call matched. *)
Lemma match_peaks_singles {A} {N : Num A} (o : oracle A) mini c a c' v co k at_ :
  match_peaks o mini c a = (c', Ok v) -> mv_peaks v <> MNone ->
  input_coeff c a co -> c_kind c = Some k -> c_atlas c = Some at_ ->
  let near := near_lines (fun p => eval_kind k p co) (ma_tol a) (get_lines at_) in
  exists xs ys, xs <> [] /\ map near xs = map (fun y => [y]) ys /\
    xs = filter (fun p => existsb (within (fun p => eval_kind k p co) (ma_tol a) p) (get_lines at_)) (c_peaks c).
Proof.
  intros H Hx Hin Hk Ha near.
  destruct (match_peaks_inv _ _ _ _ _ _ H) as (co' & Hin' & Hne & [(_ & _ & K & _)|(at' & k' & xs & cand & refined & Ha' & Hk' & _ & Exs & Hc & Hs)]);
    [congruence|].
  assert (co' = co) as -> by (unfold input_coeff in *; destruct (ma_coeff a); congruence).
  assert (k' = k) as -> by congruence. assert (at' = at_) as -> by congruence.
  destruct (match_store_Ok _ _ _ _ _ _ _ _ _ _ Hs) as (S1 & S2 & _).
  exists xs. rewrite Exs in Hc. destruct (candidate_of_spec _ _ _ (near_nonempty _ _ _ _) Hc) as (_ & K).
  rewrite map_length, <- Exs, <- S2 in K. destruct K as (ys & Ey & Em); auto.
  exists ys. auto.
Qed.

(** C71 fails for every input: match_peaks never succeeds with refine and robust_refit
    both off, never succeeds (apart from returning its input when the refinement gives
    NaN) if some peak has two lines within the tolerance, or if no peak has any; nor
    with refine and coefficients given as a list. *)
Lemma match_peaks_succeeds_refuted_main :
  forall (A : Type) (N : Num A) (o : oracle A) mini c a c' v,
    (ma_refine a = false -> ma_robust a = false -> match_peaks o mini c a <> (c', Ok v)) /\
    (forall co k at_, input_coeff c a co -> c_kind c = Some k -> c_atlas c = Some at_ -> mv_peaks v <> MNone ->
       let near := fun p => filter (within (fun p => eval_kind k p co) (ma_tol a) p) (get_lines at_) in
       (exists p, In p (c_peaks c) /\ (2 <= List.length (near p))%nat) \/ (forall p, In p (c_peaks c) -> near p = []) ->
       match_peaks o mini c a <> (c', Ok v)) /\
    (forall l, ma_coeff a = MList l -> ma_refine a = true -> match_peaks o mini c a <> (c', Ok v)).
Proof.
  intros A N o mini c a c' v. split; [|split].
  - intros H1 H2 H. destruct (match_peaks_inv _ _ _ _ _ _ H) as (co & _ & _ & [(K & _)|(at_ & k & xs & cand & refined & _ & _ & Hr & _ & _ & Hs)]);
      [congruence|].
    destruct (match_store_Ok _ _ _ _ _ _ _ _ _ _ Hs) as (_ & _ & [K|K] & _); [congruence|].
    apply Hr in K. congruence.
  - intros co k at_ Hin Hk Ha Hv near Hn H.
    destruct (match_peaks_singles _ _ _ _ _ _ _ _ _ H Hv Hin Hk Ha) as (xs & ys & Hxs & Em & Exs).
    destruct Hn as [(p & Hp & Hl)|Hn].
    + assert (Hpx : In p xs).
      { rewrite Exs. apply filter_In. split; auto. apply existsb_exists.
        destruct (near p) as [|w r] eqn:En; [cbn in Hl; lia|]. exists w. apply filter_In. fold (near p). rewrite En. left; auto. }
      apply (in_map (near_lines (fun p => eval_kind k p co) (ma_tol a) (get_lines at_))) in Hpx.
      rewrite Em in Hpx. apply in_map_iff in Hpx. destruct Hpx as (y & Ey & _).
      change (near_lines _ _ _ p) with (near p) in Ey. rewrite <- Ey in Hl. cbn in Hl. lia.
    + destruct xs as [|p xs]; [contradiction|]. assert (Hp : In p (p :: xs)) by (left; auto).
      rewrite Exs in Hp. apply filter_In in Hp. destruct Hp as (Hp & Hw). apply Hn in Hp.
      apply existsb_exists in Hw. destruct Hw as (w & Hw1 & Hw2).
      assert (K : In w (near p)) by (apply filter_In; auto). rewrite Hp in K. destruct K.
  - intros l Hl Hr H. unfold match_peaks in H. rewrite Hl, Hr in H. cbn [mseq_vals refine_coeff bind] in H.
    destruct l; discriminate.
Qed.

(** Reachable cases of the failures, after the fit of the session: both flags off; two
    lines within the tolerance (4002 and a tolerance of 900); none; a list. *)
Example match_peaks_failures_example_main :
  snd (match_peaks o_ex no_mini c_fitted (ma_plain (fz 20) false false)) = Raise UnboundLocalError /\
  snd (match_peaks o_ex no_mini c_fitted (ma_plain (fz 900) false true)) = Raise TypeError /\
  snd (match_peaks o_ex no_mini c_fitted (ma_plain (fd 1 (-9)) false true)) = Raise TypeError /\
  snd (match_peaks o_ex no_mini c_fitted (mkMA (MList [fz 3000; fz 10]) None true (fz 20) (fd 5 (-1)) true None)) = Raise TypeError.
Proof. vm_compute. repeat split. Qed.

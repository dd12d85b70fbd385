(** * Main_RawPix: where plot_fit draws the peaks (C156). *)

From Coq Require Import ZArith Bool List String Lia Reals Lra Sorted Permutation.
From Verif Require Import Num F64 XReal Py Np NpFacts ArgsortFacts Util Models Atlas Hough PolyEval Calib SpecCalib Main_Calib Cand SpecCand CandFacts Ransac RansacFacts SampleFacts Main_Ransac Fit Main_Fit MatchPeaks SpecMatch MatchFacts Main_Match Plot RawPix RefineFacts RecoverFacts Main_Refine SpecRawPix.
Import ListNotations.
Local Open Scope num_scope.

Definition fins (q : R * R) : xr * xr := (Fin (fst q), Fin (snd q)).

Lemma count_below : forall (l : list R) j v,
  (forall i x, nth_error l i = Some x -> (i < j)%nat -> (x < v)%R) ->
  (forall x, nth_error l j = Some x -> (v <= x)%R) -> (j <= List.length l)%nat ->
  count_while (fun e : xr => e <' Fin v) (map Fin l) = j.
Proof.
  induction l as [|x l IH]; intros [|j] v H1 H2 L; cbn [map count_while]; cbn in L; try lia; auto.
  - change (Fin x <' Fin v) with (Rltb x v). destruct (Rltb_spec x v) as [H|H]; auto.
    specialize (H2 x eq_refl). lra.
  - change (Fin x <' Fin v) with (Rltb x v). destruct (Rltb_spec x v) as [H|H].
    + f_equal. apply IH; [|intros y Hy; apply H2; exact Hy|lia]. intros i y Hi Hl. apply (H1 (S i) y); [exact Hi|lia].
    + specialize (H1 0%nat x eq_refl (Nat.lt_0_succ j)). lra.
Qed.

(** The points sorted by pixel. *)
Lemma sorted_points (pxs : list R) : NoDup pxs ->
  exists L, sort_by fst (combine (map Fin pxs) (map (@nnat xr _) (seq 0 (List.length pxs)))) = map fins L /\
    StronglySorted Rlt (map fst L) /\ List.length L = List.length pxs /\
    (forall x y, In (x, y) L <-> exists i, nth_error pxs i = Some x /\ y = INR i).
Proof.
  intros Hnd. set (P := combine pxs (map INR (seq 0 (List.length pxs)))).
  assert (EP : combine (map Fin pxs) (map (@nnat xr _) (seq 0 (List.length pxs))) = map fins P).
  { unfold P. generalize (seq 0 (List.length pxs)). clear. induction pxs as [|x l IH]; intros [|n s]; auto.
    cbn [map combine]. rewrite IH, nnat_Fin. reflexivity. }
  assert (Hperm : Permutation (sort_by fst (map fins P)) (map fins P)) by apply sort_by_perm.
  apply Permutation_map_inv in Hperm. destruct Hperm as (L & EL & HL).
  assert (Lf : map fst P = pxs).
  { unfold P. assert (K : forall (a b : list R), List.length a = List.length b -> map fst (combine a b) = a).
    { induction a as [|u a IH]; intros [|w b]; cbn; intros E; try discriminate; auto. f_equal. apply IH. lia. }
    apply K. rewrite map_length, seq_length. reflexivity. }
  exists L. rewrite EP. split; [exact EL|].
  assert (Hp : Permutation (map fst L) pxs) by (rewrite <- Lf; apply Permutation_map, Permutation_sym, HL).
  split; [|split; [|]].
  - assert (Hs : StronglySorted (fun p q : xr * xr => fst p <=' fst q = true) (map fins L)).
    { rewrite <- EL. apply sort_by_sorted. intros q Hq. apply in_map_iff in Hq. destruct Hq as (u & <- & _). reflexivity. }
    assert (Hn : NoDup (map fst L)) by (eapply Permutation_NoDup; [apply Permutation_sym; exact Hp|exact Hnd]).
    clear - Hs Hn. induction L as [|q L IH]; cbn [map] in *; [constructor|].
    inversion Hs as [|? ? Hs' Hf]; inversion Hn as [|? ? Hi Hn']; subst. constructor; [apply IH; auto|].
    apply Forall_forall. intros x Hx. rewrite Forall_forall in Hf.
    apply in_map_iff in Hx. destruct Hx as (u & <- & Hu). specialize (Hf (fins u) (in_map fins _ _ Hu)).
    change (fst (fins q) <=' fst (fins u)) with (Rleb (fst q) (fst u)) in Hf.
    destruct (Rleb_spec (fst q) (fst u)) as [K|K]; [|discriminate].
    destruct (Req_dec (fst q) (fst u)) as [E|E]; [|lra]. exfalso. apply Hi. rewrite E. apply in_map; exact Hu.
  - rewrite <- (map_length fst), (Permutation_length Hp). reflexivity.
  - intros x y. assert (Hi : In (x, y) L <-> In (x, y) P) by (split; apply Permutation_in; [apply Permutation_sym|]; exact HL).
    rewrite Hi. unfold P. clear.
    assert (K : forall (l : list R) n, In (x, y) (combine l (map INR (seq n (List.length l)))) <->
      exists i, nth_error l i = Some x /\ y = INR (n + i)).
    { induction l as [|a l IH]; intros n; cbn [List.length seq map combine].
      - split; [intros []|intros (i & H & _); destruct i; discriminate].
      - cbn [In]. rewrite IH. split.
        + intros [E|(i & H1 & H2)]; [injection E as -> <-; exists 0%nat; split; [reflexivity|rewrite Nat.add_0_r; reflexivity]|].
          exists (S i). split; [exact H1|]. rewrite H2. f_equal. lia.
        + intros ([|i] & H1 & H2); cbn in H1.
          * injection H1 as ->. left. rewrite H2, Nat.add_0_r. reflexivity.
          * right. exists i. split; [exact H1|]. rewrite H2. f_equal. lia. }
    apply (K pxs 0%nat).
Qed.

Lemma SS_nth_lt (l : list R) : StronglySorted Rlt l -> forall i j x y,
  nth_error l i = Some x -> nth_error l j = Some y -> (i < j)%nat -> (x < y)%R.
Proof.
  induction 1 as [|a l Hs IH Hf]; intros [|i] [|j] x y Hi Hj L; cbn in *; try discriminate; try lia.
  - injection Hi as <-. rewrite Forall_forall in Hf. apply Hf. eapply nth_error_In; exact Hj.
  - apply (IH i j x y); auto. lia.
Qed.

Lemma interp_fins (L : list (R * R)) k v :
  (2 <= List.length L)%nat -> StronglySorted Rlt (map fst L) -> (k <= List.length L)%nat ->
  (forall i x, nth_error (map fst L) i = Some x -> (i < k)%nat -> (x < v)%R) ->
  (forall x, nth_error (map fst L) k = Some x -> (v <= x)%R) ->
  exists xl yl xh yh, nth_error L (Nat.min (Nat.max 1 k) (List.length L - 1) - 1) = Some (xl, yl) /\
    nth_error L (Nat.min (Nat.max 1 k) (List.length L - 1)) = Some (xh, yh) /\ (xl < xh)%R /\
    interp_sorted (map fins L) (Fin v) = Some (Fin ((yh - yl) / (xh - xl) * (v - xl) + yl)%R).
Proof.
  intros Hl Hs Hk H1 H2. unfold interp_sorted. rewrite map_length.
  assert (Ec : searchsorted_left (map fst (map fins L)) (Fin v) = k).
  { unfold searchsorted_left. replace (map fst (map fins L)) with (map Fin (map fst L)) by (rewrite !map_map; reflexivity).
    apply count_below; auto. rewrite map_length. exact Hk. }
  rewrite Ec. set (m := Nat.min (Nat.max 1 k) (List.length L - 1)).
  assert (Hm : (1 <= m < List.length L)%nat) by lia.
  destruct (nth_error L (m - 1)) as [[xl yl]|] eqn:El; [|apply nth_error_None in El; lia].
  destruct (nth_error L m) as [[xh yh]|] eqn:Eh; [|apply nth_error_None in Eh; lia].
  assert (Hlt : (xl < xh)%R).
  { apply (SS_nth_lt _ Hs (m - 1) m); [rewrite nth_error_map, El; reflexivity|rewrite nth_error_map, Eh; reflexivity|lia]. }
  exists xl, yl, xh, yh. split; [reflexivity|]. split; [reflexivity|]. split; [exact Hlt|].
  rewrite !nth_error_map, El, Eh. cbn [option_map fins fst snd].
  change (Fin yh -' Fin yl) with (Fin (yh - yl)%R). change (Fin xh -' Fin xl) with (Fin (xh - xl)%R).
  change (Fin v -' Fin xl) with (Fin (v - xl)%R).
  change (Fin (yh - yl) /' Fin (xh - xl)) with (xdiv (Fin (yh - yl)) (Fin (xh - xl))). cbn [xdiv].
  destruct (Reqb_spec (xh - xl) 0) as [E|_]; [lra|]. reflexivity.
Qed.

Lemma raw_points (pxs : list R) v L : (2 <= List.length pxs)%nat ->
  sort_by fst (combine (map Fin pxs) (map (@nnat xr _) (seq 0 (List.length pxs)))) = map fins L ->
  pix_to_rawpix (map Fin pxs) (Fin v) = match interp_sorted (map fins L) (Fin v) with Some v => Ok v | None => Raise IndexError end.
Proof.
  intros Hl E. unfold pix_to_rawpix. destruct pxs as [|a [|b l]]; try (cbn in Hl; lia).
  cbn [map]. rewrite <- E. change (Fin a :: Fin b :: map Fin l) with (map Fin (a :: b :: l)). rewrite map_length. reflexivity.
Qed.

(** The position of a pixel of the list. *)
Lemma raw_on_pixel pxs i p : NoDup pxs -> (2 <= List.length pxs)%nat -> nth_error pxs i = Some p ->
  pix_to_rawpix (map Fin pxs) (Fin p) = Ok (Fin (INR i)).
Proof.
  intros Hnd Hl Hi. destruct (sorted_points pxs Hnd) as (L & EL & Hs & Hlen & HIn).
  rewrite (raw_points _ _ _ Hl EL).
  assert (Hin : In (p, INR i) L) by (apply HIn; eauto).
  destruct (In_nth_error _ _ Hin) as (j & Hj).
  assert (Hj' : nth_error (map fst L) j = Some p) by (rewrite nth_error_map, Hj; reflexivity).
  assert (Hjl : (j < List.length L)%nat) by (apply nth_error_Some; congruence).
  destruct (interp_fins L j p) as (xl & yl & xh & yh & El & Eh & Hlt & ->); [lia|exact Hs|lia| | |].
  { intros a x Ha Hlt. apply (SS_nth_lt _ Hs a j); auto. }
  { intros x Hx. rewrite Hj' in Hx. injection Hx as <-. lra. }
  f_equal. f_equal. destruct j as [|j].
  - replace (Nat.min (Nat.max 1 0) (List.length L - 1) - 1)%nat with 0%nat in El by lia. rewrite Hj in El. injection El as <- <-.
    replace (p - p)%R with 0%R by ring. ring.
  - replace (Nat.min (Nat.max 1 (S j)) (List.length L - 1))%nat with (S j) in Eh by lia. rewrite Hj in Eh. injection Eh as <- <-.
    field. lra.
Qed.

Lemma sorted_is_itself (pxs : list R) L : StronglySorted Rlt pxs -> StronglySorted Rlt (map fst L) ->
  List.length L = List.length pxs ->
  (forall x y, In (x, y) L <-> exists i, nth_error pxs i = Some x /\ y = INR i) ->
  L = combine pxs (map INR (seq 0 (List.length pxs))).
Proof.
  intros H1 H2 Hl HIn.
  assert (E : map fst L = pxs).
  { apply (SS_Rlt_unique); auto. intros x. split.
    - intros H. apply in_map_iff in H. destruct H as ([a b] & <- & H). apply HIn in H. destruct H as (i & H & _). eapply nth_error_In; exact H.
    - intros H. apply In_nth_error in H. destruct H as (i & H). apply (in_map fst L (x, INR i)). apply HIn. eauto. }
  apply nth_ext with (d := (0%R, 0%R)) (d' := (0%R, 0%R)).
  - rewrite combine_length, map_length, seq_length. lia.
  - intros i Hi. destruct (nth_error L i) as [[x y]|] eqn:Ei; [|apply nth_error_None in Ei; lia].
    assert (Ex : nth_error pxs i = Some x) by (rewrite <- E, nth_error_map, Ei; reflexivity).
    rewrite (nth_error_nth _ _ _ Ei). rewrite combine_nth by (rewrite map_length, seq_length; reflexivity).
    apply nth_error_In in Ei. apply HIn in Ei. destruct Ei as (j & Hj & ->).
    assert (j = i).
    { destruct (Nat.lt_trichotomy i j) as [H|[H|H]]; auto; exfalso.
      - pose proof (SS_nth_lt _ H1 _ _ _ _ Ex Hj H). lra.
      - pose proof (SS_nth_lt _ H1 _ _ _ _ Hj Ex H). lra. }
    subst j. rewrite (nth_error_nth _ _ _ Ex). f_equal.
    change 0%R with (INR 0). rewrite map_nth. rewrite seq_nth by lia. reflexivity.
Qed.

(** The position of anything on an increasing list of pixels: linear between the two
    pixels around it, and beyond the ends. *)
Lemma raw_increasing pxs k v x1 x2 : StronglySorted Rlt pxs ->
  nth_error pxs k = Some x1 -> nth_error pxs (S k) = Some x2 ->
  (x1 <= v \/ k = 0%nat)%R -> (v < x2 \/ S (S k) = List.length pxs)%R ->
  pix_to_rawpix (map Fin pxs) (Fin v) = Ok (Fin (INR k + (v - x1) / (x2 - x1))%R).
Proof.
  intros Hs H1 H2 Hlo Hhi.
  assert (Hnd : NoDup pxs).
  { clear -Hs. induction Hs as [|a l Hs IH Hf]; constructor; auto. intros H. rewrite Forall_forall in Hf. specialize (Hf _ H). lra. }
  assert (Hk : (S k < List.length pxs)%nat) by (apply nth_error_Some; congruence).
  assert (H12 : (x1 < x2)%R) by (apply (SS_nth_lt _ Hs k (S k)); auto).
  destruct (Req_dec v x1) as [->|Hne].
  { rewrite (raw_on_pixel pxs k x1) by (auto; lia). f_equal. f_equal. replace (x1 - x1)%R with 0%R by ring. unfold Rdiv. ring. }
  destruct (sorted_points pxs Hnd) as (L & EL & HsL & Hlen & HIn).
  pose proof (sorted_is_itself pxs L Hs HsL Hlen HIn) as E.
  assert (Ef : map fst L = pxs).
  { apply SS_Rlt_unique; auto. intros x. split.
    - intros H. apply in_map_iff in H. destruct H as ([a b] & <- & H). apply HIn in H. destruct H as (i & H & _). eapply nth_error_In; exact H.
    - intros H. apply In_nth_error in H. destruct H as (i & H). apply (in_map fst L (x, INR i)). apply HIn. eauto. }
  assert (Hn : forall i x, nth_error pxs i = Some x -> nth_error L i = Some (x, INR i)).
  { intros i x Hi. assert (Hi' : nth_error (map fst L) i = Some x) by (rewrite Ef; exact Hi).
    rewrite nth_error_map in Hi'. destruct (nth_error L i) as [[a b]|] eqn:Ei; [|discriminate]. cbn in Hi'. injection Hi' as ->.
    f_equal. f_equal. pose proof Ei as Ei'. apply nth_error_In in Ei'. apply HIn in Ei'. destruct Ei' as (j & Hj & ->).
    f_equal. destruct (Nat.lt_trichotomy i j) as [H|[H|H]]; auto; exfalso.
    - pose proof (SS_nth_lt _ Hs _ _ _ _ Hi Hj H). lra.
    - pose proof (SS_nth_lt _ Hs _ _ _ _ Hj Hi H). lra. }
  assert (Hl2 : (2 <= List.length pxs)%nat) by lia.
  rewrite (raw_points _ _ _ Hl2 EL).
  (* the number of pixels below v *)
  set (c := if Rlt_dec v x1 then 0%nat else if Rle_dec v x2 then S k else S (S k)).
  assert (Hc : (c <= List.length L)%nat).
  { unfold c. destruct (Rlt_dec v x1); [lia|]. destruct (Rle_dec v x2); [lia|]. rewrite Hlen. lia. }
  destruct (interp_fins L c v) as (xl & yl & xh & yh & El & Eh & Hlt & ->); [lia|rewrite Ef; exact Hs|exact Hc| | |].
  { rewrite Ef. intros i x Hi Hic. unfold c in Hic. destruct (Rlt_dec v x1) as [G|G]; [lia|]. destruct (Rle_dec v x2) as [G2|G2].
    - assert (x <= x1)%R; [|lra]. destruct (Nat.eq_dec i k) as [->|Nk]; [rewrite H1 in Hi; injection Hi as ->; lra|].
      left. apply (SS_nth_lt _ Hs i k); auto. lia.
    - assert (x <= x2)%R; [|lra]. destruct (Nat.eq_dec i (S k)) as [->|Nk]; [rewrite H2 in Hi; injection Hi as ->; lra|].
      left. apply (SS_nth_lt _ Hs i (S k)); auto. lia. }
  { rewrite Ef. intros x Hx. unfold c in Hx. destruct (Rlt_dec v x1) as [G|G].
    - destruct Hlo as [Hlo| ->]; [lra|]. rewrite H1 in Hx. injection Hx as ->. lra.
    - destruct (Rle_dec v x2) as [G2|G2]; [rewrite H2 in Hx; injection Hx as ->; lra|].
      exfalso. destruct Hhi as [Hhi|Hhi]; [lra|]. assert (S (S k) < List.length pxs)%nat by (apply nth_error_Some; congruence). lia. }
  assert (Em : (Nat.min (Nat.max 1 c) (List.length L - 1) = S k)%nat).
  { unfold c. destruct (Rlt_dec v x1) as [G|G]; [destruct Hlo as [Hlo| ->]; [lra|lia]|]. destruct (Rle_dec v x2) as [G2|G2]; [lia|].
    destruct Hhi as [Hhi|Hhi]; [lra|lia]. }
  rewrite Em in El, Eh. replace (S k - 1)%nat with k in El by lia.
  rewrite (Hn _ _ H1) in El. rewrite (Hn _ _ H2) in Eh.
  assert (xl = x1) by congruence. assert (yl = INR k) by congruence. assert (xh = x2) by congruence. assert (yh = INR (S k)) by congruence. subst xl yl xh yh.
  f_equal. f_equal. rewrite S_INR. field. lra.
Qed.

Lemma trunc_range r z : (IZR z <= r < IZR z + 1)%R -> (0 <= z)%Z -> ntrunc (Fin r) = Some z.
Proof.
  intros H Hz. apply IZR_le in Hz. change (xtrunc (Fin r) = Some z). unfold xtrunc. destruct (Rltb_spec r 0); [lra|]. f_equal.
  destruct (base_Int_part r) as [G1 G2]. assert (E : (IZR (Int_part r) < IZR z + 1)%R) by lra. assert (E2 : (IZR z < IZR (Int_part r) + 1)%R) by lra.
  rewrite <- plus_IZR in E, E2. apply lt_IZR in E. apply lt_IZR in E2. lia.
Qed.

Lemma trunc_range_neg r z : (IZR z - 1 < r <= IZR z)%R -> (z < 0)%Z -> ntrunc (Fin r) = Some z.
Proof.
  intros H Hz. apply IZR_lt in Hz. change (xtrunc (Fin r) = Some z). unfold xtrunc. destruct (Rltb_spec r 0); [|lra]. f_equal.
  destruct (base_Int_part (- r)) as [G1 G2]. set (q := Int_part (- r)) in *.
  assert (E : (IZR (- q) < IZR z + 1)%R) by (rewrite opp_IZR; lra). assert (E2 : (IZR z < IZR (- q) + 1)%R) by (rewrite opp_IZR; lra).
  rewrite <- plus_IZR in E, E2. apply lt_IZR in E. apply lt_IZR in E2. lia.
Qed.

Lemma py_index_nat {T} (l : list T) i v : nth_error l i = Some v -> py_index l (Z.of_nat i) = Ok v.
Proof.
  intros H. unfold py_index. replace (Z.of_nat i <? 0)%Z with false by (symmetry; apply Z.ltb_ge; lia). cbv zeta.
  replace (Z.of_nat i <? 0)%Z with false by (symmetry; apply Z.ltb_ge; lia). rewrite Nat2Z.id, H. reflexivity.
Qed.

Lemma marks_are_marked : forall k (pxs : list R) (co sp ps : list xr) marks,
    peak_marks k (map Fin pxs) co sp ps = Ok marks -> Forall2 (marked k pxs co sp) ps marks.
Proof.
  intros k pxs co sp ps. induction ps as [|p ps IH]; intros marks H; cbn [peak_marks] in H.
  - injection H as <-. constructor.
  - apply bind_Ok in H. destruct H as (x & Hx & H). apply bind_Ok in H. destruct H as (y & Hy & H).
    apply bind_Ok in H. destruct H as (rest & Hr & H). injection H as <-. constructor; [|apply IH; exact Hr].
    unfold marked. cbn [fst snd]. split; [exact Hx|]. intros r i v -> Hpos Hv. unfold peak_height in Hy.
    assert (G : exists z, pix_to_rawpix (map Fin pxs) (Fin r) = Ok (Fin z) /\ (INR i <= z < INR i + 1)%R).
    { destruct Hpos as [(Hnd & Hl & Hi)|(Hs & x1 & x2 & H1 & H2 & H3)].
      - exists (INR i). split; [apply raw_on_pixel; auto|lra].
      - eexists. split; [apply (raw_increasing pxs i r x1 x2); auto; left; lra|].
        assert (0 <= (r - x1) / (x2 - x1) < 1)%R; [|lra]. split.
        + apply Rmult_le_pos; [lra|]. left. apply Rinv_0_lt_compat. lra.
        + apply (Rmult_lt_reg_r (x2 - x1)); [lra|]. unfold Rdiv. rewrite Rmult_assoc, Rinv_l by lra. lra. }
    destruct G as (z & Ez & Hz). rewrite Ez in Hy. cbn [bind] in Hy. rewrite INR_IZR_INZ in Hz.
    rewrite (trunc_range z (Z.of_nat i)) in Hy by (auto; lia). rewrite (py_index_nat _ _ _ Hv) in Hy. congruence.
Qed.

(** C156, what holds: over exact reals every mark is at the wavelength the solution gives
    the peak, and at the height of the sample of its pixel, whatever the pixels are numbered
    and in whatever order they are listed; for pixels in increasing order also if the peak
    is between a pixel and the next.  With matplotlib the detected peaks and the matched
    peaks have marks, with plotly the peaks with a line of the atlas within tolerance. *)
Lemma peak_marks_partial_main :
  forall lib (c : calib xr) co tol sp pxs d f,
    plot_fit_marks lib c co tol sp = Ok (d, f) -> g_pixels (c_gp c) = Some (map Fin pxs) ->
    match lib with
    | Matplotlib => Forall2 (marked (c_kind c) pxs co sp) (c_peaks c) d /\
                    Forall2 (marked (c_kind c) pxs co sp) (mseq_vals (c_mpeaks c)) f
    | Plotly => d = [] /\
        exists ps, Forall2 (marked (c_kind c) pxs co sp) ps f /\
          forall k at_, c_kind c = Some k -> c_atlas c = Some at_ -> get_lines at_ <> [] -> co <> [] -> no_nan (get_lines at_) ->
            ps = filter (fun p => existsb (within (fun p => eval_kind k p co) tol p) (get_lines at_)) (c_peaks c)
    end.
Proof.
  intros lib c co tol sp pxs d f H Hp. unfold plot_fit_marks in H. rewrite Hp in H.
  destruct (c_atlas c) as [at_|] eqn:Ha; [|discriminate]. destruct lib.
  - apply bind_Ok in H. destruct H as (d' & Hd & H).
    assert (H' : bind (peak_marks (c_kind c) (map Fin pxs) co sp (mseq_vals (c_mpeaks c))) (fun f => Ok (d', f)) = Ok (d, f))
      by (destruct (c_mpeaks c); [exact H|exact H|discriminate]).
    apply bind_Ok in H'. destruct H' as (f' & Hf & H'). injection H' as <- <-. split; apply marks_are_marked; auto.
  - apply bind_Ok in H. destruct H as (m & Hm & H). apply bind_Ok in H. destruct H as (f' & Hf & H). injection H as <- <-.
    split; [reflexivity|]. exists (map fst m). split; [apply marks_are_marked; exact Hf|].
    intros k at' Hk Ea Hne Hco Hnn. injection Ea as <-. rewrite Hk in Hm.
    destruct (nearest_lines_spec k (get_lines at_) co tol Hne Hco (c_peaks c)) as (m' & Hm' & _ & Hfil).
    assert (m' = m) by congruence. subst m'. apply Hfil. exact Hnn.
Qed.

(** C156, when every mark can be drawn: if each peak lies on the increasing list of pixels
    (not beyond the last one) and the spectrum has a sample for each, all are. *)
Lemma peak_marks_drawn_partial_main :
  forall k (pxs : list R) (co sp : list xr) (rs : list R) first last,
    StronglySorted Rlt pxs -> (2 <= List.length pxs)%nat -> List.length sp = List.length pxs ->
    nth_error pxs 0 = Some first -> nth_error pxs (List.length pxs - 1) = Some last ->
    (forall r, In r rs -> (first <= r <= last)%R) -> (exists f, k = Some f) -> co <> [] ->
    exists marks, peak_marks k (map Fin pxs) co sp (map Fin rs) = Ok marks /\ List.length marks = List.length rs.
Proof.
  intros k pxs co sp rs first last Hs Hl Hsp Hf Hla Hr (f & ->) Hco.
  induction rs as [|r rs IH]; [exists []; split; reflexivity|].
  destruct IH as (marks & IH & Lm); [intros q Hq; apply Hr; right; exact Hq|].
  cbn [map peak_marks].
  assert (Hx : exists x, polyval_of (Some f) (Fin r) co = Ok x).
  { unfold polyval_of. destruct f, co; try contradiction; eexists; reflexivity. }
  destruct Hx as (x & ->). cbn [bind].
  assert (Hy : exists y, peak_height (map Fin pxs) sp (Fin r) = Ok y).
  { specialize (Hr r (or_introl eq_refl)). unfold peak_height.
    assert (G : exists i x1, nth_error pxs i = Some x1 /\ (x1 = r \/ exists x2, nth_error pxs (S i) = Some x2 /\ (x1 <= r < x2)%R)).
    { clear - Hl Hf Hla Hr. assert (K : forall n m a b, nth_error pxs n = Some a -> nth_error pxs (n + m) = Some b -> (a <= r <= b)%R ->
        exists i x1, nth_error pxs i = Some x1 /\ (x1 = r \/ exists x2, nth_error pxs (S i) = Some x2 /\ (x1 <= r < x2)%R)).
      { intros n m. revert n. induction m as [|m IH]; intros n a b Ha Hb Hab.
        - rewrite Nat.add_0_r in Hb. rewrite Ha in Hb. injection Hb as <-. exists n, a. split; [exact Ha|left; lra].
        - destruct (nth_error pxs (S n)) as [c|] eqn:Ec.
          + destruct (Rle_dec c r) as [G|G].
            * apply (IH (S n) c b); auto; [|lra]. replace (S n + m)%nat with (n + S m)%nat by lia. exact Hb.
            * exists n, a. split; [exact Ha|]. right. exists c. split; [exact Ec|lra].
          + apply nth_error_None in Ec. assert (n + S m < List.length pxs)%nat by (apply nth_error_Some; congruence). lia. }
      apply (K 0%nat (List.length pxs - 1)%nat first last); auto. }
    destruct G as (i & x1 & Hi & G). assert (Hil : (i < List.length pxs)%nat) by (apply nth_error_Some; congruence).
    destruct (nth_error sp i) as [v|] eqn:Ev; [|apply nth_error_None in Ev; lia].
    assert (G2 : exists z, pix_to_rawpix (map Fin pxs) (Fin r) = Ok (Fin z) /\ (INR i <= z < INR i + 1)%R).
    { destruct G as [->|(x2 & H2 & H3)].
      - exists (INR i). split; [|lra]. apply raw_on_pixel; auto.
        clear -Hs. induction Hs as [|a l Hs IH Hf]; constructor; auto. intros H. rewrite Forall_forall in Hf. specialize (Hf _ H). lra.
      - eexists. split; [apply (raw_increasing pxs i r x1 x2); auto; left; lra|].
        assert (0 <= (r - x1) / (x2 - x1) < 1)%R; [|lra]. split.
        + apply Rmult_le_pos; [lra|]. left. apply Rinv_0_lt_compat. lra.
        + apply (Rmult_lt_reg_r (x2 - x1)); [lra|]. unfold Rdiv. rewrite Rmult_assoc, Rinv_l by lra. lra. }
    destruct G2 as (z & -> & Hz). cbn [bind]. rewrite INR_IZR_INZ in Hz.
    rewrite (trunc_range z (Z.of_nat i)) by (auto; lia). rewrite (py_index_nat _ _ _ Ev). eexists; reflexivity. }
  destruct Hy as (y & ->). cbn [bind]. rewrite IH. cbn [bind]. eexists. split; [reflexivity|]. cbn. rewrite Lm. reflexivity.
Qed.

(** C156 fails for peaks off the detector: one step or more beyond the last pixel nothing
    is drawn at all (IndexError), and before the first pixel the height is that of a sample
    counted from the other end of the spectrum. *)
Lemma peak_marks_refuted_main :
  (forall k (pxs : list R) (co sp ps : list xr) marks i x1 x2 r,
     StronglySorted Rlt pxs -> nth_error pxs i = Some x1 -> nth_error pxs (S i) = Some x2 -> S (S i) = List.length pxs ->
     (List.length sp <= List.length pxs)%nat -> (x2 + (x2 - x1) <= r)%R -> In (Fin r) ps ->
     peak_marks k (map Fin pxs) co sp ps <> Ok marks) /\
  (forall (pxs : list R) (sp : list xr) x0 x1 r j v,
     StronglySorted Rlt pxs -> nth_error pxs 0 = Some x0 -> nth_error pxs 1 = Some x1 -> (1 <= j <= List.length sp)%nat ->
     (x0 - (INR j + 1) * (x1 - x0) < r <= x0 - INR j * (x1 - x0))%R ->
     nth_error sp (List.length sp - j) = Some v ->
     peak_height (map Fin pxs) sp (Fin r) = Ok v).
Proof.
  split.
  - intros k pxs co sp ps marks i x1 x2 r Hs H1 H2 Hl Hsp Hr Hin.
    assert (Hx : (x1 < x2)%R) by (apply (SS_nth_lt _ Hs i (S i)); auto).
    assert (Hh : peak_height (map Fin pxs) sp (Fin r) = Raise IndexError).
    { unfold peak_height. rewrite (raw_increasing pxs i r x1 x2) by (auto; left; lra). cbn [bind].
      set (z := (INR i + (r - x1) / (x2 - x1))%R).
      assert (Hz : (INR i + 2 <= z)%R).
      { unfold z. assert (2 <= (r - x1) / (x2 - x1))%R; [|lra]. apply (Rmult_le_reg_r (x2 - x1)); [lra|].
        unfold Rdiv. rewrite Rmult_assoc, Rinv_l by lra. lra. }
      destruct (base_Int_part z) as [G1 G2]. pose proof (pos_INR i).
      assert (Hq : (Z.of_nat i + 2 <= Int_part z)%Z).
      { assert (IZR (Z.of_nat i + 1) < IZR (Int_part z))%R by (rewrite plus_IZR, <- INR_IZR_INZ; lra). apply lt_IZR in H0. lia. }
      rewrite (trunc_range z (Int_part z)) by (first [lra|lia]). unfold py_index.
      replace (Int_part z <? 0)%Z with false by (symmetry; apply Z.ltb_ge; lia). cbv zeta.
      replace (Int_part z <? 0)%Z with false by (symmetry; apply Z.ltb_ge; lia).
      replace (nth_error sp (Z.to_nat (Int_part z))) with (@None xr) by (symmetry; apply nth_error_None; lia). reflexivity. }
    revert marks. induction ps as [|p ps IH]; intros marks H; [destruct Hin|]. cbn [peak_marks] in H.
    apply bind_Ok in H. destruct H as (x & _ & H). apply bind_Ok in H. destruct H as (y & Hy & H).
    apply bind_Ok in H. destruct H as (rest & Hrest & _). destruct Hin as [->|Hin]; [congruence|]. exact (IH Hin rest Hrest).
  - intros pxs sp x0 x1 r j v Hs H0 H1 Hj Hr Hv.
    assert (Hx : (x0 < x1)%R) by (apply (SS_nth_lt _ Hs 0 1); auto).
    unfold peak_height. rewrite (raw_increasing pxs 0 r x0 x1); auto; [|left; pose proof (le_INR 1 j ltac:(lia)) as G; cbn in G; nra].
    cbn [bind]. replace (INR 0) with 0%R by reflexivity. set (z := (0 + (r - x0) / (x1 - x0))%R).
    assert (Hz : (- INR j - 1 < z <= - INR j)%R).
    { unfold z. rewrite Rplus_0_l. split.
      - apply (Rmult_lt_reg_r (x1 - x0)); [lra|]. unfold Rdiv. rewrite Rmult_assoc, Rinv_l by lra. lra.
      - apply (Rmult_le_reg_r (x1 - x0)); [lra|]. unfold Rdiv. rewrite Rmult_assoc, Rinv_l by lra. lra. }
    rewrite INR_IZR_INZ, <- opp_IZR in Hz.
    rewrite (trunc_range_neg z (- Z.of_nat j)) by (auto; lia). unfold py_index.
    replace (- Z.of_nat j <? 0)%Z with true by (symmetry; apply Z.ltb_lt; lia). cbv zeta.
    replace (Z.of_nat (List.length sp) + - Z.of_nat j <? 0)%Z with false by (symmetry; apply Z.ltb_ge; lia).
    replace (Z.to_nat (Z.of_nat (List.length sp) + - Z.of_nat j)) with (List.length sp - j)%nat by lia. rewrite Hv. reflexivity.
Qed.

(** C156 fails in binary64: with pixels numbered in steps of 49 the peak at pixel 49 is
    drawn at the height of pixel 0. *)
Lemma peak_rounding_refuted_main :
  let px := [fz 0; fz 49; fz 98; fz 147] in
  let sp := [fz 5; fz 900; fz 7; fz 8] in
  nth_error px 1 = Some (fz 49) /\ nth_error sp 1 = Some (fz 900) /\
  peak_height px sp (fz 49) = Ok (fz 5).
Proof. vm_compute. repeat split; reflexivity. Qed.

(** The hypotheses of C156 are met: pixels listed backwards, and pixels in steps of two. *)
Example peak_marks_example_main :
  peak_marks (Some FitPoly) [fz 3; fz 2; fz 1; fz 0] [fz 3000; fz 10] [fz 30; fz 20; fz 10; fz 0] [fz 1; fz 3; fd 5 (-1)]
    = Ok [(fz 3010, fz 10); (fz 3030, fz 30); (fz 3005, fz 10)] /\
  peak_marks (Some FitPoly) [fz 0; fz 2; fz 4; fz 6] [fz 3000; fz 10] [fz 5; fz 900; fz 7; fz 8] [fz 2; fd 35 (-1); fz 6; fz 7]
    = Ok [(fz 3020, fz 900); (fz 3035, fz 900); (fz 3060, fz 8); (fz 3070, fz 8)] /\
  peak_height [fz 0; fz 2; fz 4; fz 6] [fz 5; fz 900; fz 7; fz 8] (fz 8) = Raise IndexError /\
  peak_height [fz 0; fz 2; fz 4; fz 6] [fz 5; fz 900; fz 7; fz 8] (fz (-3)) = Ok (fz 8).
Proof. vm_compute. repeat split; reflexivity. Qed.

(** A whole call: the fitted session of C59 on 550 pixels, with a spectrum that counts
    them. *)
Example plot_fit_marks_example_main :
  let c := set_c_gp (mkG (Some (fz 550)) (Some (map nnat (seq 0 550))) None true false) c_fitted in
  match plot_fit_marks Matplotlib c [fz 3000; fz 10] (fz 20) (map nnat (seq 0 550)),
        plot_fit_marks Plotly c [fz 3000; fz 10] (fz 20) (map nnat (seq 0 550)) return Prop with
  | Ok (d, f), Ok ([], g) =>
      d = [(fz 4000, fz 100); (fz 4900, fz 190); (fz 6100, fz 310); (fz 7300, fz 430); (fz 8000, fz 500)] /\ f = d /\ g = d
  | _, _ => False
  end.
Proof. vm_compute. repeat split; reflexivity. Qed.

(** * MatchFacts: lemmas about match_peaks and the editing functions. *)

From Coq Require Import ZArith Bool List Lia Permutation.
From Verif Require Import Num Py Np NpFacts Util Models Atlas Hough PolyEval Calib Cand Ransac RansacFacts MatchPeaks SpecMatch.
Import ListNotations.
Local Open Scope num_scope.

Section Facts.
  Context {A : Type} {N : Num A}.

  Lemma polyvals_map k xs co : co <> [] -> polyvals_of (Some k) xs co = Ok (map (fun p => eval_kind k p co) xs).
  Proof.
    intros H. induction xs as [|x r IH]; auto. cbn [polyvals_of]. rewrite IH.
    destruct co; [contradiction|]. reflexivity.
  Qed.

  Lemma polyvals_Ok k xs co vs : polyvals_of k xs co = Ok vs ->
    exists k', k = Some k' /\ vs = map (fun p => eval_kind k' p co) xs.
  Proof.
    destruct k as [k|].
    - destruct co as [|a co].
      + destruct xs; cbn; [intros E; injection E as <-; exists k; auto|discriminate].
      + rewrite polyvals_map by discriminate. intros E; injection E as <-. exists k; auto.
    - destruct xs; discriminate.
  Qed.

  (** The lines near a peak. *)
  Definition near_lines (f : A -> A) (tol : A) (lines : list A) (p : A) : list A := filter (within f tol p) lines.

  Lemma lines_within_spec k lines co tol peaks m : co <> [] ->
    lines_within k lines co tol peaks = Ok m ->
    (peaks = [] /\ m = []) \/
    exists k', k = Some k' /\
      m = map (fun p => (p, near_lines (fun p => eval_kind k' p co) tol lines p))
            (filter (fun p => existsb (within (fun p => eval_kind k' p co) tol p) lines) peaks).
  Proof.
    intros Hco. destruct k as [k|].
    - intros H. right. exists k. split; auto. revert m H. induction peaks as [|p r IH]; intros m H; [injection H as <-; auto|].
      cbn [lines_within] in H. unfold polyval_of in H. destruct co as [|a co]; [contradiction|].
      cbn [bind] in H. apply bind_Ok in H. destruct H as (rest & Hr & H). specialize (IH _ Hr). subst rest.
      cbn [filter].
      assert (E : filter (fun l => nabs (l -' eval_kind k p (a :: co)) <' tol) lines =
                  near_lines (fun p => eval_kind k p (a :: co)) tol lines p) by reflexivity.
      rewrite E in H.
      assert (X : existsb (within (fun p => eval_kind k p (a :: co)) tol p) lines =
                  match near_lines (fun p => eval_kind k p (a :: co)) tol lines p with [] => false | _ => true end).
      { unfold near_lines. clear. induction lines as [|w ls IH]; auto. cbn. destruct (within _ tol p w); auto. }
      rewrite X. destruct (near_lines _ tol lines p) eqn:En; injection H as <-; auto.
      cbn [map]. rewrite En. reflexivity.
    - destruct peaks as [|p r]; cbn; [intros E; injection E as <-; auto|discriminate].
  Qed.

  Lemma candidate_of_spec ms : forall cand r, (forall m, In m ms -> m <> []) -> candidate_of ms cand = Ok r ->
    (length r <= length cand + length ms)%nat /\
    (length r = (length cand + length ms)%nat -> exists ys, r = cand ++ ys /\ ms = map (fun y => [y]) ys).
  Proof.
    induction ms as [|m ms IH]; intros cand r Hne H.
    - injection H as <-. cbn. split; [lia|]. intros _. exists []. rewrite app_nil_r. auto.
    - assert (Hne' : forall m, In m ms -> m <> []) by (intros q Hq; apply Hne; right; auto).
      destruct m as [|l m]; [exfalso; apply (Hne []); [left|]; auto|].
      destruct m as [|l' m].
      + cbn [candidate_of] in H. destruct (IH _ _ Hne' H) as (H1 & H2). rewrite app_length in H1, H2.
        cbn [length] in *. split; [lia|]. intros E. destruct H2 as (ys & -> & ->); [lia|].
        exists (l :: ys). rewrite <- app_assoc. auto.
      + cbn [candidate_of] in H. destruct (forallb _ _); [|discriminate].
        destruct (IH _ _ Hne' H) as (H1 & H2). cbn [length]. split; lia.
  Qed.

  (** Successful match_store. *)
  Lemma match_store_Ok o c deg robust refined xs cand natlas c' v :
    match_store o c deg robust refined xs cand natlas = (c', Ok v) ->
    xs <> [] /\ length xs = length cand /\ (robust = true \/ refined <> None) /\
    c_mpeaks c' = MArr xs /\ c_matlas c' = MArr cand /\ mv_peaks v = MArr xs /\ mv_atlas v = MArr cand /\
    (exists r, mv_resid v = Some r /\ length r = length xs /\ c_residuals c' = Some r /\
               mv_rms v = Some (nan_rms r) /\ c_rms c' = Some (nan_rms r)) /\
    c_peaks c <> [] /\ natlas <> 0%nat /\
    mv_putil v = Some (nnat (length xs) /' nnat (length (c_peaks c))) /\
    mv_autil v = Some (nnat (length cand) /' nnat natlas) /\
    c_putil c' = mv_putil v /\ c_autil c' = mv_autil v.
  Proof.
    unfold match_store.
    destruct (bind _ _) as [[co resid]|e] eqn:E; [|discriminate].
    apply bind_Ok in E. destruct E as (co' & Hfit & E). apply bind_Ok in E. destruct E as (vs & Hvs & E).
    assert (co' = co) as -> by congruence.
    assert (Er : resid = map nabs (minus cand vs)) by congruence. clear E.
    unfold polyfit_of in Hfit. destruct (c_kind c) as [k|]; [|discriminate].
    destruct xs as [|x xs]; [discriminate|]. 
    destruct (Nat.eqb_spec (length (x :: xs)) (length cand)) as [L|]; [|discriminate].
    assert (Lm : forall ws, length ws = length (x :: xs) -> length (minus cand ws) = length (x :: xs)).
    { intros ws Lw. unfold minus. rewrite map_length, combine_length. lia. }
    apply polyvals_Ok in Hvs. destruct Hvs as (k' & _ & Ev).
    assert (Lr : length resid = length (x :: xs)).
    { rewrite Er, map_length. apply Lm. rewrite Ev, map_length. auto. }
    clear Er Ev Hfit.
    destruct (negb (np_sum resid <' nlit 1 9)); [discriminate|]. cbv zeta.
    destruct (Nat.eqb_spec (length (c_peaks c)) 0) as [|Np]; [discriminate|].
    destruct (Nat.eqb_spec natlas 0) as [|Na]; [discriminate|].
    assert (Np' : c_peaks c <> []) by (intros Hn; rewrite Hn in Np; auto).
    destruct robust.
    - destruct (robust_polyfit _ _ _ _ _) as [co''|]; [|discriminate].
      destruct (existsb nisnan co'').
      + intros E. injection E as <- <-. cbn.
        split; [discriminate|]. split; [exact L|]. split; [left; auto|]. repeat (split; [reflexivity|]).
        split; [exists resid; auto|]. repeat (split; auto).
      + destruct (polyvals_of (Some k) (x :: xs) co'') as [ws|] eqn:Ew; [|discriminate].
        apply polyvals_Ok in Ew. destruct Ew as (k'' & _ & Ew).
        intros E. injection E as <- <-. cbn.
        split; [discriminate|]. split; [exact L|]. split; [left; auto|]. repeat (split; [reflexivity|]).
        split; [exists (minus cand ws); split; auto; split; [apply Lm; rewrite Ew, map_length; auto|auto]|].
        repeat (split; auto).
    - destruct refined as [co''|]; [|discriminate]. intros E. injection E as <- <-. cbn.
      split; [discriminate|]. split; [exact L|]. split; [right; discriminate|]. repeat (split; [reflexivity|]).
      split; [exists resid; auto|]. repeat (split; auto).
  Qed.

  (** A successful call of match_peaks, taken apart. *)
  Lemma match_peaks_inv o mini c a c' v :
    match_peaks o mini c a = (c', Ok v) ->
    exists co, input_coeff c a co /\ co <> [] /\
    ((ma_refine a = true /\ c' = c /\ mv_peaks v = MNone /\ mv_coeff v = co) \/
     exists at_ k xs cand refined,
       c_atlas c = Some at_ /\ c_kind c = Some k /\
       (refined <> None -> ma_refine a = true) /\
       xs = filter (fun p => existsb (within (fun p => eval_kind k p co) (ma_tol a) p) (get_lines at_)) (c_peaks c) /\
       candidate_of (map (near_lines (fun p => eval_kind k p co) (ma_tol a) (get_lines at_)) xs) [] = Ok cand /\
       match_store o c (oget (length co - 1)%nat (ma_deg a)) (ma_robust a) refined xs cand (atlas_len at_) = (c', Ok v)).
  Proof.
    unfold match_peaks. intros H.
    destruct (match ma_coeff a with MNone => _ | _ => _ end) as [co|] eqn:Eco; [|discriminate].
    exists (mseq_vals co).
    assert (Hin : input_coeff c a (mseq_vals co)).
    { unfold input_coeff. destruct (ma_coeff a); [injection Eco as <-; auto|injection Eco as <-; auto|].
      destruct (c_coeff c); [|discriminate]. injection Eco as <-. auto. }
    split; auto.
    destruct (mseq_vals co) as [|a0 l0] eqn:Ev; [discriminate|]. split; [discriminate|]. rewrite <- Ev in *. 
    assert (Hne : mseq_vals co <> []) by (rewrite Ev; discriminate).
    cbv zeta in H.
    destruct (if ma_refine a then _ else _) as [q|e] eqn:Eq; [|discriminate].
    assert (G : (q = Some None /\ c' = c /\ v = mkMV (mseq_vals co) MNone MNone None None None None /\ ma_refine a = true) \/
       exists refined, (refined <> None -> ma_refine a = true) /\
        match c_atlas c with
        | None => (c, Raise AttributeError)
        | Some at_ =>
           match bind (lines_within (c_kind c) (get_lines at_) (mseq_vals co) (ma_tol a) (c_peaks c)) (fun m =>
                          bind (candidate_of (map snd m) []) (fun cand => Ok (map fst m, cand))) with
                    | Raise e => (c, Raise e)
                    | Ok (xs, cand) =>
                        match_store o c (oget (length (mseq_vals co) - 1)%nat (ma_deg a)) (ma_robust a) refined xs cand (atlas_len at_)
                    end
                end = (c', Ok v)).
    { destruct (ma_refine a) eqn:Er.
      - destruct q as [[new|]|].
        + right. exists (Some new). auto.
        + left. split; auto. split; [congruence|]. split; [congruence|auto].
        + right. exists None. split; [auto|]. exact H.
      - injection Eq as <-. right. exists None. split; [intros K; contradiction|]. exact H. }
    clear H Eq. destruct G as [(_ & -> & -> & Hr)|(refined & Hr & H)].
    - left. cbn. auto.
    - right. destruct (c_atlas c) as [at_|]; [|discriminate].
      destruct (bind _ _) as [[xs cand]|e] eqn:Eb; [|discriminate].
      apply bind_Ok in Eb. destruct Eb as (m & Hm & Eb). apply bind_Ok in Eb. destruct Eb as (cand' & Hc & Eb).
      assert (Exs : xs = map fst m) by congruence. assert (cand' = cand) as -> by congruence.
      destruct (match_store_Ok _ _ _ _ _ _ _ _ _ _ H) as (Hx & _).
      apply lines_within_spec in Hm; auto. destruct Hm as [(_ & ->)|(k & Ek & Em)]; [subst xs; contradiction|].
      exists at_, k, xs, cand, refined. split; auto. split; auto. split; auto.
      assert (Ex : xs = filter (fun p => existsb (within (fun p => eval_kind k p (mseq_vals co)) (ma_tol a) p) (get_lines at_)) (c_peaks c)).
      { rewrite Exs, Em, map_map. apply map_id. }
      split; auto. split; auto.
      rewrite Em, map_map in Hc. rewrite Ex. exact Hc.
  Qed.

  Lemma near_nonempty f tol lines xs :
    forall m, In m (map (near_lines f tol lines) (filter (fun p => existsb (within f tol p) lines) xs)) -> m <> [].
  Proof.
    intros m Hm. apply in_map_iff in Hm. destruct Hm as (p & <- & Hp). apply filter_In in Hp. destruct Hp as (_ & Hp).
    apply existsb_exists in Hp. destruct Hp as (w & Hw & Ww). intros E.
    assert (In w (near_lines f tol lines p)) by (apply filter_In; auto). rewrite E in H. destruct H.
  Qed.

  Lemma singles_only f tol lines : forall xs ys, map (near_lines f tol lines) xs = map (fun y => [y]) ys ->
    Forall2 (only_line f tol lines) xs ys.
  Proof.
    induction xs as [|x xs IH]; intros [|y ys] H; try discriminate; [constructor|].
    cbn in H. injection H as H1 H2. constructor; auto.
    assert (K : In y (near_lines f tol lines x)) by (rewrite H1; left; auto).
    apply filter_In in K. destruct K as (K1 & K2). split; auto. split; auto.
    intros w' Hw Ww. assert (In w' (near_lines f tol lines x)) by (apply filter_In; auto). rewrite H1 in H.
    destruct H as [H|[]]; auto.
  Qed.
End Facts.

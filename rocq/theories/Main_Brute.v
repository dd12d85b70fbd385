(** * Main_Brute: what the brute-force search finds, with proofs.  The statements are
    repeated, without proofs, in Props_Brute.v. *)

From Coq Require Import ZArith Bool List String Lia Reals Lra Sorted Permutation.
From Verif Require Import Num F64 XReal Py Np NpFacts ArgsortFacts Util Models Atlas Hough SpecHough HoughFacts PolyEval Calib Cand SpecCand CandFacts Ransac SpecRansac RansacFacts Main_Ransac SpecBrute.
Import ListNotations.
Local Open Scope num_scope.

Section Brute.
  Context {A : Type} {N : Num A}.
  Variable o : oracle A.

  (** Whether a trial is thrown back depends on the state only through the best cost. *)
  Lemma trial_continue (f : cfg A) s1 s2 xh yh :
    s_cost s1 = s_cost s2 -> trial o f s1 xh yh = TContinue -> trial o f s2 xh yh = TContinue.
  Proof.
    intros E. unfold trial, consider. rewrite E.
    repeat match goal with
    | |- context [match ?r with _ => _ end] => destruct r
    end; congruence.
  Qed.

  (** With brute force the sample is the same at each try. *)
  Lemma brute_once (f : cfg A) smp : f_brute f = true ->
    forall fuel s s', try_sample o fuel f s smp = Done s' ->
      o_np123 o = false /\
      let d := add_known f (gather (f_x f) smp) (gather (f_y f) smp) in
      trial o f (log_fit d s) (fst d) (snd d) = TNext s' /\ s_log s' = d :: s_log s.
  Proof.
    intros Hb.
    assert (L : forall s s' xh yh, trial o f s xh yh = TNext s' -> s_log s' = s_log s).
    { intros s s' xh yh. unfold trial, consider.
      repeat match goal with
      | |- context [match ?r with _ => _ end] => destruct r
      end; intros H; try discriminate; injection H as <-; reflexivity. }
    assert (G : forall fuel s s', try_sample o fuel f s smp = Done s' ->
      o_np123 o = false /\
      let d := add_known f (gather (f_x f) smp) (gather (f_y f) smp) in
      trial o f (log_fit d s) (fst d) (snd d) = TNext s').
    { induction fuel as [|n IH]; intros s s'; [discriminate|]. cbn [try_sample]. unfold draw. rewrite Hb.
      destruct (o_np123 o) eqn:E3; [discriminate|].
      destruct (add_known f (gather (f_x f) smp) (gather (f_y f) smp)) as [xh yh] eqn:Ed. cbn zeta. cbn [fst snd].
      assert (Es : set_rng (s_rng s) s = s) by (destruct s; reflexivity). rewrite Es.
      destruct (trial o f (log_fit (xh, yh) s) xh yh) as [|s2|s2 e] eqn:Et; try discriminate.
      - intros H. exfalso. destruct (IH _ _ H) as (_ & H'). cbn zeta in H'. rewrite ?Ed in H'. cbn [fst snd] in H'.
        apply (trial_continue f _ (log_fit (xh, yh) (log_fit (xh, yh) s))) in Et; [congruence|reflexivity].
      - intros H. injection H as <-. auto. }
    intros fuel s s' H. destruct (G _ _ _ H) as (H1 & H2). split; auto. cbn zeta in *. split; auto.
    rewrite (L _ _ _ _ H2). reflexivity.
  Qed.

  Lemma brute_log (f : cfg A) : f_brute f = true ->
    forall fuel l s s', run_samples o fuel f s l = Done s' ->
      s_log s' = (rev (map (fun smp => add_known f (gather (f_x f) smp) (gather (f_y f) smp)) l) ++ s_log s)%list.
  Proof.
    intros Hb fuel. induction l as [|smp r IH]; intros s s'; cbn [run_samples]; [intros H; injection H as <-; reflexivity|].
    destruct (try_sample o fuel f s smp) as [s1|s1 e|s1] eqn:E; try discriminate. intros H.
    rewrite (IH _ _ H). destruct (brute_once f smp Hb _ _ _ E) as (_ & _ & ->). cbn [map rev]. rewrite <- app_assoc.
    reflexivity.
  Qed.
End Brute.

Lemma gather_nth {A} (x : list A) smp : (forall i, In i smp -> (i < List.length x)%nat) ->
  Forall2 (fun i a => nth_error x i = Some a) smp (gather x smp).
Proof.
  induction smp as [|i smp IH]; intros H; [constructor|]. unfold gather in *. cbn [flat_map].
  assert (Hi : (i < List.length x)%nat) by (apply H; left; auto).
  destruct (nth_error x i) as [a|] eqn:Ea; [|apply nth_error_None in Ea; lia].
  cbn [app]. constructor; auto. apply IH. intros; apply H; right; auto.
Qed.

Lemma nth_fun {A} (x : list A) smp xs ys :
  Forall2 (fun i a => nth_error x i = Some a) smp xs -> Forall2 (fun i a => nth_error x i = Some a) smp ys -> xs = ys.
Proof.
  intros H. revert ys. induction H as [|i a smp xs Ha H IH]; intros ys H'; inversion H'; subst; auto.
  f_equal; [congruence|auto].
Qed.

(** C89: with brute force the search is set up to go through exactly the sets of
    sample_size candidate pairs, each once, whatever max_tries is. *)
Lemma brute_force_samples_main :
  forall (A : Type) (N : Num A) (o : oracle A) c x y deg size n coeff f l s0,
    ransac_setup o c x y deg size n coeff true = Ok (f, l, s0) ->
    NoDup l /\ (forall smp, In smp l <-> choice_of (List.length x) size smp).
Proof.
  intros A N o c x y deg size n coeff f l s0 H.
  destruct (ransac_work_partial_main A N o 0 c x y deg size n coeff true f l s0 H) as (_ & _ & E).
  rewrite (E eq_refl). apply brute_force_combinations_main.
Qed.

Example brute_force_samples_example_main :
  exists f s0, ransac_setup o_ex c_ex ex_peaks ex_waves 1 2 3 None true = Ok (f, combinations (seq 0 5) 2, s0) /\
    In [1; 3]%nat (combinations (seq 0 5) 2) /\ List.length (combinations (seq 0 5) 2) = 10%nat.
Proof. eexists _, _. split; [vm_compute; reflexivity|]. split; [vm_compute; tauto|reflexivity]. Qed.

(** C122: the brute-force search that ends has fitted every choice of candidate pairs,
    each exactly once and nothing else. *)
Lemma brute_force_fits_main :
  forall (A : Type) (N : Num A) (o : oracle A) fuel c x y deg size n coeff f l s0 s,
    List.length x = List.length y ->
    ransac_setup o c x y deg size n coeff true = Ok (f, l, s0) ->
    run_samples o fuel f s0 l = Done s ->
    exists choices,
      NoDup choices /\ (forall smp, In smp choices <-> choice_of (List.length x) size smp) /\
      Forall2 (chosen (c_known c) x y) choices (s_log s).
Proof.
  intros A N o fuel c x y deg size n coeff f l s0 s L Hset Hrun.
  pose proof (ransac_setup_Ok _ _ _ _ _ _ _ _ _ _ _ _ Hset) as
    (Hk & Fd & Fx & Fy & Fp & Fdi & Ft & Filo & Fihi & Fpix & Fhw & Fsp & Fme & Fmm & Fmu & Fnp & Fkn & Fb & Fs & Fsm & Fpr & S0 & S0i & S0l & S0m & S0a & S0c).
  rewrite (brute_log o f Fb _ _ _ _ Hrun), S0l, app_nil_r. cbn [orb] in Fsm.
  destruct (brute_force_combinations_main (List.length x) size) as [ND In_l]. rewrite <- Fsm in ND, In_l.
  exists (rev l). split; [apply NoDup_rev; auto|]. split.
  - intros smp. rewrite <- in_rev. apply In_l.
  - rewrite <- map_rev. assert (Hl : forall smp, In smp (rev l) -> forall i, In i smp -> (i < List.length x)%nat).
    { intros smp Hs. rewrite <- in_rev in Hs. apply In_l in Hs. tauto. }
    revert Hl. generalize (rev l). intros l'. induction l' as [|smp r IH]; intros Hl; cbn [map]; constructor.
    + rewrite Fx, Fy. exists (gather x smp), (gather y smp). split; [|split].
      * apply gather_nth. apply Hl. left; auto.
      * apply gather_nth. rewrite <- L. apply Hl. left; auto.
      * unfold add_known. rewrite Fkn. reflexivity.
    + apply IH. intros s' Hs. apply Hl. right; auto.
Qed.

(** C122: so its solution is at least as good as the one of any acceptable choice. *)
Lemma brute_force_best_main :
  forall (A : Type) (N : Num A) (O : NumOrder A) (o : oracle A) fuel c x y deg size n coeff f l s0 s,
    x <> [] -> no_nan x -> List.length x = List.length y ->
    ransac_setup o c x y deg size n coeff true = Ok (f, l, s0) ->
    run_samples o fuel f s0 l = Done s ->
    forall smp d cost, choice_of (List.length x) size smp -> chosen (c_known c) x y smp d -> good_trial o f d cost ->
      cost <' s_cost s = false.
Proof.
  intros A N O o fuel c x y deg size n coeff f l s0 s Hx Hn L Hset Hrun smp d cost Hs Hd Hg.
  refine (ransac_keeps_best_main A N O o fuel c x y deg size n coeff true f l s0 s Hx Hn Hset Hrun d cost _ Hg).
  destruct (brute_force_fits_main A N o fuel c x y deg size n coeff f l s0 s L Hset Hrun) as (ch & _ & Hch & F).
  apply Hch in Hs. clear Hch. revert Hs. induction F as [|smp' d' ch' lg Hd' F IH]; intros Hs; [destruct Hs|].
  destruct Hs as [->|Hs].
  - left. destruct Hd as (xs & ys & F1 & F2 & ->), Hd' as (xs' & ys' & F1' & F2' & ->).
    rewrite (nth_fun _ _ _ _ F1 F1'), (nth_fun _ _ _ _ F2 F2'). reflexivity.
  - right. apply IH; auto.
Qed.

(** Three peaks, each with one candidate on or near a straight line, and no minimum
    error. *)
Definition c_brute : calib f64 :=
  set_c_rp (mkR (Some 2%nat) (Some 5%nat) (Some true) (Some false) (Some (fz 50)) (Some true) (Some (fz 1))
              (Some (fz 0)) (Some (fz 0)) (Some (fz 0)))
    (ransac_ex [fz 100; fz 200; fz 300] [] []).
Definition brute_ex : option (nat * list (list f64 * list f64) * f64) :=
  match ransac_setup o_ex c_brute [fz 100; fz 200; fz 300] [fz 4000; fz 5010; fz 6000] 1 2 0 None true with
  | Ok (f, l, s0) => match run_samples o_ex 5 f s0 l with
                     | Done s => Some (List.length l, s_log s, s_cost s)
                     | _ => None
                     end
  | Raise _ => None
  end.
Example brute_force_fits_example_main :
  match brute_ex with
  | Some (n, lg, _) => n = 3%nat /\ map fst lg = [[fz 200; fz 300]; [fz 100; fz 300]; [fz 100; fz 200]]
  | None => False
  end.
Proof. vm_compute. auto. Qed.
Example brute_force_best_example_main :
  match brute_ex with
  | Some (_, _, cost) => cost <' fz 11 = true
  | None => False
  end.
Proof. vm_compute. auto. Qed.

(** C122: a choice whose trial fit leaves the allowed intercepts is tried for ever. *)
Lemma brute_force_stuck_main :
  forall (A : Type) (N : Num A) (o : oracle A) fuel c x y deg size n coeff f l s0 smp d k c0 co lo hi,
    List.length x = List.length y ->
    ransac_setup o c x y deg size n coeff true = Ok (f, l, s0) ->
    choice_of (List.length x) size smp -> chosen (c_known c) x y smp d ->
    c_kind c = Some k -> o_polyfit o k (fst d) (snd d) deg = Ok (c0 :: co) ->
    h_min_intercept (c_hp c) = Some lo -> h_max_intercept (c_hp c) = Some hi -> c0 <' lo = true \/ hi <' c0 = true ->
    forall s, run_samples o fuel f s0 l <> Done s.
Proof.
  intros A N o fuel c x y deg size n coeff f l s0 smp d k c0 co lo hi L Hset Hs Hd Hkd Hf Hlo Hhi Hc s Hrun.
  pose proof (ransac_setup_Ok _ _ _ _ _ _ _ _ _ _ _ _ Hset) as
    (Hk & Fd & Fx & Fy & Fp & Fdi & Ft & Filo & Fihi & Fpix & Fhw & Fsp & Fme & Fmm & Fmu & Fnp & Fkn & Fb & Fs & Fsm & Fpr & S0 & S0i & S0l & S0m & S0a & S0c).
  cbn [orb] in Fsm. apply brute_force_combinations_main in Hs as Hin. rewrite <- Fsm in Hin.
  destruct Hs as (_ & _ & Hlt).
  assert (Ed : d = add_known f (gather (f_x f) smp) (gather (f_y f) smp)).
  { destruct Hd as (xs & ys & F1 & F2 & ->). unfold add_known. rewrite Fkn, Fx, Fy.
    rewrite (nth_fun _ _ _ _ F1 (gather_nth x smp Hlt)).
    rewrite L in Hlt. rewrite (nth_fun _ _ _ _ F2 (gather_nth y smp Hlt)). reflexivity. }
  clear Fsm S0 S0i S0l S0m S0a S0c Hset.
  revert s0 Hrun. induction l as [|sm r IH]; intros s0 Hrun; [destruct Hin|].
  cbn [run_samples] in Hrun. destruct (try_sample o fuel f s0 sm) as [s1|s1 e|s1] eqn:E; try discriminate.
  destruct Hin as [->|Hin]; [|exact (IH Hin _ Hrun)].
  destruct (brute_once o f smp Fb _ _ _ E) as (_ & Ht & _). rewrite <- Ed in Ht.
  assert (K : f_kind f = k) by congruence. assert (Kd : f_deg f = deg) by congruence.
  unfold trial in Ht. rewrite K, Kd, Hf in Ht. 
  assert (Kl : f_ilo f = lo) by congruence. assert (Kh : f_ihi f = hi) by congruence. rewrite Kl, Kh in Ht.
  destruct (f_peaks f) as [|p0 ps]; [discriminate|].
  destruct Hc as [Hc|Hc]; rewrite Hc in Ht; [discriminate|]. rewrite orb_true_r in Ht. discriminate.
Qed.

(** The first two candidates of the peaks of c_brute in the wrong order: the line
    through them meets the axis at 6000. *)
Example brute_force_stuck_example_main :
  match ransac_setup o_ex c_brute [fz 100; fz 200; fz 300] [fz 5000; fz 4000; fz 6000] 1 2 0 None true with
  | Ok _ => lsq1 [fz 100; fz 200] [fz 5000; fz 4000] = [fz 6000; fz (-10)] /\
            h_max_intercept (c_hp c_brute) = Some (fz 3500)
  | Raise _ => False
  end.
Proof. vm_compute. auto. Qed.

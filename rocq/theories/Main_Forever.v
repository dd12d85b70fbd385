(** * Main_Forever: a fit that never ends, with proof.  The statement is repeated,
    without proof, in Props_Forever.v. *)

From Coq Require Import ZArith Bool List String Lia Reals Lra Sorted Permutation.
From Verif Require Import Num F64 XReal Py Np NpFacts ArgsortFacts Util Models Atlas Hough PolyEval Calib SpecCalib Main_Calib Cand SpecCand Ransac RansacFacts SampleFacts Main_Ransac Fit Main_Fit.
Import ListNotations.
Local Open Scope num_scope.

(** Two peaks next to each other and two lines: the straight lines through them leave
    the allowed intercepts. *)
Definition ops_stuck : list (cal_op f64) :=
  [OGeneral None (Some [fz 0; fz 150; fz 300]) None;
   OHough (mkHA (Some (fz 9)) (Some 1%nat) (Some 1%nat) None None (Some (fz 100)) (Some (fz 20)));
   ORansac (mkRA (Some 2%nat) None None None None None None None None None);
   OAddUser (user_lines [fz 4008; fz 4012]) (fz 10) false].
Definition c_stuck : calib f64 := after [fz 100; fz 101] ops_stuck.
Definition a_stuck (max_tries : nat) (brute : bool) : fit_args f64 :=
  mkFA max_tries 1 None (fz 5) (Some FitPoly) (fz 5000) brute.
(** The calibrator when the search starts. *)
Definition c_search : calib f64 := Eval vm_compute in
  match fit_begin c_stuck (a_stuck 1 false) with
  | (c1, Ok _) => fst (fit_prepare o_ex c1 (a_stuck 1 false))
  | (c1, _) => c1
  end.
Definition xs_stuck : list f64 := [fz 100; fz 100; fz 101; fz 101].
Definition ys_stuck : list f64 := [fz 4008; fz 4012; fz 4008; fz 4012].

Section Any.
  Variables (smp : nat -> list f64 -> nat -> list f64 -> list f64) (pick : nat -> list f64 -> f64).
  Hypothesis Hp : forall t l, l <> [] -> In (pick t l) l.
  Let o := o_any smp pick.

  Lemma pick_two fuel : forall t seen,
    match pick_new o fuel t [fz 4008; fz 4012] seen with
    | None => True
    | Some (y, _) => y = fz 4008 \/ y = fz 4012
    end.
  Proof.
    induction fuel as [|n IH]; intros t seen; cbn [pick_new]; auto.
    destruct (Hp t [fz 4008; fz 4012]) as [E|[E|[]]]; [discriminate| |];
      cbn [o o_any o_pick]; rewrite <- E; destruct (existsb _ _); auto; apply IH.
  Qed.
  Lemma pick_other fuel y y' : (y = fz 4008 /\ y' = fz 4012) \/ (y = fz 4012 /\ y' = fz 4008) -> forall t,
    match pick_new o fuel t [fz 4008; fz 4012] [y] with
    | None => True
    | Some (z, _) => z = y'
    end.
  Proof.
    intros Hy. induction fuel as [|n IH]; intros t; cbn [pick_new]; auto.
    destruct (Hp t [fz 4008; fz 4012]) as [E|[E|[]]]; [discriminate| |];
      cbn [o o_any o_pick]; rewrite <- E; destruct Hy as [(-> & ->)|(-> & ->)];
      match goal with |- context [existsb ?f ?l] => let v := eval vm_compute in (existsb f l) in
        replace (existsb f l) with v by (vm_compute; reflexivity) end; cbv iota; auto; apply IH; auto.
  Qed.

  Lemma draw_stuck f n t x1 x2 :
    f_dict f = build_dict xs_stuck ys_stuck ->
    (x1 = fz 100 /\ x2 = fz 101) \/ (x1 = fz 101 /\ x2 = fz 100) ->
    match draw_ys o n f t [x1; x2] [x1; x2] [] with
    | DOut => True
    | DOk _ xh yh => xh = [x1; x2] /\ (yh = [fz 4008; fz 4012] \/ yh = [fz 4012; fz 4008])
    | _ => False
    end.
  Proof.
    intros Hd Hx.
    assert (G1 : dict_get (f_dict f) x1 = Ok [fz 4008; fz 4012]) by (rewrite Hd; destruct Hx as [(-> & ->)|(-> & ->)]; vm_compute; reflexivity).
    assert (G2 : dict_get (f_dict f) x2 = Ok [fz 4008; fz 4012]) by (rewrite Hd; destruct Hx as [(-> & ->)|(-> & ->)]; vm_compute; reflexivity).
    cbn [draw_ys]. rewrite G1. cbn [forallb existsb andb].
    pose proof (pick_two n t []) as P. destruct (pick_new o n t [fz 4008; fz 4012] []) as [[y t1]|]; auto.
    rewrite G2. cbn [app].
    assert (E : forallb (fun w => existsb (fun v => v ==' w) [y]) [fz 4008; fz 4012] = false)
      by (destruct P as [->| ->]; vm_compute; reflexivity).
    rewrite E.
    destruct P as [->| ->].
    - pose proof (pick_other n (fz 4008) (fz 4012) (or_introl (conj eq_refl eq_refl)) t1) as Q.
      destruct (pick_new o n t1 [fz 4008; fz 4012] [fz 4008]) as [[z t2]|]; [subst z|exact I].
      cbn [draw_ys]. auto.
    - pose proof (pick_other n (fz 4012) (fz 4008) (or_intror (conj eq_refl eq_refl)) t1) as Q.
      destruct (pick_new o n t1 [fz 4008; fz 4012] [fz 4012]) as [[z t2]|]; [subst z|exact I].
      cbn [draw_ys]. auto.
  Qed.
End Any.

(** C62 fails for a calibrator configured through the API: fit does not end, whatever
    max_tries is, whatever the random numbers are, with and without brute_force. *)
Lemma fit_terminates_refuted_main :
  forall smp pick,
    (forall t l p, Permutation (smp t l (List.length l) p) l) -> (forall t l, l <> [] -> In (pick t l) l) ->
    forall fuel max_tries brute, fit (o_any smp pick) fuel c_stuck (a_stuck max_tries brute) = None.
Proof.
  intros smp pick Hs Hp fuel max_tries brute.
  assert (Hs2 : forall t a b p, smp t [a; b] 2%nat p = [a; b] \/ smp t [a; b] 2%nat p = [b; a]).
  { intros t a b p. pose proof (Hs t [a; b] p) as P. cbn [List.length] in P.
    apply Permutation_sym, Permutation_length_2_inv in P. tauto. }
  assert (E0 : fit (o_any smp pick) fuel c_stuck (a_stuck max_tries brute) =
    match solve_ransac (o_any smp pick) fuel c_search 1 max_tries None (fz 5000) brute with
                | None => None
                | Some (c3, Raise e) => Some (c3, Raise e)
                | Some (c3, Ok r) => Some (fit_end c3 r)
                end).
  { unfold fit. change (fa_coeff (a_stuck max_tries brute)) with (@None (list f64)). cbv iota.
    replace (fit_begin c_stuck (a_stuck max_tries brute)) with (fit_begin c_stuck (a_stuck 1 false)) by reflexivity.
    destruct (fit_begin c_stuck (a_stuck 1 false)) as [c1 r1] eqn:E1.
    assert (E1' : fit_begin c_stuck (a_stuck 1 false) = (c1, Ok tt)) by (rewrite E1; f_equal; vm_compute in E1; congruence).
    assert (r1 = Ok tt) as -> by congruence.
    replace (fit_prepare (o_any smp pick) c1 (a_stuck max_tries brute)) with (c_search, @Ok unit tt); [reflexivity|].
    vm_compute in E1. injection E1 as <-. vm_compute. reflexivity. }
  rewrite E0. clear E0.
  assert (T : forall f xh yh s, f_kind f = FitPoly -> f_deg f = 1%nat -> f_ihi f = fz 3100 -> f_peaks f = [fz 100; fz 101] ->
     xh = [fz 100; fz 101] \/ xh = [fz 101; fz 100] \/ xh = [fz 100; fz 100] ->
     yh = [fz 4008; fz 4012] \/ yh = [fz 4012; fz 4008] ->
     f_ilo f = fz 2900 -> trial (o_any smp pick) f s xh yh = TContinue).
  { intros f xh yh s H1 H2 H3 H4 H5 H6 H7. unfold trial. rewrite H1, H2, H3, H4, H7.
    destruct H5 as [->|[->| ->]]; destruct H6 as [->| ->]; vm_compute; reflexivity. }
  assert (X : ransac_xy (o_any smp pick) (set_c_deg (Some 1%nat) c_search) (fz 5000) = Ok (xs_stuck, ys_stuck)) by (vm_compute; reflexivity).
  unfold solve_ransac.
  assert (X0 : exists q, ransac_candidates (o_any smp pick) c_search (fz 5000) = Ok q) by (vm_compute; eauto).
  destruct X0 as (q & ->). cbv zeta. rewrite X.
  replace (Nat.leb (List.length (np_unique xs_stuck)) 1) with false by (vm_compute; reflexivity).
  replace (r_sample (c_rp (set_c_deg (Some 1%nat) c_search))) with (Some 2%nat) by reflexivity.
  destruct (ransac_setup (o_any smp pick) (set_c_deg (Some 1%nat) c_search) xs_stuck ys_stuck 1 2 max_tries None brute)
    as [[[f l] s0]|e] eqn:Es; [|exfalso; destruct brute; vm_compute in Es; discriminate].
  pose proof (ransac_setup_Ok _ _ _ _ _ _ _ _ _ _ _ _ Es) as
    (Hk & Fd & Fx & Fy & Fp & Fdi & Ft & Filo & Fihi & Fpix & Fhw & Fsp & Fme & Fmm & Fmu & Fnp & Fkn & Fb & Fs & Fsm & Fpr & _).
  assert (El : l = [[0; 1]; [0; 2]; [0; 3]; [1; 2]; [1; 3]; [2; 3]]%nat).
  { rewrite Fsm. replace (brute || Nat.leb (List.length (np_unique xs_stuck)) 2) with true; [reflexivity|].
    symmetry. apply orb_true_iff. right. vm_compute. reflexivity. }
  assert (Ek : f_kind f = FitPoly) by (cbn in Hk; congruence).
  assert (Ep : f_peaks f = [fz 100; fz 101]) by (rewrite Fp; vm_compute; reflexivity).
  assert (Eh : f_ihi f = fz 3100) by (assert (K : Some (f_ihi f) = Some (fz 3100)) by (rewrite <- Fihi; vm_compute; reflexivity); congruence).
  assert (Eo : f_ilo f = fz 2900) by (assert (K : Some (f_ilo f) = Some (fz 2900)) by (rewrite <- Filo; vm_compute; reflexivity); congruence).
  assert (En : f_known f = None) by (rewrite Fkn; reflexivity).
  rewrite El. cbn [run_samples].
  destruct (retry_forever (o_any smp pick) f [0; 1]%nat) with (fuel := fuel) (s := s0) as (s' & ->); [|reflexivity].
  intros n t. unfold draw. rewrite Fb. destruct brute.
  - cbn [o_any o_np123]. rewrite Fx, Fy. intros s. unfold add_known. rewrite En. cbn [fst snd].
    apply T; auto; cbn; auto.
  - specialize (Fpr eq_refl).
    assert (Epr : exists p, f_prob f = p /\ sampling_prob (np_unique xs_stuck) = Ok p) by eauto.
    destruct Epr as (p & Epr & Epr'). vm_compute in Epr'. rewrite Epr.
    assert (Ez : f_size f = 2%nat) by (rewrite Fs; vm_compute; reflexivity). rewrite Ez.
    injection Epr' as <-.
    match goal with |- context[if ?b then DRaise ValueError else _] => replace b with false by (vm_compute; reflexivity) end.
    rewrite Ep. cbn [o_any o_sample].
    match goal with |- context [smp t _ 2%nat ?p] =>
      assert (E : smp t [fz 100; fz 101] 2%nat p = [fz 100; fz 101] \/ smp t [fz 100; fz 101] 2%nat p = [fz 101; fz 100]) by apply Hs2;
      set (xh := smp t [fz 100; fz 101] 2%nat p) in *; clearbody xh end.
    assert (D : match draw_ys (o_any smp pick) n f (S t) xh xh [] with
                | DOut => True
                | DOk _ xh' yh => xh' = xh /\ (yh = [fz 4008; fz 4012] \/ yh = [fz 4012; fz 4008])
                | _ => False end).
    { destruct E as [->| ->]; apply (draw_stuck smp pick Hp); auto. }
    destruct (draw_ys (o_any smp pick) n f (S t) xh xh []) as [|t'|e|t' xh' yh]; auto.
    destruct D as (-> & D). intros s. unfold add_known. rewrite En. cbn [fst snd]. apply T; auto. tauto.
Qed.

Example fit_terminates_example_main :
  cal_ok env0 (match calib_init all_inside [fz 100; fz 101] None with Ok c => c | Raise _ => calib_blank [] None end) ops_stuck /\
  match c_atlas c_stuck with Some at_ => get_lines at_ = [fz 4008; fz 4012] | None => False end.
Proof. vm_compute. repeat split; auto. Qed.

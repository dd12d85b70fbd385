(** * Main_Units: robust_polyfit and the units of its data (C121).  Statements
    repeated in Props_Units.v. *)

From Coq Require Import ZArith Bool List Lia Reals Lra.
From Verif Require Import Num F64 XReal Py Np NpFacts Util Models PolyEval SpecPoly SpecUnits.
From Verif Require Import PolyFacts PolyIdent EdlenFacts Main_Models.
Import ListNotations.
Local Open Scope list_scope.
Local Open Scope R_scope.

Lemma sum_scale k l : fold_right Rplus 0 (map (fun v => k * v) l) = k * fold_right Rplus 0 l.
Proof. induction l as [|x l IH]; cbn; [lra|]. rewrite IH. lra. Qed.

Lemma np_sum_R l : np_sum (map Fin l) = Fin (fold_right Rplus 0 l).
Proof.
  unfold np_sum. rewrite nZ_Fin.
  assert (G : forall l a, fold_left nadd (map Fin l) (Fin a) = Fin (a + fold_right Rplus 0 l)).
  { clear. induction l as [|x l IH]; intros a; cbn [map fold_left fold_right]; [f_equal; lra|].
    change (nadd (Fin a) (Fin x)) with (Fin (a + x)). rewrite IH. f_equal. lra. }
  rewrite G. f_equal. cbn. lra.
Qed.

Lemma mean_sq_nonneg l m : l <> [] -> 0 <= mean (map (fun v => (v - m) * (v - m)) l).
Proof.
  intros H. unfold mean. rewrite map_length.
  assert (0 < INR (length l)) by (apply lt_0_INR; destruct l; [contradiction|cbn; lia]).
  assert (0 <= fold_right Rplus 0 (map (fun v => (v - m) * (v - m)) l)).
  { clear. induction l as [|v l IH]; cbn; [lra|].
    pose proof (Rle_0_sqr (v - m)) as K. unfold Rsqr in K. lra. }
  unfold Rdiv. apply Rmult_le_pos; auto. left. apply Rinv_0_lt_compat. auto.
Qed.

Lemma np_mean_R l : l <> [] -> np_mean (map Fin l) = Fin (mean l).
Proof.
  intros H. unfold np_mean, mean. rewrite np_sum_R, map_length, nnat_Fin.
  apply xdiv_F. apply not_0_INR. destruct l; [contradiction|discriminate].
Qed.

Lemma np_std_R l : l <> [] -> np_std (map Fin l) = Fin (std l).
Proof.
  intros H. unfold np_std. rewrite np_mean_R by auto. cbv zeta.
  replace (map (fun v => nmul (nabs (nsub v (Fin (mean l)))) (nabs (nsub v (Fin (mean l))))) (map Fin l))
    with (map Fin (map (fun v => (v - mean l) * (v - mean l)) l)).
  2:{ rewrite !map_map. apply map_ext. intros v.
      change (nsub (Fin v) (Fin (mean l))) with (Fin (v - mean l)).
      change (nabs (Fin (v - mean l))) with (Fin (Rabs (v - mean l))).
      change (nmul (Fin (Rabs (v - mean l))) (Fin (Rabs (v - mean l)))) with (Fin (Rabs (v - mean l) * Rabs (v - mean l))).
      f_equal. rewrite <- Rabs_mult. rewrite Rabs_right; auto.
      apply Rle_ge. pose proof (Rle_0_sqr (v - mean l)) as K. exact K. }
  rewrite np_mean_R by (destruct l; [contradiction|discriminate]).
  rewrite xsqrt_F; auto. apply mean_sq_nonneg; auto.
Qed.

Lemma std_scale k l : 0 < k -> l <> [] -> std (map (fun v => k * v) l) = k * std l.
Proof.
  intros Hk Hl. unfold std.
  assert (M : forall l, mean (map (fun v => k * v) l) = k * mean l).
  { intros l'. unfold mean. rewrite sum_scale, map_length. unfold Rdiv. ring. }
  rewrite M, map_map.
  replace (mean (map (fun x => (k * x - k * mean l) * (k * x - k * mean l)) l))
    with (k * k * mean (map (fun v => (v - mean l) * (v - mean l)) l)).
  - rewrite sqrt_mult; [|nra|apply mean_sq_nonneg; auto]. rewrite sqrt_square by lra. reflexivity.
  - set (m := mean l). clearbody m. unfold mean. rewrite !map_length. unfold Rdiv. rewrite <- Rmult_assoc, <- sum_scale, map_map.
    f_equal. f_equal. apply map_ext. intros v. ring.
Qed.

(** C121: without an initial solution, robust_polyfit gives the same curve whatever
    units the data are expressed in: measuring x in units a times smaller and y in
    units b times smaller gives the polynomial u -> b * p(u / a), for every optimiser.
    The optimiser is even given the very same problem. *)
Lemma robust_polyfit_units_main :
  forall (ls : optimiser xr) (x y : list R) (degree : nat) (a b : R),
    0 < a -> 0 < b -> x <> [] -> y <> [] -> std x <> 0 -> std y <> 0 ->
    (forall xn yn d p q, ls xn yn d p = Ok q -> exists r, q = map Fin r /\ length r = length p) ->
    match robust_polyfit ls (map Fin x) (map Fin y) degree None,
          robust_polyfit ls (map Fin (map (fun v => a * v) x)) (map Fin (map (fun v => b * v) y)) degree None with
    | Ok c, Ok c' => exists r r', c = map Fin r /\ c' = map Fin r' /\
        length r = (degree + 1)%nat /\ length r' = (degree + 1)%nat /\
        forall u, basis_sum powB r' (a * u) = b * basis_sum powB r u
    | Raise e, Raise e' => e = e'
    | _, _ => False
    end.
Proof.
  intros ls x y d a b Ha Hb Hx Hy Sx Sy Hls.
  assert (Hx' : map (fun v => a * v) x <> []) by (destruct x; [contradiction|discriminate]).
  assert (Hy' : map (fun v => b * v) y <> []) by (destruct y; [contradiction|discriminate]).
  assert (Nx : a * std x <> 0) by (apply Rmult_integral_contrapositive_currified; lra).
  assert (Ny : b * std y <> 0) by (apply Rmult_integral_contrapositive_currified; lra).
  pose proof (np_std_R x Hx) as X1. pose proof (np_std_R y Hy) as Y1.
  pose proof (np_std_R _ Hx') as X2. rewrite std_scale in X2 by auto.
  pose proof (np_std_R _ Hy') as Y2. rewrite std_scale in Y2 by auto.
  set (start := map (fun _ => nZ 1) (seq 0 (d + 1)) : list xr).
  assert (Ls : length start = (d + 1)%nat) by (unfold start; rewrite map_length, seq_length; auto).
  set (xn := map Fin (map (fun v => v / std x) x)). set (yn := map Fin (map (fun v => v / std y) y)).
  assert (Xn : map Fin (map (fun v => v / (a * std x)) (map (fun v => a * v) x)) = xn).
  { unfold xn. f_equal. rewrite map_map. apply map_ext. intros v. field. split; lra. }
  assert (Yn : map Fin (map (fun v => v / (b * std y)) (map (fun v => b * v) y)) = yn).
  { unfold yn. f_equal. rewrite map_map. apply map_ext. intros v. field. split; lra. }
  destruct (ls xn yn d start) as [q|ex] eqn:El.
  - destruct (Hls _ _ _ _ _ El) as (r & -> & Lr). rewrite Ls in Lr.
    destruct (robust_polyfit_denorm ls x y d None (std x) (std y) start r X1 Y1 Sx Sy eq_refl Ls El Lr)
      as (c & Ec & Lc & Vc & _).
    rewrite <- Xn, <- Yn in El.
    destruct (robust_polyfit_denorm ls _ _ d None (a * std x) (b * std y) start r X2 Y2 Nx Ny eq_refl Ls El Lr)
      as (c' & Ec' & Lc' & Vc' & _).
    rewrite Ec, Ec'. exists c, c'. split; auto. split; auto. split; auto. split; auto.
    intros u. rewrite Vc, Vc'. replace (a * u / (a * std x)) with (u / std x) by (field; split; lra). ring.
  - unfold robust_polyfit, normalise_input. rewrite X1, Y1, X2, Y2, !scaled_list by auto. fold xn yn. rewrite Xn, Yn.
    cbn [robust_init bind]. fold start. rewrite Ls, Nat.eqb_refl. cbn [negb]. rewrite El. reflexivity.
Qed.

(** Pixels 0 and 4, wavelengths 3000 and 3008 in Angstrom, then in nanometres
    (b = 1/10): the hypotheses hold for an optimiser that returns its start. *)
Example robust_polyfit_units_example_main :
  let ls : optimiser xr := fun _ _ _ p => Ok (map (fun _ => Fin 1) p) in
  std [0; 4] <> 0 /\ std [3000; 3008] <> 0 /\
  (forall xn yn d p q, ls xn yn d p = Ok q -> exists r, q = map Fin r /\ length r = length p) /\
  exists r, robust_polyfit ls (map Fin [0; 4]) (map Fin [3000; 3008]) 1 None = Ok r.
Proof.
  cbv zeta. assert (S : forall m a, 0 < a -> std [m; m + 2 * a] = a).
  { intros m a Ha. unfold std, mean. cbn [map length fold_right]. replace (INR 2) with 2 by (cbn; lra).
    match goal with |- sqrt ?t = _ => replace t with (a * a) by field end. apply sqrt_square. lra. }
  split; [replace 4 with (0 + 2 * 2) by lra; rewrite S by lra; lra|].
  split; [replace 3008 with (3000 + 2 * 4) by lra; rewrite S by lra; lra|].
  split.
  - intros xn yn d p q E. injection E as <-. exists (map (fun _ => 1) p). rewrite map_map, map_length. auto.
  - eexists. reflexivity.
Qed.

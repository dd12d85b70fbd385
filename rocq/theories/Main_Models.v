(** * Main_Models: the properties of models.py and of the basis evaluation
    (C18-C22) with their proofs.  Statements repeated in Props_Models.v. *)

From Coq Require Import ZArith Bool List Lia Reals Lra.
From Verif Require Import Num F64 XReal Py Np NpFacts Util Models PolyEval SpecPoly.
From Verif Require Import PolyFacts PolyIdent BasisLead EdlenFacts.
Import ListNotations.
Local Open Scope list_scope.
Local Open Scope R_scope.

(* ------------------------------------------------------------------ *)
(** ** C18 *)

(** C18: polynomial(a, degree) raises AssertionError exactly when the number of
    coefficients is not degree+1; otherwise it evaluates sum a[i] x^(degree-i). *)
Lemma polynomial_evaluates_main :
  forall (a : list R) (degree : nat),
    (length a <> (degree + 1)%nat -> polynomial (map Fin a) degree = Raise AssertionError) /\
    (length a = (degree + 1)%nat -> exists f, polynomial (map Fin a) degree = Ok f /\
       forall x, f (Fin x) = Fin (fold_right Rplus 0
                                    (map (fun i => nth i a 0 * x ^ (degree - i)) (seq 0 (degree + 1))))).
Proof.
  intros a d. unfold polynomial. rewrite map_length. split; intros L.
  - apply Nat.eqb_neq in L. rewrite L. reflexivity.
  - rewrite L, Nat.eqb_refl. eexists. split; [reflexivity|]. intros x. rewrite poly_at_real by auto.
    f_equal. rewrite <- rsum_basis. rewrite <- L.
    assert (G : forall l s, (s + length l = d + 1)%nat ->
       rsum powB l x = fold_right Rplus 0 (map (fun i => nth (i - s) l 0 * x ^ (d - i)) (seq s (length l)))).
    { induction l as [|c l IH]; intros s Hs; cbn [rsum length seq map fold_right]; auto.
      cbn [length] in Hs. rewrite (IH (S s)) by lia. unfold powB.
      replace (d - s)%nat with (length l) by lia. rewrite Nat.sub_diag. cbn [nth]. f_equal. f_equal.
      apply map_ext_in. intros i Hi. apply in_seq in Hi.
      replace (i - s)%nat with (S (i - S s)) by lia. reflexivity. }
    rewrite (G a 0%nat) by (cbn; auto). f_equal. apply map_ext. intros i. rewrite Nat.sub_0_r. reflexivity.
Qed.

Example polynomial_example_main :
  (exists f, polynomial (map fz [2; 3; 5]%Z) 2 = Ok f /\ f (fz 10) = fz 235) /\
  polynomial (map fz [2; 3; 5]%Z) 3 = Raise AssertionError.
Proof. split; [eexists; split; [reflexivity|vm_compute; reflexivity]|reflexivity]. Qed.

(* ------------------------------------------------------------------ *)
(** ** C19 *)

Lemma scaled_list s l : s <> 0 -> map (fun v => ndiv v (Fin s)) (map Fin l) = map Fin (map (fun v => v / s) l).
Proof. intros. rewrite !map_map. apply map_ext. intros. apply xdiv_F. auto. Qed.

(** C19: the coefficients returned by robust_polyfit (lowest first) describe
    sy * q(x / sx), q being the optimiser's polynomial (highest first) for the
    data divided by their standard deviations; hence exact interpolation of the
    normalised data is exact interpolation of the data. *)
Lemma robust_polyfit_denorm :
  forall (ls : optimiser xr) (x y : list R) (degree : nat) x0 (sx sy : R) start (q : list R),
    np_std (map Fin x) = Fin sx -> np_std (map Fin y) = Fin sy -> sx <> 0 -> sy <> 0 ->
    robust_init (map Fin x) (map Fin y) degree x0 = Ok start ->
    length start = (degree + 1)%nat ->
    ls (map Fin (map (fun v => v / sx) x)) (map Fin (map (fun v => v / sy) y)) degree start
      = Ok (map Fin q) ->
    length q = (degree + 1)%nat ->
    exists c, robust_polyfit ls (map Fin x) (map Fin y) degree x0 = Ok (map Fin c) /\
      length c = (degree + 1)%nat /\
      (forall u, basis_sum powB c u = sy * basis_sum powB (rev q) (u / sx)) /\
      ((forall xi yi, In (xi, yi) (combine x y) -> basis_sum powB (rev q) (xi / sx) = yi / sy) ->
        forall xi yi, In (xi, yi) (combine x y) -> basis_sum powB c xi = yi).
Proof.
  intros ls x y d x0 sx sy start q Hx Hy Nx Ny Hi Ls Hl Lq.
  exists (rev (map (fun p => snd p * sy / sx ^ (d - fst p)) (combine (seq 0 (length q)) q))).
  assert (V : forall u, basis_sum powB
     (rev (map (fun p => snd p * sy / sx ^ (d - fst p)) (combine (seq 0 (length q)) q))) u
     = sy * basis_sum powB (rev q) (u / sx)) by (intros; apply denorm_value; auto).
  split.
  { unfold robust_polyfit, normalise_input. rewrite Hx, Hy, !scaled_list by auto.
    rewrite Hi. cbn [bind]. rewrite Ls, Nat.eqb_refl. cbn [negb]. rewrite Hl. cbn [bind].
    rewrite denormalise_real by auto. rewrite map_rev. reflexivity. }
  split; [rewrite rev_length, map_length, combine_length, seq_length; lia|].
  split; [exact V|]. intros H xi yi Hin. rewrite V, (H xi yi Hin). field. auto.
Qed.

Lemma robust_start_default :
  forall (A : Type) (N : Num A) (x y : list A) (degree : nat),
    robust_init x y degree None = Ok (repeat (nZ 1) (degree + 1)).
Proof.
  intros. unfold robust_init. f_equal. generalize (degree + 1)%nat as n. intros n. generalize 0%nat as s.
  induction n as [|n IH]; intros s; cbn; [reflexivity|]. rewrite IH. reflexivity.
Qed.

(** What a call of robust_polyfit that returned has done. *)
Lemma robust_polyfit_inv (ls : optimiser xr) (x y : list R) (d : nat) x0 (sx sy : R) c :
  np_std (map Fin x) = Fin sx -> np_std (map Fin y) = Fin sy -> sx <> 0 -> sy <> 0 ->
  robust_polyfit ls (map Fin x) (map Fin y) d x0 = Ok c ->
  exists start r, robust_init (map Fin x) (map Fin y) d x0 = Ok start /\ length start = (d + 1)%nat /\
    ls (map Fin (map (fun v => v / sx) x)) (map Fin (map (fun v => v / sy) y)) d start = Ok r.
Proof.
  intros Hx Hy Nx Ny H. unfold robust_polyfit, normalise_input in H. rewrite Hx, Hy, !scaled_list in H by auto.
  destruct (robust_init (map Fin x) (map Fin y) d x0) as [start|]; [|discriminate]. cbn [bind] in H.
  destruct (Nat.eqb_spec (length start) (d + 1)) as [L|]; [|discriminate]. cbn [negb] in H.
  destruct (ls _ _ d start) as [r|] eqn:E; [|discriminate]. exists start, r. auto.
Qed.

(** C19: whenever robust_polyfit returns, it has called the optimiser once, with the data
    divided by their standard deviations and a start of degree+1 coefficients (all one if
    no initial coefficients were given), and the coefficients it returns (lowest first)
    describe sy * q(u / sx), q being the polynomial found (highest first); hence exact
    interpolation of the normalised data is exact interpolation of the data. *)
Lemma robust_polyfit_denormalises_main :
  forall (ls : optimiser xr) (x y : list R) (degree : nat) x0 (sx sy : R) c,
    np_std (map Fin x) = Fin sx -> np_std (map Fin y) = Fin sy -> sx <> 0 -> sy <> 0 ->
    let xn := map Fin (map (fun v => v / sx) x) in
    let yn := map Fin (map (fun v => v / sy) y) in
    (forall s r, ls xn yn degree s = Ok r -> exists q, r = map Fin q /\ length q = (degree + 1)%nat) ->
    robust_polyfit ls (map Fin x) (map Fin y) degree x0 = Ok c ->
    exists start q r, length start = (degree + 1)%nat /\ (x0 = None -> start = repeat (Fin 1) (degree + 1)) /\
      ls xn yn degree start = Ok (map Fin q) /\ c = map Fin r /\ length r = (degree + 1)%nat /\
      (forall u, basis_sum powB r u = sy * basis_sum powB (rev q) (u / sx)) /\
      ((forall xi yi, In (xi, yi) (combine x y) -> basis_sum powB (rev q) (xi / sx) = yi / sy) ->
        forall xi yi, In (xi, yi) (combine x y) -> basis_sum powB r xi = yi).
Proof.
  intros ls x y d x0 sx sy c Hx Hy Nx Ny xn yn Hq H.
  destruct (robust_polyfit_inv ls x y d x0 sx sy c Hx Hy Nx Ny H) as (start & r0 & Hi & Ls & El).
  destruct (Hq _ _ El) as (q & -> & Lq).
  destruct (robust_polyfit_denorm ls x y d x0 sx sy start q Hx Hy Nx Ny Hi Ls El Lq) as (r & E & Lr & V & I).
  exists start, q, r. split; [exact Ls|]. split.
  { intros ->. rewrite robust_start_default, nZ_Fin in Hi. congruence. }
  split; [exact El|]. split; [congruence|]. auto.
Qed.

(** The hypotheses are met: x = [0;4], y = [0;8], degree 1, no initial guess, and an
    optimiser that returns the line 2u (normalised: u). *)
Example robust_polyfit_example_main :
  np_std (map Fin [0; 4]) = Fin 2 /\ np_std (map Fin [0; 8]) = Fin 4 /\
  (exists c, robust_polyfit (fun _ _ _ _ => Ok (map Fin [1; 0])) (map Fin [0; 4]) (map Fin [0; 8]) 1 None = Ok c) /\
  (forall xi yi, In (xi, yi) (combine [0; 4] [0; 8]) -> basis_sum powB (rev [1; 0]) (xi / 2) = yi / 4).
Proof.
  assert (S : forall a, 0 < a -> np_std (map Fin [0; 2 * a]) = Fin a).
  { intros a Ha. unfold np_std, np_mean, np_sum. cbn [map length fold_left]. rewrite !nZ_Fin, !nnat_Fin.
    replace (INR 2) with 2 by (cbn; lra).
    xop. rewrite !xdiv_F by lra. xop. rewrite !xdiv_F by lra.
    replace ((0 + Rabs (0 - (0 + 0 + 2 * a) / 2) * Rabs (0 - (0 + 0 + 2 * a) / 2) +
       Rabs (2 * a - (0 + 0 + 2 * a) / 2) * Rabs (2 * a - (0 + 0 + 2 * a) / 2)) / 2) with (a * a).
    - rewrite xsqrt_F by nra. rewrite sqrt_square by lra. reflexivity.
    - replace (0 - (0 + 0 + 2 * a) / 2) with (- a) by field.
      replace (2 * a - (0 + 0 + 2 * a) / 2) with a by field.
      rewrite Rabs_Ropp, (Rabs_pos_eq a) by lra. field. }
  split; [rewrite <- (S 2) by lra; repeat f_equal; lra|].
  split; [rewrite <- (S 4) by lra; repeat f_equal; lra|].
  split; [eexists; reflexivity|].
  intros xi yi [H|[H|[]]]; injection H as <- <-; cbn; unfold powB; cbn; lra.
Qed.

(* ------------------------------------------------------------------ *)
(** ** C20 *)

(** C20 (part that holds): without initial coefficients the fit starts at the polynomial
    whose degree+1 coefficients, in the normalised coordinates, are all one: an optimiser
    that stays where it starts gives sy * sum (u / sx)^k. *)
Lemma robust_start_default_partial_main :
  forall (x y : list R) (degree : nat) (sx sy : R),
    np_std (map Fin x) = Fin sx -> np_std (map Fin y) = Fin sy -> sx <> 0 -> sy <> 0 ->
    exists c, robust_polyfit (fun _ _ _ start => Ok start) (map Fin x) (map Fin y) degree None = Ok (map Fin c) /\
      length c = (degree + 1)%nat /\
      forall u, basis_sum powB c u = sy * sum_f_R0 (fun k => (u / sx) ^ k) degree.
Proof.
  intros x y d sx sy Hx Hy Nx Ny.
  destruct (robust_polyfit_denorm (fun _ _ _ s => Ok s) x y d None sx sy (repeat (Fin 1) (d + 1)) (repeat 1 (d + 1)) Hx Hy Nx Ny)
    as (c & E & L & V & _).
  - rewrite robust_start_default, nZ_Fin. reflexivity.
  - apply repeat_length.
  - f_equal. induction (d + 1)%nat as [|n IH]; cbn; [reflexivity|]. rewrite <- IH. reflexivity.
  - apply repeat_length.
  - exists c. split; [exact E|]. split; [exact L|]. intros u. rewrite V. f_equal. generalize (u / sx) as v. intros v.
    replace (rev (repeat 1 (d + 1))) with (repeat 1 (d + 1)).
    2:{ clear. induction (d + 1)%nat as [|n IH]; cbn; [reflexivity|]. rewrite <- IH. clear IH.
        induction n as [|n IH]; cbn; [reflexivity|]. f_equal. exact IH. }
    clear. induction d as [|d IH].
    + unfold basis_sum. cbn. unfold powB. cbn. lra.
    + replace (S d + 1)%nat with ((d + 1) + 1)%nat by lia. rewrite repeat_app. cbn [repeat]. rewrite basis_sum_snoc, IH.
      rewrite repeat_length. cbn [sum_f_R0]. unfold powB. replace (d + 1)%nat with (S d) by lia. lra.
Qed.

Lemma pow_eq_cases s a b : 0 < s -> s ^ a = s ^ b -> s = 1 \/ a = b.
Proof.
  intros Hs E.
  assert (G : forall m n, (m < n)%nat -> s ^ m = s ^ n -> s = 1).
  { intros m n L E'. destruct (Rtotal_order s 1) as [H|[H|H]]; auto; exfalso.
    - assert (P : s ^ (n - m) < 1).
      { destruct (n - m)%nat as [|k] eqn:K; [lia|]. cbn [pow].
        assert (s ^ k <= 1) by (rewrite <- (pow1 k); apply pow_incr; lra).
        assert (0 < s ^ k) by (apply pow_lt; auto). nra. }
      assert (0 < s ^ m) by (apply pow_lt; auto).
      replace n with (m + (n - m))%nat in E' by lia. rewrite pow_add in E'. nra.
    - generalize (Rlt_pow s m n H L). lra. }
  destruct (Nat.lt_total a b) as [L|[L|L]]; auto; left; [eapply G|eapply G]; eauto.
Qed.

(** The start that robust_polyfit makes of initial coefficients. *)
Lemma robust_start_when :
  forall (x y p : list R) (degree : nat) (sx sy : R),
    np_std (map Fin x) = Fin sx -> np_std (map Fin y) = Fin sy -> 0 < sx -> 0 < sy ->
    length p = (degree + 1)%nat ->
    exists start, robust_init (map Fin x) (map Fin y) degree (Some (map Fin p)) = Ok (map Fin start) /\
      length start = (degree + 1)%nat /\
      ((forall u, sy * basis_sum powB (rev start) (u / sx) = basis_sum powB (rev p) u) <->
       (forall i v, (i < degree)%nat -> nth_error p i = Some v ->
          v = 0 \/ sx = 1 \/ (2 * i = degree)%nat)).
Proof.
  intros x y p d sx sy Hx Hy Px Py L.
  set (start := map (fun q => (if Nat.ltb (fst q) d then snd q * sx ^ fst q else snd q) / sy)
                    (combine (seq 0 (length p)) p)).
  assert (Ls : length start = (d + 1)%nat) by (unfold start; rewrite map_length, combine_length, seq_length; lia).
  exists start. split.
  { unfold robust_init. rewrite map_length, Hx, Hy. destruct (Nat.ltb_spec (length p) d); [lia|].
    f_equal. unfold start. rewrite map_map. generalize 0%nat as s. clear - Py.
    induction p as [|c p IH]; intros s; cbn [length seq map combine]; auto. rewrite IH. f_equal.
    cbn [fst snd]. rewrite npow_real. destruct (Nat.ltb s d); cbn [nmul XRnum xmul]; rewrite xdiv_F by lra; auto. }
  split; [exact Ls|].
  assert (V : forall u, sy * basis_sum powB (rev start) (u / sx) =
     basis_sum powB (rev (map (fun q => snd q * sy / sx ^ (d - fst q)) (combine (seq 0 (length start)) start))) u)
    by (intros u; symmetry; apply denorm_value; auto; lra).
  set (back := map (fun q => snd q * sy / sx ^ (d - fst q)) (combine (seq 0 (length start)) start)) in *.
  assert (Hb : back = map (fun q => if Nat.ltb (fst q) d then snd q * sx ^ fst q / sx ^ (d - fst q) else snd q)
                          (combine (seq 0 (length p)) p)).
  { unfold back. rewrite Ls, <- L. unfold start. assert (G : forall l s, (s + length l = d + 1)%nat ->
      map (fun q => snd q * sy / sx ^ (d - fst q)) (combine (seq s (length l))
        (map (fun q => (if Nat.ltb (fst q) d then snd q * sx ^ fst q else snd q) / sy) (combine (seq s (length l)) l)))
      = map (fun q => if Nat.ltb (fst q) d then snd q * sx ^ fst q / sx ^ (d - fst q) else snd q)
            (combine (seq s (length l)) l)).
    { induction l as [|c l IH]; intros s E; cbn [length seq map combine]; auto. cbn [length] in E.
      rewrite IH by lia. f_equal. cbn [fst snd]. assert (sx ^ (d - s) <> 0) by (apply pow_nonzero; lra).
      destruct (Nat.ltb_spec s d); [field; split; auto; lra|].
      replace (d - s)%nat with 0%nat by lia. cbn [pow]. field. lra. }
    apply G. cbn. auto. }
  assert (I : (forall u, sy * basis_sum powB (rev start) (u / sx) = basis_sum powB (rev p) u) <-> back = p).
  { split.
    - intros H. assert (E : rev back = rev p).
      { apply (poly_ident _ _ (map INR (seq 0 (length p)))).
        - rewrite !rev_length, Hb, map_length, combine_length, seq_length. lia.
        - rewrite rev_length, map_length, seq_length, Hb, map_length, combine_length, seq_length. lia.
        - apply FinFun.Injective_map_NoDup; [|apply seq_NoDup]. intros i j E. apply INR_eq in E. auto.
        - intros r _. rewrite <- V. apply H. }
      rewrite <- (rev_involutive back), E. apply rev_involutive.
    - intros H u. rewrite V, H. reflexivity. }
  rewrite I, Hb. clear - Px.
  assert (G : forall l s,
    map (fun q => if Nat.ltb (fst q) d then snd q * sx ^ fst q / sx ^ (d - fst q) else snd q)
        (combine (seq s (length l)) l) = l <->
    (forall i v, (s + i < d)%nat -> nth_error l i = Some v -> v = 0 \/ sx = 1 \/ (2 * (s + i) = d)%nat)).
  { induction l as [|c l IH]; intros s; cbn [length seq map combine].
    - split; auto. intros _ [|i] v _ H; discriminate.
    - specialize (IH (S s)). cbn [fst snd].
      assert (C : (if Nat.ltb s d then c * sx ^ s / sx ^ (d - s) else c) = c <->
                  ((s < d)%nat -> c = 0 \/ sx = 1 \/ (2 * s = d)%nat)).
      { assert (P : sx ^ (d - s) <> 0) by (apply pow_nonzero; lra).
        destruct (Nat.ltb_spec s d) as [Hs|Hs]; [|split; auto; lia]. split.
        - intros E _. destruct (Req_dec c 0) as [Z|Z]; auto. right.
          destruct (pow_eq_cases sx s (d - s) Px) as [H|H]; auto; [|right; lia].
          apply Rmult_eq_reg_l with c; auto. rewrite <- E at 2. field. auto.
        - intros H. destruct (H Hs) as [H1|[H1|H1]].
          + rewrite H1. field. auto.
          + rewrite H1, !pow1. field.
          + replace (d - s)%nat with s in * by lia. field. auto. }
      split.
      + intros E. injection E as E1 E2. rewrite IH in E2. intros [|i] v Hi Hv.
        * injection Hv as <-. rewrite Nat.add_0_r in *. apply C; auto.
        * cbn in Hv. replace (s + S i)%nat with (S s + i)%nat in * by lia. apply (E2 i v); auto.
      + intros H. f_equal.
        * apply C. intros Hs. specialize (H 0%nat c). rewrite Nat.add_0_r in H. auto.
        * apply IH. intros i v Hi Hv. replace (S s + i)%nat with (s + S i)%nat in * by lia. auto. }
  apply (G p 0%nat).
Qed.

(** C20 (part that holds): the polynomial at which the fit starts (the one returned when the
    optimiser stays where it starts) is the one given by the initial coefficients p
    (highest power first) exactly when every coefficient but the last is zero, or is the
    one of index degree/2, or the standard deviation of x is one. *)
Lemma robust_start_exact_partial_main :
  forall (x y p : list R) (degree : nat) (sx sy : R),
    np_std (map Fin x) = Fin sx -> np_std (map Fin y) = Fin sy -> 0 < sx -> 0 < sy ->
    length p = (degree + 1)%nat ->
    exists c, robust_polyfit (fun _ _ _ start => Ok start) (map Fin x) (map Fin y) degree (Some (map Fin p)) = Ok (map Fin c) /\
      length c = (degree + 1)%nat /\
      ((forall u, basis_sum powB c u = basis_sum powB (rev p) u) <->
       (forall i v, (i < degree)%nat -> nth_error p i = Some v ->
          v = 0 \/ sx = 1 \/ (2 * i = degree)%nat)).
Proof.
  intros x y p d sx sy Hx Hy Px Py L.
  destruct (robust_start_when x y p d sx sy Hx Hy Px Py L) as (start & Hi & Ls & Hw).
  destruct (robust_polyfit_denorm (fun _ _ _ s => Ok s) x y d (Some (map Fin p)) sx sy (map Fin start) start Hx Hy)
    as (c & E & Lc & V & _); auto; try lra.
  { rewrite map_length. exact Ls. }
  exists c. split; [exact E|]. split; [exact Lc|]. rewrite <- Hw. split; intros H u; [rewrite <- V|rewrite V]; apply H.
Qed.

(** The hypotheses are met, and both sides of the equivalence occur: the deviations
    of [0;4] and [0;8] are 2 and 4, and of degree one only constants are kept. *)
Example robust_start_exact_example_main :
  np_std (map Fin [0; 4]) = Fin 2 /\ np_std (map Fin [0; 8]) = Fin 4 /\
  (forall i v, (i < 1)%nat -> nth_error [0; 5] i = Some v -> v = 0 \/ 2 = 1 \/ (2 * i = 1)%nat) /\
  ~ (forall i v, (i < 1)%nat -> nth_error [3; 5] i = Some v -> v = 0 \/ 2 = 1 \/ (2 * i = 1)%nat).
Proof.
  destruct robust_polyfit_example_main as (H1 & H2 & _). split; [exact H1|]. split; [exact H2|]. split.
  - intros [|i] v Hi H; [|lia]. injection H as <-. auto.
  - intros H. destruct (H 0%nat 3) as [E|[E|E]]; auto; try lra; lia.
Qed.

(** C20 REFUTED: for x = [0;4], y = [0;8] (standard deviations 2 and 4), initial
    coefficients [3;5] and an optimiser that stays where it starts, the returned polynomial
    is neither 3 + 5u nor 3u + 5 at u = 2, although there the values do not depend on rounding. *)
Lemma robust_start_refuted_main :
  exists (x y p c : list f64),
    np_std x = fz 2 /\ np_std y = fz 4 /\
    robust_polyfit (fun _ _ _ start => Ok start) x y 1 (Some p) = Ok c /\
    let value := poly_at (rev c) 1 (fz 2) in
    neqb value (poly_at p 1 (fz 2)) = false /\ neqb value (poly_at (rev p) 1 (fz 2)) = false.
Proof.
  exists (map fz [0; 4]%Z), (map fz [0; 8]%Z), (map fz [3; 5]%Z), [fz 5; fd 15 (-1)].
  split; [vm_compute; reflexivity|]. split; [vm_compute; reflexivity|].
  split; [vm_compute; reflexivity|]. split; vm_compute; reflexivity.
Qed.

(* ------------------------------------------------------------------ *)
(** ** C21 *)

(** C21: the three evaluation functions. *)
Lemma basis_evaluation_main :
  forall (c : list R) (x : R),
    eval_kind FitPoly (Fin x) (map Fin c) = Fin (basis_sum powB c x) /\
    eval_kind FitLegendre (Fin x) (map Fin c) = Fin (basis_sum legB c x) /\
    eval_kind FitChebyshev (Fin x) (map Fin c) = Fin (basis_sum chebB c x).
Proof. intros. split; [apply polyval_real|]. split; [apply legval_real|apply chebval_real]. Qed.

Example basis_evaluation_example_main :
  legB 3 2 = 17 /\ chebB 3 2 = 26 /\
  eval_kind FitLegendre (fz 2) (map fz [1; 1; 2]%Z) = fz 14 /\
  eval_kind FitChebyshev (fz 2) (map fz [1; 1; 1; 1]%Z) = fz 36.
Proof.
  split; [unfold legB; cbn; field|]. split; [unfold chebB; cbn; ring|]. vm_compute. auto.
Qed.

(* ------------------------------------------------------------------ *)
(** ** C22 *)

Lemma eval_kind_low (k : fit_kind) (c : list R) (u : R) :
  k = FitPoly \/ (length c <= 2)%nat -> eval_kind k (Fin u) (map Fin c) = Fin (basis_sum powB c u).
Proof.
  intros H. destruct (basis_evaluation_main c u) as (E1 & E2 & E3).
  destruct k; [exact E1| |]; destruct H as [H|H]; try discriminate.
  - rewrite E2. f_equal. destruct c as [|a [|b [|? ?]]]; cbn in H; try lia; cbn; unfold legB, powB; cbn; lra.
  - rewrite E3. f_equal. destruct c as [|a [|b [|? ?]]]; cbn in H; try lia; cbn; unfold chebB, powB; cbn; lra.
Qed.

(** The coefficients robust_polyfit returns. *)
Lemma robust_polyfit_coeffs (ls : optimiser xr) (x y : list R) (d : nat) x0 (sx sy : R) start (q : list R) :
  np_std (map Fin x) = Fin sx -> np_std (map Fin y) = Fin sy -> sx <> 0 -> sy <> 0 ->
  robust_init (map Fin x) (map Fin y) d x0 = Ok start -> length start = (d + 1)%nat ->
  ls (map Fin (map (fun v => v / sx) x)) (map Fin (map (fun v => v / sy) y)) d start = Ok (map Fin q) ->
  length q = (d + 1)%nat ->
  let c := rev (map (fun p => snd p * sy / sx ^ (d - fst p)) (combine (seq 0 (length q)) q)) in
  robust_polyfit ls (map Fin x) (map Fin y) d x0 = Ok (map Fin c) /\ length c = (d + 1)%nat /\
  (forall u, basis_sum powB c u = sy * basis_sum powB (rev q) (u / sx)) /\
  (hd 0 q <> 0 -> last c 0 <> 0).
Proof.
  intros Hx Hy Nx Ny Hi Ls Hl Lq c. split; [|split; [|split]].
  - unfold robust_polyfit, normalise_input. rewrite Hx, Hy, !scaled_list by auto.
    rewrite Hi. cbn [bind]. rewrite Ls, Nat.eqb_refl. cbn [negb]. rewrite Hl. cbn [bind].
    rewrite denormalise_real by auto. unfold c. rewrite map_rev. reflexivity.
  - unfold c. rewrite rev_length, map_length, combine_length, seq_length. lia.
  - intros u. apply denorm_value; auto.
  - intros Hq. unfold c. destruct q as [|q0 q]; [cbn in Lq; lia|]. cbn [length seq combine map rev fst snd].
    rewrite last_last. cbn [hd] in Hq. unfold Rdiv. apply Rmult_integral_contrapositive_currified.
    + apply Rmult_integral_contrapositive_currified; auto.
    + apply Rinv_neq_0_compat, pow_nonzero. exact Nx.
Qed.

Lemma fit_type_holds :
  forall (ls : optimiser xr) (x y : list R) (degree : nat) x0 (sx sy : R) start (q : list R) (k : fit_kind),
    np_std (map Fin x) = Fin sx -> np_std (map Fin y) = Fin sy -> sx <> 0 -> sy <> 0 ->
    robust_init (map Fin x) (map Fin y) degree x0 = Ok start ->
    length start = (degree + 1)%nat ->
    ls (map Fin (map (fun v => v / sx) x)) (map Fin (map (fun v => v / sy) y)) degree start
      = Ok (map Fin q) ->
    length q = (degree + 1)%nat ->
    k = FitPoly \/ (degree <= 1)%nat ->
    exists c, robust_polyfit ls (map Fin x) (map Fin y) degree x0 = Ok (map Fin c) /\
      forall u, eval_kind k (Fin u) (map Fin c) = Fin (sy * basis_sum powB (rev q) (u / sx)).
Proof.
  intros ls x y d x0 sx sy start q k Hx Hy Nx Ny Hi Ls Hl Lq H.
  destruct (robust_polyfit_coeffs ls x y d x0 sx sy start q Hx Hy Nx Ny Hi Ls Hl Lq) as (E & L & V & _).
  set (c := rev _) in *. clearbody c. exists c. split; [exact E|]. intros u. rewrite <- V.
  apply eval_kind_low. destruct H; [left; auto|right; lia].
Qed.

Lemma fit_type_fails :
  forall (ls : optimiser xr) (x y : list R) (degree : nat) x0 (sx sy : R) start (q : list R) (k : fit_kind),
    np_std (map Fin x) = Fin sx -> np_std (map Fin y) = Fin sy -> sx <> 0 -> sy <> 0 ->
    robust_init (map Fin x) (map Fin y) degree x0 = Ok start ->
    length start = (degree + 1)%nat ->
    ls (map Fin (map (fun v => v / sx) x)) (map Fin (map (fun v => v / sy) y)) degree start
      = Ok (map Fin q) ->
    length q = (degree + 1)%nat ->
    k <> FitPoly -> (2 <= degree)%nat -> hd 0 q <> 0 ->
    exists c, robust_polyfit ls (map Fin x) (map Fin y) degree x0 = Ok (map Fin c) /\
      forall points, NoDup points -> (degree < length points)%nat ->
        exists u, In u points /\
          eval_kind k (Fin u) (map Fin c) <> Fin (sy * basis_sum powB (rev q) (u / sx)).
Proof.
  intros ls x y d x0 sx sy start q k Hx Hy Nx Ny Hi Ls Hl Lq Hk Hd Hq.
  destruct (robust_polyfit_coeffs ls x y d x0 sx sy start q Hx Hy Nx Ny Hi Ls Hl Lq) as (E & L & V & Hlast).
  specialize (Hlast Hq). set (c := rev _) in *. clearbody c. exists c. split; [exact E|].
  intros points Hn Hp.
  assert (G : exists u, In u points /\
     match k with FitPoly => False | FitLegendre => basis_sum legB c u <> basis_sum powB c u
                | FitChebyshev => basis_sum chebB c u <> basis_sum powB c u end).
  { destruct k; [congruence| |].
    - apply leg_differs; auto; lia.
    - apply cheb_differs; auto; lia. }
  destruct G as (u & Hu & G). exists u. split; [exact Hu|]. rewrite <- V.
  destruct (basis_evaluation_main c u) as (_ & E2 & E3).
  destruct k; [destruct G| |].
  - rewrite E2. intros K. apply G. congruence.
  - rewrite E3. intros K. apply G. congruence.
Qed.

(** C22 (part that holds): for fit_type "poly", and for any fit_type up to degree 1,
    evaluating the coefficients that robust_polyfit returned in the basis of the fit_type
    gives the polynomial that the optimiser found (q in normalised coordinates). *)
Lemma fit_type_consistent_partial_main :
  forall (ls : optimiser xr) (x y : list R) (degree : nat) x0 (sx sy : R) (k : fit_kind) c,
    np_std (map Fin x) = Fin sx -> np_std (map Fin y) = Fin sy -> sx <> 0 -> sy <> 0 ->
    let xn := map Fin (map (fun v => v / sx) x) in
    let yn := map Fin (map (fun v => v / sy) y) in
    (forall s r, ls xn yn degree s = Ok r -> exists q, r = map Fin q /\ length q = (degree + 1)%nat) ->
    robust_polyfit ls (map Fin x) (map Fin y) degree x0 = Ok c ->
    k = FitPoly \/ (degree <= 1)%nat ->
    exists start q, ls xn yn degree start = Ok (map Fin q) /\
      forall u, eval_kind k (Fin u) c = Fin (sy * basis_sum powB (rev q) (u / sx)).
Proof.
  intros ls x y d x0 sx sy k c Hx Hy Nx Ny xn yn Hq H Hk.
  destruct (robust_polyfit_inv ls x y d x0 sx sy c Hx Hy Nx Ny H) as (start & r0 & Hi & Ls & El).
  destruct (Hq _ _ El) as (q & -> & Lq). exists start, q. split; [exact El|].
  destruct (fit_type_holds ls x y d x0 sx sy start q k Hx Hy Nx Ny Hi Ls El Lq Hk) as (r & E & V).
  assert (c = map Fin r) as -> by congruence. exact V.
Qed.

(** C22 REFUTED: from degree 2 on, with fit_type "legendre" or "chebyshev", the
    coefficients that robust_polyfit returned are those of another polynomial whenever
    the one found really has that degree: among any degree + 1 points there is one where
    the evaluation misses the fitted value. *)
Lemma fit_type_consistent_refuted_main :
  forall (ls : optimiser xr) (x y : list R) (degree : nat) x0 (sx sy : R) (k : fit_kind) c,
    np_std (map Fin x) = Fin sx -> np_std (map Fin y) = Fin sy -> sx <> 0 -> sy <> 0 ->
    let xn := map Fin (map (fun v => v / sx) x) in
    let yn := map Fin (map (fun v => v / sy) y) in
    (forall s r, ls xn yn degree s = Ok r -> exists q, r = map Fin q /\ length q = (degree + 1)%nat /\ hd 0 q <> 0) ->
    robust_polyfit ls (map Fin x) (map Fin y) degree x0 = Ok c ->
    k <> FitPoly -> (2 <= degree)%nat ->
    exists start q, ls xn yn degree start = Ok (map Fin q) /\
      forall points, NoDup points -> (degree < length points)%nat ->
        exists u, In u points /\
          eval_kind k (Fin u) c <> Fin (sy * basis_sum powB (rev q) (u / sx)).
Proof.
  intros ls x y d x0 sx sy k c Hx Hy Nx Ny xn yn Hq H Hk Hd.
  destruct (robust_polyfit_inv ls x y d x0 sx sy c Hx Hy Nx Ny H) as (start & r0 & Hi & Ls & El).
  destruct (Hq _ _ El) as (q & -> & Lq & Hh). exists start, q. split; [exact El|].
  destruct (fit_type_fails ls x y d x0 sx sy start q k Hx Hy Nx Ny Hi Ls El Lq Hk Hd Hh) as (r & E & V).
  assert (c = map Fin r) as -> by congruence. exact V.
Qed.

(** Both are met: the refit of (0, 0), (2, 4) with an optimiser that returns u^2 + u - 1;
    read as a Chebyshev series the coefficients give another value at 3. *)
Example fit_type_consistent_example_main :
  np_std (map Fin [0; 2]) = Fin 1 /\ np_std (map Fin [0; 4]) = Fin 2 /\
  (exists c, robust_polyfit (fun _ _ _ _ => Ok (map Fin [1; 1; -1])) (map Fin [0; 2]) (map Fin [0; 4]) 2 None = Ok c) /\
  eval_kind FitPoly (Fin 3) (map Fin [-2; 2; 2]) = Fin (2 * basis_sum powB (rev [1; 1; -1]) (3 / 1)) /\
  eval_kind FitChebyshev (Fin 3) (map Fin [-2; 2; 2]) = Fin 38.
Proof.
  assert (S : forall a, 0 < a -> np_std (map Fin [0; 2 * a]) = Fin a).
  { intros a Ha. unfold np_std, np_mean, np_sum. cbn [map length fold_left]. rewrite !nZ_Fin, !nnat_Fin.
    replace (INR 2) with 2 by (cbn; lra).
    xop. rewrite !xdiv_F by lra. xop. rewrite !xdiv_F by lra.
    replace ((0 + Rabs (0 - (0 + 0 + 2 * a) / 2) * Rabs (0 - (0 + 0 + 2 * a) / 2) +
       Rabs (2 * a - (0 + 0 + 2 * a) / 2) * Rabs (2 * a - (0 + 0 + 2 * a) / 2)) / 2) with (a * a).
    - rewrite xsqrt_F by nra. rewrite sqrt_square by lra. reflexivity.
    - replace (0 - (0 + 0 + 2 * a) / 2) with (- a) by field.
      replace (2 * a - (0 + 0 + 2 * a) / 2) with a by field.
      rewrite Rabs_Ropp, (Rabs_pos_eq a) by lra. field. }
  split; [rewrite <- (S 1) by lra; repeat f_equal; lra|].
  split; [rewrite <- (S 2) by lra; repeat f_equal; lra|].
  split; [eexists; reflexivity|].
  destruct (basis_evaluation_main [-2; 2; 2] 3) as (E1 & _ & E3). rewrite E1, E3.
  split; f_equal; cbn; unfold powB, chebB; cbn; lra.
Qed.

(** * Main_Density: which density the bonus of a trial fit is taken from. *)

From Coq Require Import ZArith Bool List String Lia Reals Lra.
From Verif Require Import Num F64 XReal Py Np NpFacts Util Models Atlas Hough SpecHough HoughFacts PolyEval Calib Cand Ransac RansacFacts Main_Ransac SpecVote RecoverFacts Main_Recover.
Import ListNotations.
Local Open Scope num_scope.

Lemma shifted_edges lo hi n : (1 <= n)%nat ->
  map (fun e => e -' (Fin (edge lo hi n 1) -' Fin (edge lo hi n 0)) /' nZ 2)
    (tl (map Fin (map (edge lo hi n) (seq 0 (S n))))) = map Fin (map (centre lo hi n) (seq 0 n)).
Proof.
  intros Hn. cbn [seq map tl]. rewrite nZ_Fin. rewrite <- seq_shift, !map_map. apply map_ext. intros i.
  change (Fin (edge lo hi n 1) -' Fin (edge lo hi n 0)) with (Fin (edge lo hi n 1 + - edge lo hi n 0)).
  rewrite xdiv_Fin by (cbn; lra).
  match goal with |- Fin ?a -' Fin ?b = _ => change (Fin a -' Fin b) with (Fin (a + - b)) end. f_equal.
  unfold centre, edge. rewrite S_INR. cbn [INR IZR IPR]. cbn.
  assert (INR n <> 0)%R by (apply not_0_INR; lia). field. auto.
Qed.

(** C67, what is computed: for the histogram left by a transform with bins [xb] by [yb]
    over the slopes from lo_s to hi_s and the intercepts from lo_i to hi_i, the
    interpolation is made through the centres of the bins, slopes first, and the bonus is
    hough_weight times the sum over the pixels of its value at (intercept, slope) of the
    tangent of the trial fit. *)
Lemma hough_density_partial_main :
  forall (o : oracle xr) c x y deg size n coeff brute f l s0 hist lo_s hi_s xb lo_i hi_i yb (w : R) k pixels,
    (1 <= xb)%nat -> (1 <= yb)%nat ->
    stored (c_ht c) hist (map (edge lo_s hi_s xb) (seq 0 (S xb))) (map (edge lo_i hi_i yb) (seq 0 (S yb))) ->
    r_hweight (c_rp c) = Some (Fin w) -> c_kind c = Some k -> g_pixels (c_gp c) = Some pixels ->
    ransac_setup o c x y deg size n coeff brute = Ok (f, l, s0) ->
    exists density,
      o_spline o (map Fin (map (centre lo_s hi_s xb) (seq 0 xb))) (map Fin (map (centre lo_i hi_i yb) (seq 0 yb))) hist
        = Ok density /\
      forall c0 c1 co,
        hough_bonus f (c0 :: c1 :: co) =
          Ok (Fin w *' np_sum (map (fun p => let slope := eval_kind k p (derivative (c0 :: c1 :: co)) in
                                             let intercept := eval_kind k p (c0 :: c1 :: co) -' slope *' p in
                                             density intercept slope) pixels)).
Proof.
  intros o c x y deg size n coeff brute f l s0 hist lo_s hi_s xb lo_i hi_i yb w k pixels Hx Hy (S1 & S2 & S3) Hw Hk Hp H.
  assert (E1 := shifted_edges lo_s hi_s xb Hx). assert (E2 := shifted_edges lo_i hi_i yb Hy).
  unfold ransac_setup in H. apply bind_Ok in H. destruct H as (sp & Hsp & H).
  unfold make_spline in Hsp. rewrite S1, S2, S3, Hw in Hsp. cbn [need bind] in Hsp.
  destruct xb as [|xb]; [lia|]. destruct yb as [|yb]; [lia|].
  set (xe := map Fin (map (edge lo_s hi_s (S xb)) (seq 0 (S (S xb))))) in *.
  set (ye := map Fin (map (edge lo_i hi_i (S yb)) (seq 0 (S (S yb))))) in *.
  assert (Ex : exists r, xe = Fin (edge lo_s hi_s (S xb) 0) :: Fin (edge lo_s hi_s (S xb) 1) :: r) by (eexists; reflexivity).
  assert (Ey : exists r, ye = Fin (edge lo_i hi_i (S yb) 0) :: Fin (edge lo_i hi_i (S yb) 1) :: r) by (eexists; reflexivity).
  clearbody xe ye. destruct Ex as (rx & Ex). destruct Ey as (ry & Ey). rewrite Ex, Ey in Hsp. cbv zeta in Hsp.
  cbn [nisfinite XRnum xisfinite] in Hsp. rewrite <- Ex, <- Ey, E1, E2 in Hsp.
  apply bind_Ok in Hsp. destruct Hsp as (density & Hd & Hsp). exists density. split; [exact Hd|].
  intros c0 c1 co. rewrite Hk in H. cbn [need bind] in H.
  apply bind_Ok in H. destruct H as (best & _ & H).
  apply bind_Ok in H. destruct H as (prob & _ & H). apply bind_Ok in H. destruct H as (tol & _ & H).
  apply bind_Ok in H. destruct H as (ilo & _ & H). apply bind_Ok in H. destruct H as (ihi & _ & H).
  rewrite Hp in H. cbn [need bind] in H.
  apply bind_Ok in H. destruct H as (e1 & _ & H). apply bind_Ok in H. destruct H as (e2 & _ & H).
  apply bind_Ok in H. destruct H as (e3 & _ & H).
  injection H as <- _ _. unfold hough_bonus. cbn [f_kind f_pixels f_spline f_hw].
  assert (D : exists d0 dr, derivative (c0 :: c1 :: co) = d0 :: dr) by (eexists; eexists; reflexivity).
  destruct D as (d0 & dr & D). rewrite D. assert (sp = Sp density) as -> by congruence.
  rewrite Hw, map_map. reflexivity.
Qed.

Example hough_density_example_main :
  let hist := [[1; 0]; [2; 5]; [0; 3]]%nat in
  let c := set_c_ht (mkHough None None (Some hist) (Some (map Fin (map (edge 5 20 3) (seq 0 4))))
             (Some (map Fin (map (edge 50 150 2) (seq 0 3)))) None None None None) (set_c_kind (Some FitPoly) (ex_c 0)) in
  stored (c_ht c) hist (map (edge 5 20 3) (seq 0 4)) (map (edge 50 150 2) (seq 0 3)) /\
  r_hweight (c_rp c) = Some (Fin 1) /\ g_pixels (c_gp c) = Some (map Fin [0; 1; 2; 3; 4]%R) /\
  map (centre 5 20 3) (seq 0 3) = [15 / 2; 25 / 2; 35 / 2]%R /\
  exists f l s0, ransac_setup ex_o c (map Fin [0; 1; 4]%R) (map Fin [100; 110; 140]%R) 1 2 3 None true = Ok (f, l, s0).
Proof.
  cbv zeta. split; [repeat split|]. split; [reflexivity|]. split; [reflexivity|]. split.
  - cbn [seq map]. unfold centre, edge. cbn [INR]. repeat f_equal; field.
  - eexists. eexists. eexists. unfold ransac_setup. cbn [c_ht set_c_ht c_rp ex_c set_c_kind r_hweight].
    unfold make_spline. cbn [ho_xedges ho_yedges ho_hist need bind map seq]. cbn [nisfinite XRnum xisfinite ex_o o_spline bind].
    reflexivity.
Qed.

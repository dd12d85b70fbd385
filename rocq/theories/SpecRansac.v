(** * SpecRansac: what a solution of the RANSAC search has to satisfy. *)

From Coq Require Import ZArith Bool List Sorted Reals.
From Verif Require Import Num XReal Py Np Models PolyEval Cand Ransac SpecCand.
Import ListNotations.
Local Open Scope num_scope.

Section Spec.
  Context {A : Type} {N : Num A}.

  (** (a, b) is one of the candidate pairs (x_i, y_i). *)
  Definition candidate_pair (x y : list A) (a b : A) : Prop :=
    exists a' b', In (a', b') (combine x y) /\ a' ==' a = true /\ b' ==' b = true.

  (** xs and ys are matched one to one, and each pair is a candidate. *)
  Definition matching (x y xs ys : list A) : Prop :=
    length xs = length ys /\ pairwise_different xs /\ pairwise_different ys /\
    forall k a b, nth_error xs k = Some a -> nth_error ys k = Some b -> candidate_pair x y a b.

  (** Every pair is a candidate nearer than tol to the curve p. *)
  Definition inliers (p : A -> A) (tol : A) (x y xs ys : list A) : Prop :=
    forall k a b, nth_error xs k = Some a -> nth_error ys k = Some b ->
      exists a' b', In (a', b') (combine x y) /\ a' ==' a = true /\ b' ==' b = true /\
                    nabs (p a -' b') <' tol = true.

  (** The sample drawn: size different positions of l. *)
  Definition drawn_from (l s : list A) (n : nat) : Prop :=
    exists idx, NoDup idx /\ length idx = n /\ (forall i, In i idx -> i < length l)%nat /\ s = gather l idx.

  (** Each value exceeds the one before it. *)
  Definition each_above (l : list A) : Prop :=
    forall k u v, nth_error l k = Some u -> nth_error l (S k) = Some v -> nZ 0 <' (v -' u) = true.

  (** A trial that satisfies every condition for being stored, and its cost: the sum of
      the errors, none counted above the tolerance, over the degrees of freedom and over
      the weight from the Hough space. *)
  Definition trial_result (o : oracle A) (f : cfg A) (d : list A * list A) (cost : A) (xs ys co : list A) : Prop :=
    exists tf w err mx my width,
      o_polyfit o (f_kind f) (fst d) (snd d) (f_deg f) = Ok tf /\ tf <> [] /\
      hd (nZ 0) tf <' f_ilo f = false /\ f_ihi f <' hd (nZ 0) tf = false /\
      np_ptp (f_peaks f) = Ok width /\
      (let lo := hd (nZ 0) (f_peaks f) -' width *' nlit 2 (-1) in
       let hi := last (f_peaks f) (nZ 0) +' width *' nlit 2 (-1) in
       nceil (hi -' lo) <> None /\
       each_above (map (fun p => eval_kind (f_kind f) p tf) (np_arange1 lo hi))) /\
      match_bijective (fun p => eval_kind (f_kind f) p tf) (f_dict f) (f_peaks f) = Ok (err, mx, my) /\
      hough_bonus f tf = Ok w /\
      let clipped := map (fun e => if f_tol f <' e then f_tol f else e) err in
      let inlier := map (fun e => e <' f_tol f) clipped in
      cost = np_sum clipped /' nZ (Z.of_nat (length err) - Z.of_nat (length tf) + 1) /' (w +' nlit 1 (-9)) /\
      (* the matches nearer than the tolerance and the polynomial refitted to them *)
      xs = mask_select inlier mx /\ ys = mask_select inlier my /\
      (f_deg f < length xs)%nat /\
      robust_polyfit (o_ls o) xs ys (f_deg f) None = Ok co /\
      (let resid := map (fun q => let r := eval_kind (f_kind f) (fst q) co -' snd q in
                                  if f_tol f <' nabs r then f_tol f else r) (combine xs ys) in
       nsqrt (np_mean (map (fun v => v *' v) resid)) <' f_minerr f = false) /\
      nnat (length xs) <' f_minmatch f = false /\
      nnat (length xs) <' f_minutil f *' nnat (f_npeaks f) = false.

  Definition good_trial (o : oracle A) (f : cfg A) (d : list A * list A) (cost : A) : Prop :=
    exists xs ys co, trial_result o f d cost xs ys co.
End Spec.

(** Over exact numbers: no listed wavelength above v is nearer than three tolerances. *)
Definition isolated (t : R) (y : list R) (v : R) : bool :=
  forallb (fun z => negb (Rltb v z) || Rleb (3 * t) (z - v)) y.

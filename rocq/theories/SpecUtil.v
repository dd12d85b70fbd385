(** * SpecUtil: what the functions of util.py should do, stated without
    reference to how the model computes it. *)

From Coq Require Import ZArith Bool List String Lia Sorted Reals.
From Verif Require Import Num XReal Py Util.
Import ListNotations.

(** [subseq l1 l2]: l1 arises from l2 by leaving out elements. *)
Inductive subseq {T} : list T -> list T -> Prop :=
| subseq_nil : subseq [] []
| subseq_keep x l1 l2 : subseq l1 l2 -> subseq (x :: l1) (x :: l2)
| subseq_skip x l1 l2 : subseq l1 l2 -> subseq l1 (x :: l2).

Section Spec.
  Context {A : Type} {N : Num A}.
  Local Open Scope num_scope.

  (** lo <= w <= hi *)
  Definition within (lo hi w : A) : Prop := lo <=' w = true /\ w <=' hi = true.

  (** Row r stands at position i and no earlier row has the same wavelength. *)
  Definition earliest (lines : list (line A)) (i : nat) (r : line A) : Prop :=
    nth_error lines i = Some r /\
    forall j q, (j < i)%nat -> nth_error lines j = Some q -> l_wl q ==' l_wl r = false.

  Definition increasing_wl (l : list (line A)) : Prop :=
    StronglySorted (fun a b => l_wl a <' l_wl b = true) l.

  (** The threshold that applies to element e. *)
  Definition threshold (elements : list string) (m : thr A) (e : string) (t : A) : Prop :=
    match m with
    | ThNone => In e elements /\ t = nZ 0
    | ThNum a => In e elements /\ t = a
    | ThList l => exists k, nth_error elements k = Some e /\ nth_error l k = Some t /\
                   forall k', (k < k')%nat -> nth_error elements k' <> Some e
    | ThOther => False
    end.

  (** Does the line pass the intensity cut (None and unsupported types: no cut)? *)
  Definition bright_enough (elements : list string) (m : thr A) (r : line A) : Prop :=
    match m with
    | ThNum _ | ThList _ => exists t, threshold elements m (l_el r) t /\ t <=' l_int r = true
    | _ => True
    end.
End Spec.

Section SpecLoad.
  Context {A : Type} {N : Num A}.

  (** The rows of a catalogue whose element was asked for. *)
  Definition requested (elements : list string) (rows : list (line A)) : list (line A) :=
    filter (fun r => if in_dec string_dec (l_el r) elements then true else false) rows.

  (** [sel] holds exactly the requested rows in [lo, hi] that are bright enough,
      one (the earliest) per wavelength, in increasing wavelength. *)
  Definition selection (rows : list (line A)) (elements : list string) (lo hi : A) (m : thr A)
      (sel : list (line A)) : Prop :=
    increasing_wl sel /\
    forall r, In r sel <->
      (exists i, earliest (requested elements rows) i r) /\
      within lo hi (l_wl r) /\ bright_enough elements m r.
End SpecLoad.

Section SpecRefine.
  Context {A : Type} {N : Num A}.
  Local Open Scope num_scope.

  (** v is v0 divided by some (possibly no) numbers in turn. *)
  Definition rescaled (v0 v : A) : Prop := exists ds, v = fold_left ndiv ds v0.

  (** The samples [y] fitted for a peak at integer position [ip]: the entries
      number max(0, ip-width) to min(ip+width, length) - 1 of the spectrum, each
      possibly rescaled. *)
  Definition window_samples (sp : list A) (width ip : Z) (y : list A) : Prop :=
    let start := Z.to_nat (Z.max 0 (ip - width)) in
    let stop := Z.to_nat (Z.min (ip + width) (Z.of_nat (List.length sp))) in
    (0 < List.length y)%nat /\ (start + List.length y = stop)%nat /\
    forall k v, nth_error y k = Some v ->
      exists v0, nth_error sp (start + k) = Some v0 /\ rescaled v0 v.

  (** For this peak the fitter was given the finite samples of the peak's window
      (at abscissae 0, 1, 2, ...) and reported a centre [c] with a height that is
      not negative, the centre being neither negative nor beyond the spectrum. *)
  Definition fitted (cf : curve_fitter A) (sp : list A) (width : Z) (peak c : A) : Prop :=
    exists ip y mean sigma h,
      ntrunc peak = Some ip /\
      ((0 <= ip + width)%Z -> window_samples sp width ip y) /\
      (let keep := filter (fun q => nisfinite (snd q) && negb (nisnan (snd q)))
                     (combine (map nnat (seq 0 (List.length y))) y) in
       cf (map fst keep) (map snd keep) mean sigma = Ok (h, c)) /\
      h <' nZ 0 = false /\ c <' nZ 0 = false /\ nZ (Z.of_nat (List.length sp)) <' c = false.

  (** A supported min_intensity argument. *)
  Definition valid_thr (elements : list string) (m : thr A) : Prop :=
    match m with
    | ThOther => False
    | ThList l => List.length l = List.length elements
    | _ => True
    end.

  (** [out] is row [r] with its wavelength in the requested medium. *)
  Definition presented (a : load_args A) (r out : line A) : Prop :=
    l_el out = l_el r /\ l_int out = l_int r /\
    if la_vacuum a then l_wl out = l_wl r
    else vacuum_to_air [l_wl r] (la_temperature a) (la_pressure a) (la_rh a) = [l_wl out].

  (** The limits of a request in vacuum wavelengths. *)
  Definition vacuum_limits (a : load_args A) (lo hi : A) : Prop :=
    if la_vacuum a then lo = la_min_wl a /\ hi = la_max_wl a
    else air_to_vacuum [la_min_wl a; la_max_wl a] (la_temperature a) (la_pressure a) (la_rh a)
         = [lo; hi].
End SpecRefine.

(** Two rows at least d apart in wavelength. *)
Definition apart (d : R) (r q : line xr) : Prop :=
  exists w v, l_wl r = Fin w /\ l_wl q = Fin v /\ (d <= Rabs (v - w))%R.

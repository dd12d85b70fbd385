(** * Main_SaveName: which file names save and load agree on (C33). *)

From Coq Require Import ZArith Bool List String Lia.
From Verif Require Import Num F64 Py Np Hough SpecHough HoughFacts Main_Hough.
Import ListNotations.
Local Open Scope string_scope.

(** C33 (what holds), for every name and either file type: if the name does not end in the
    suffix of the file type, load(name) after save(name) succeeds and restores everything
    stored; if it does, load behaves as if nothing had been saved, and so fails when there
    was no file of that name before. *)
Lemma save_load_name_partial_main :
  forall (A : Type) (N : Num A) (h g : hough A) pts fs name fmt,
    complete h -> ho_points h = Some (HArr pts) -> fmt = "npy" \/ fmt = "json" ->
    let suffix := "." ++ fmt in
    let saved := hough_save h fs name fmt true in
    let loaded := hough_load g (fst saved) name fmt in
    snd saved = Ok SvNone /\
    (str_last (String.length suffix) name <> suffix ->
       snd loaded = Ok tt /\
       ho_points (fst loaded) = Some (if fmt =? "npy" then HArr pts else HList pts) /\
       ho_hist (fst loaded) = ho_hist h /\ ho_xedges (fst loaded) = ho_xedges h /\
       ho_yedges (fst loaded) = ho_yedges h /\ ho_lims (fst loaded) = ho_lims h) /\
    (str_last (String.length suffix) name = suffix ->
       loaded = hough_load g fs name fmt /\
       (fs name = None -> loaded = (g, Raise FileNotFoundError))).
Proof.
  intros A N h g pts fs name fmt C P [->| ->]; cbv zeta.
  - change ("." ++ "npy") with ".npy". change (String.length ".npy") with 4%nat.
    destruct (hough_save h fs name "npy" true) as [fs' r] eqn:E1. cbn [fst snd].
    destruct (hough_load g fs' name "npy") as [g' rl] eqn:E2. cbn [fst snd].
    split; [|split].
    + unfold hough_save in E1. cbn in E1. congruence.
    + intros Hn. destruct (npy_round_trip_main A N h g g' fs fs' name "npy" r rl C eq_refl Hn E1 E2) as (R1 & R2 & _).
      split; [exact R1|]. destruct R2 as (S1 & S2 & S3 & S4 & S5). rewrite P in S1.
      change ("npy" =? "npy") with true. cbv iota. repeat split; congruence.
    + intros Hn. assert (K : (g', rl) = hough_load g fs name "npy").
      { rewrite <- E2. rewrite <- (npy_name_affected_partial_main A N h g fs name Hn). rewrite E1. reflexivity. }
      split; [exact K|]. intros F. rewrite K. unfold hough_load, with_suffix. cbn [String.length].
      change ("npy" =? "npy") with true. cbv iota. rewrite Hn. rewrite String.eqb_refl, F. reflexivity.
  - change ("." ++ "json") with ".json". change (String.length ".json") with 5%nat.
    destruct (hough_save h fs name "json" true) as [fs' r] eqn:E1. cbn [fst snd].
    destruct (hough_load g fs' name "json") as [g' rl] eqn:E2. cbn [fst snd].
    assert (Q : r = Ok SvNone /\ forall n, n <> name ++ ".json" -> fs' n = fs n).
    { unfold hough_save in E1. cbn [split_plus] in E1. cbn in E1.
      unfold json_of in E1. destruct C as (C1 & C2 & C3 & C4 & C5). rewrite P in E1.
      destruct (ho_hist h); [|congruence]. destruct (ho_xedges h); [|congruence].
      destruct (ho_yedges h); [|congruence]. cbn in E1. injection E1 as <- <-. split; [reflexivity|].
      intros n Hn. unfold write. destruct (String.eqb_spec n (name ++ ".json")); congruence. }
    destruct Q as [Q1 Q2]. split; [exact Q1|]. split.
    + intros Hn. destruct (json_round_trip_main A N h g g' pts fs fs' name "json" r rl C P eq_refl Hn E1 E2)
        as (_ & R1 & R2 & R3 & R4 & R5 & R6 & _). repeat split; auto.
    + intros Hn.
      assert (NE : name <> name ++ ".json").
      { intros E. apply (f_equal String.length) in E. rewrite str_append_length in E. cbn in E. lia. }
      assert (K : (g', rl) = hough_load g fs name "json").
      { rewrite <- E2. unfold hough_load, with_suffix. cbn [String.length].
        change ("json" =? "npy") with false. change ("json" =? "json") with true. cbv iota.
        rewrite Hn, String.eqb_refl, Q2 by exact NE. reflexivity. }
      split; [exact K|]. intros F. rewrite K. unfold hough_load, with_suffix. cbn [String.length].
      change ("json" =? "npy") with false. change ("json" =? "json") with true. cbv iota.
      rewrite Hn, String.eqb_refl, F. reflexivity.
Qed.

(** A name of each kind, for a transform that was binned. *)
Example save_load_name_example_main :
  complete binned_example /\
  (exists pts, ho_points binned_example = Some (HArr pts)) /\
  snd (hough_load hough_init (fst (hough_save binned_example (fun _ => None) "run.json" "npy" true)) "run.json" "npy")
    = Ok tt /\
  snd (hough_load hough_init (fst (hough_save binned_example (fun _ => None) "run.json" "json" true)) "run.json" "json")
    = Raise FileNotFoundError.
Proof.
  split; [vm_compute; repeat split; discriminate|]. split; [eexists; vm_compute; reflexivity|].
  split; vm_compute; reflexivity.
Qed.

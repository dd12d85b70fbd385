(** * Main_SaveSteps: saving a Hough transform that is interrupted, or with limits that
    json.dump cannot write. *)

From Coq Require Import ZArith Bool List String Ascii Lia FunctionalExtensionality.
From Verif Require Import Num F64 Py Np Atlas Hough SpecHough HoughFacts Main_Hough SaveSteps.
Import ListNotations.
Local Open Scope string_scope.

Lemma suffix_neq name : name ++ ".npy" <> name ++ ".json".
Proof.
  intros E. assert (L : String.length (name ++ ".npy") = String.length (name ++ ".json")) by (rewrite E; auto).
  assert (G : forall a b, String.length (a ++ b) = (String.length a + String.length b)%nat).
  { induction a as [|c a IH]; intros b; cbn; auto. }
  rewrite !G in L. cbn in L. lia.
Qed.

Lemma write_over {A} {N : Num A} (fs : files A) n f g : write (write fs n f) n g = write fs n g.
Proof. apply functional_extensionality. intros m. unfold write. destruct (String.eqb m n); reflexivity. Qed.

Lemma write_same {A} (fs : files A) n f : write fs n f n = Some f.
Proof. unfold write. rewrite String.eqb_refl. reflexivity. Qed.
Lemma write_other {A} (fs : files A) n m f : m <> n -> write fs n f m = fs m.
Proof. intros H. unfold write. destruct (String.eqb_spec m n); congruence. Qed.

(** What holds: unless both min_wavelength and range_tolerance are integers and one of them
    a numpy integer, the steps are those of save as otherwise modelled: the same files
    in the end and the same result. *)
Lemma save_kinds_partial_main :
  forall (A : Type) (N : Num A) (w t : numtype) (h : hough A) (fs : files A) name fmt,
    ~ ((w = PyInt \/ w = NpInt) /\ (t = PyInt \/ t = NpInt) /\ (w = NpInt \/ t = NpInt)) ->
    let s := save_steps (limit_types w t) h name fmt in
    disk_after fs (fst s) (List.length (fst s)) = fst (hough_save h fs name fmt true) /\
    snd s = snd (hough_save h fs name fmt true).
Proof.
  intros A N w t h fs name fmt H. cbv zeta.
  assert (J : forallb json_ok (limit_types w t) = true).
  { destruct w, t; try reflexivity; exfalso; apply H; auto 6. }
  unfold save_steps, hough_save, disk_after. rewrite J, firstn_all.
  destruct (str_in "npy" (split_plus fmt)), (str_in "json" (split_plus fmt)); cbn [andb];
    try (destruct (json_of h) as [j|e]; cbn [bind]); cbn [fst snd app fold_left disk_do]; rewrite ?write_over; auto.
Qed.

(** Refuted: with a numpy integer and another integer, saving as json raises TypeError, for
    every transform that could be saved, and leaves a file that cannot be loaded, whatever
    was there before. *)
Lemma save_kinds_refuted_main :
  forall (A : Type) (N : Num A) (w t : numtype) (h g : hough A) (fs : files A) name j,
    (w = PyInt \/ w = NpInt) -> (t = PyInt \/ t = NpInt) -> (w = NpInt \/ t = NpInt) ->
    hough_save h fs name "json" true = (write fs (name ++ ".json") (FJson j), Ok SvNone) ->
    str_last 5 name <> ".json" ->
    let s := save_steps (limit_types w t) h name "json" in
    let fs' := disk_after fs (fst s) (List.length (fst s)) in
    snd s = Raise TypeError /\ hough_load g fs' name "json" = (g, Raise ValueError).
Proof.
  intros A N w t h g fs name j Hw Ht Hn Hs Hl. cbv zeta.
  assert (J : forallb json_ok (limit_types w t) = false).
  { destruct Hw as [-> | ->], Ht as [-> | ->], Hn as [E|E]; try discriminate E; reflexivity. }
  unfold save_steps. change (str_in "npy" (split_plus "json")) with false. change (str_in "json" (split_plus "json")) with true.
  unfold hough_save in Hs. change (str_in "npy" (split_plus "json")) with false in Hs.
  change (str_in "json" (split_plus "json")) with true in Hs. cbn [andb] in Hs.
  destruct (json_of h) as [j'|e]; cbn [bind] in Hs; [|discriminate].
  rewrite J. cbn [fst snd app]. split; [reflexivity|].
  unfold disk_after. cbn [List.length firstn fold_left disk_do].
  unfold hough_load. change (String.eqb "json" "npy") with false. change (String.eqb "json" "json") with true. cbv iota.
  unfold with_suffix. change (String.length ".json") with 5%nat. destruct (String.eqb_spec (str_last 5 name) ".json"); [contradiction|].
  rewrite write_same. reflexivity.
Qed.

(** A new calibrator has min_wavelength 3000.0; given np.int64(3000) with the default
    range_tolerance 500 the file is lost. *)
Example save_kinds_example_main :
  snd (save_steps (limit_types PyFloat PyInt) binned_example "t" "json") = Ok SvNone /\
  snd (save_steps (limit_types NpInt PyInt) binned_example "t" "json") = Raise TypeError /\
  snd (save_steps (limit_types NpInt PyInt) binned_example "t" "npy") = Ok SvNone /\
  (exists j, hough_save binned_example (fun _ => None) "t" "json" true = (write (fun _ => None) ("t" ++ ".json") (FJson j), Ok SvNone)).
Proof.
  split; [vm_compute; reflexivity|]. split; [vm_compute; reflexivity|]. split; [vm_compute; reflexivity|].
  unfold hough_save. change (str_in "npy" (split_plus "json")) with false. change (str_in "json" (split_plus "json")) with true.
  cbn [andb]. destruct (json_of binned_example) as [j|e] eqn:E; [|vm_compute in E; discriminate].
  exists j. reflexivity.
Qed.

(* ------------------------------------------------------------------ *)
(** ** Interruption *)

(** Each file, at a moment of saving: as it was, begun, or complete. *)
Lemma disk_cases {A} {N : Num A} ty (h : hough A) (fs : files A) name fmt n :
  let fs' := disk_after fs (fst (save_steps ty h name fmt)) n in
  (forall m, m <> name ++ ".npy" -> m <> name ++ ".json" -> fs' m = fs m) /\
  (fs' (name ++ ".npy") = fs (name ++ ".npy") \/ fs' (name ++ ".npy") = Some FOther \/
   fs' (name ++ ".npy") = Some (FNpy (npy_of h))) /\
  (fs' (name ++ ".json") = fs (name ++ ".json") \/ fs' (name ++ ".json") = Some FOther \/
   exists j, json_of h = Ok j /\ fs' (name ++ ".json") = Some (FJson j)).
Proof.
  cbv zeta. assert (D := suffix_neq name).
  assert (G : forall steps : list (disk_op A),
    (forall o, In o steps -> o = Begin (name ++ ".npy") \/ o = Finish (name ++ ".npy") (FNpy (npy_of h)) \/
       o = Begin (name ++ ".json") \/ exists j, json_of h = Ok j /\ o = Finish (name ++ ".json") (FJson j)) ->
    forall fs0 : files A,
    let P (f : files A) :=
      (forall m, m <> name ++ ".npy" -> m <> name ++ ".json" -> f m = fs m) /\
      (f (name ++ ".npy") = fs (name ++ ".npy") \/ f (name ++ ".npy") = Some FOther \/
       f (name ++ ".npy") = Some (FNpy (npy_of h))) /\
      (f (name ++ ".json") = fs (name ++ ".json") \/ f (name ++ ".json") = Some FOther \/
       exists j, json_of h = Ok j /\ f (name ++ ".json") = Some (FJson j)) in
    P fs0 -> P (fold_left disk_do steps fs0)).
  { induction steps as [|o r IH]; intros Ho fs0; cbv zeta; cbn [fold_left]; auto.
    intros (H1 & H2 & H3). apply IH; [intros; apply Ho; right; auto|].
    destruct (Ho o (or_introl eq_refl)) as [-> | [-> | [-> | (j & Ej & ->)]]]; cbn [disk_do];
      (split; [intros m M1 M2; rewrite write_other by auto; auto|split]); rewrite ?write_same; auto.
    - rewrite write_other by auto. auto.
    - rewrite write_other by auto. auto.
    - rewrite write_other by auto. auto.
    - rewrite write_other by auto. auto.
    - right; right; exists j; auto. }
  apply (G (firstn n (fst (save_steps ty h name fmt)))); [|split; [auto|split; auto]].
  intros o Ho. assert (Hi : In o (fst (save_steps ty h name fmt))).
  { rewrite <- (firstn_skipn n). apply in_or_app. auto. }
  clear Ho G. unfold save_steps in Hi. 
  assert (X : forall b : bool, In o (if b then [Begin (name ++ ".npy"); Finish (name ++ ".npy") (FNpy (npy_of h))] else [])%list ->
    o = Begin (name ++ ".npy") \/ o = Finish (name ++ ".npy") (FNpy (npy_of h))).
  { intros [|] I; [|destruct I]. destruct I as [<-|[<-|[]]]; auto. }
  destruct (str_in "json" (split_plus fmt)); [|apply X in Hi; destruct Hi; auto].
  destruct (json_of h) as [j|e]; [|apply X in Hi; destruct Hi; auto].
  destruct (forallb json_ok ty); cbn [fst] in Hi; apply in_app_or in Hi; destruct Hi as [Hi|Hi];
    try (apply X in Hi; destruct Hi; auto).
  - destruct Hi as [<-|[<-|[]]]; [auto|]. right; right; right. exists j. auto.
  - destruct Hi as [<-|[]]. auto.
Qed.

(** What holds if saving is interrupted (a crash, or no more space) after any number of
    steps, for every transform, names and formats: other files are untouched; a name that
    is loaded then gives what it gave before, or the complete new content, or ValueError
    with nothing changed.  A part of a file is never taken for the whole. *)
Lemma interrupted_save_partial_main :
  forall (A : Type) (N : Num A) ty (h g : hough A) (fs : files A) name fmt n,
    let fs' := disk_after fs (fst (save_steps ty h name fmt)) n in
    (forall m, m <> name ++ ".npy" -> m <> name ++ ".json" -> fs' m = fs m) /\
    forall other kind,
      hough_load g fs' other kind = hough_load g fs other kind \/
      hough_load g fs' other kind = (g, Raise ValueError) \/
      hough_load g fs' other kind = hough_load g (fst (hough_save h fs name kind true)) other kind.
Proof.
  intros A N ty h g fs name fmt n. cbv zeta.
  destruct (disk_cases ty h fs name fmt n) as (H1 & H2 & H3). set (fs' := disk_after _ _ _) in *. clearbody fs'.
  split; [exact H1|]. intros other kind. assert (D := suffix_neq name).
  unfold hough_load. destruct (String.eqb_spec kind "npy") as [->|K1].
  - set (m := with_suffix other ".npy"). 
    change (hough_save h fs name "npy" true) with (write fs (name ++ ".npy") (FNpy (npy_of h)), Ok (T := @save_result A) SvNone). cbn [fst].
    destruct (string_dec m (name ++ ".npy")) as [->|M1].
    + rewrite write_same. destruct H2 as [-> | [-> | ->]]; auto.
    + destruct (string_dec m (name ++ ".json")) as [->|M2].
      * destruct H3 as [-> | [-> | (j & _ & ->)]]; auto.
      * rewrite H1 by auto. auto.
  - destruct (String.eqb_spec kind "json") as [->|K2]; [|auto].
    set (m := with_suffix other ".json").
    destruct (string_dec m (name ++ ".json")) as [->|M1].
    + destruct H3 as [-> | [-> | (j & Ej & ->)]]; auto. right; right.
      unfold hough_save. change (str_in "npy" (split_plus "json")) with false. change (str_in "json" (split_plus "json")) with true.
      rewrite Ej. cbn [andb bind fst]. rewrite write_same. reflexivity.
    + destruct (string_dec m (name ++ ".npy")) as [->|M2].
      * destruct H2 as [-> | [-> | ->]]; auto.
      * rewrite H1 by auto. auto.
Qed.

(** Refuted: interrupted after its first step, saving over an earlier file of the same
    name loses it: load raises whatever was there; and with both formats, interrupted
    between them, the two files are of different transforms. *)
Lemma interrupted_save_refuted_main :
  (forall (A : Type) (N : Num A) w (h g : hough A) (fs : files A) name,
     str_last 4 name <> ".npy" ->
     hough_load g (disk_after fs (fst (save_steps w h name "npy")) 1) name "npy" = (g, Raise ValueError)) /\
  (forall (A : Type) (N : Num A) w (h g : hough A) (fs : files A) name,
     str_last 5 name <> ".json" -> (exists j, json_of h = Ok j) ->
     hough_load g (disk_after fs (fst (save_steps w h name "json")) 1) name "json" = (g, Raise ValueError) /\
     disk_after fs (fst (save_steps w h name "npy+json")) 2 (name ++ ".npy") = Some (FNpy (npy_of h)) /\
     disk_after fs (fst (save_steps w h name "npy+json")) 2 (name ++ ".json") = fs (name ++ ".json")).
Proof.
  split.
  - intros A N w h g fs name Hn. unfold save_steps.
    change (str_in "npy" (split_plus "npy")) with true. change (str_in "json" (split_plus "npy")) with false.
    cbn [fst]. unfold disk_after. cbn [firstn fold_left disk_do].
    unfold hough_load. change (String.eqb "npy" "npy") with true. cbv iota.
    unfold with_suffix. change (String.length ".npy") with 4%nat. destruct (String.eqb_spec (str_last 4 name) ".npy"); [contradiction|].
    rewrite write_same. reflexivity.
  - intros A N w h g fs name Hn [j Ej]. unfold save_steps. rewrite Ej.
    change (str_in "npy" (split_plus "json")) with false. change (str_in "json" (split_plus "json")) with true.
    change (str_in "npy" (split_plus "npy+json")) with true. change (str_in "json" (split_plus "npy+json")) with true.
    split; [|destruct (forallb json_ok w); cbn [fst]; unfold disk_after; cbn [app firstn fold_left disk_do];
             (split; [rewrite write_same; reflexivity|rewrite !write_other by (intros E; symmetry in E; apply suffix_neq in E; auto); reflexivity])].
    assert (F : firstn 1 (fst (if forallb json_ok w
          then (([] ++ [Begin (name ++ ".json"); Finish (name ++ ".json") (FJson j)])%list, Ok (T := @save_result A) SvNone)
          else (([] ++ [Begin (name ++ ".json")])%list, Raise TypeError))) = [Begin (name ++ ".json")]%list)
      by (destruct (forallb json_ok w); reflexivity).
    unfold disk_after. rewrite F. cbn [fold_left disk_do].
    unfold hough_load. change (String.eqb "json" "npy") with false. change (String.eqb "json" "json") with true. cbv iota.
    unfold with_suffix. change (String.length ".json") with 5%nat. destruct (String.eqb_spec (str_last 5 name) ".json"); [contradiction|].
    rewrite write_same. reflexivity.
Qed.

(** Saving over an earlier save, interrupted, and complete. *)
Example interrupted_save_example_main :
  let ty := limit_types PyFloat PyInt in
  let old := fst (hough_save binned_example (fun _ => None) "t" "npy+json" true) in
  let s := fst (save_steps ty binned_example "t" "npy+json") in
  List.length s = 4%nat /\
  snd (hough_load hough_init old "t" "npy") = Ok tt /\
  snd (hough_load hough_init (disk_after old s 1) "t" "npy") = Raise ValueError /\
  snd (hough_load hough_init (disk_after old s 2) "t" "npy") = Ok tt /\
  snd (hough_load hough_init (disk_after old s 3) "t" "json") = Raise ValueError /\
  snd (hough_load hough_init (disk_after old s 4) "t" "json") = Ok tt.
Proof. vm_compute. repeat split; reflexivity. Qed.

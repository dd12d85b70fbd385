(** * Main_Archive: save_hough_transform and load_hough_transform of calibrators (C146). *)

From Coq Require Import ZArith Bool List String Lia.
From Verif Require Import Num F64 Py Np Hough SpecHough HoughFacts Calib SpecCalib CalibFacts Main_Hough Main_Calib.
Import ListNotations.
Local Open Scope string_scope.
Local Open Scope num_scope.

Lemma append_inj_r (a b s : string) : a ++ s = b ++ s -> a = b.
Proof.
  revert b. induction a as [|x a IH]; intros [|y b] E; auto.
  - exfalso. apply (f_equal String.length) in E. cbn in E. rewrite str_append_length in E. lia.
  - exfalso. apply (f_equal String.length) in E. cbn in E. rewrite str_append_length in E. lia.
  - cbn in E. injection E as -> E. f_equal. apply IH, E.
Qed.

Lemma substring_all (b : string) : substring 0 (String.length b) b = b.
Proof. induction b as [|x b IH]; [reflexivity|]. cbn. f_equal. exact IH. Qed.

Lemma last_append (a b : string) : str_last (String.length b) (a ++ b) = b.
Proof.
  unfold str_last. rewrite str_append_length.
  destruct (Nat.leb_spec (String.length a + String.length b) (String.length b)) as [H|H].
  - destruct a; [reflexivity|cbn in H; lia].
  - replace (String.length a + String.length b - String.length b)%nat with (String.length a) by lia.
    clear H. induction a as [|x a IH]; [apply substring_all|]. cbn. exact IH.
Qed.

Section Facts.
  Context {A : Type} {N : Num A}.

  (** What one save writes. *)
  Lemma save_writes (h : hough A) fs name fmt b fs' r n :
    hough_save h fs name fmt b = (fs', r) -> n <> name ++ ".npy" -> n <> name ++ ".json" -> fs' n = fs n.
  Proof.
    unfold hough_save. intros H N1 N2. apply String.eqb_neq in N1, N2.
    destruct (str_in "json" (split_plus fmt)), (str_in "npy" (split_plus fmt)), b; cbn [andb] in H;
      try (destruct (json_of h) as [j|ex]; cbn [bind] in H);
      injection H as <- <-; unfold write; rewrite ?N1, ?N2; reflexivity.
  Qed.

  Lemma names_apart (m n : string) : m <> n -> m ++ ".npy" <> n ++ ".npy" /\ m ++ ".json" <> n ++ ".json".
  Proof. intros H. split; intros E; apply append_inj_r in E; auto. Qed.

  Lemma suffixes_apart (m n : string) : m ++ ".npy" <> n ++ ".json".
  Proof.
    intros E. assert (H : str_last 4 (m ++ ".npy") = str_last 4 ((n ++ ".") ++ "json")).
    { rewrite E. f_equal. clear. induction n; [reflexivity|]. cbn. f_equal. exact IHn. }
    change 4%nat with (String.length ".npy") in H at 1. rewrite last_append in H.
    change 4%nat with (String.length "json") in H. rewrite last_append in H. discriminate.
  Qed.
End Facts.

(** One call of save_hough_transform of some calibrator. *)
Record save_call (A : Type) : Type := mkSave { sv_cal : calib A; sv_name : string; sv_format : string; sv_disk : bool }.
Arguments mkSave {A} _ _ _ _.
Arguments sv_cal {A} _.
Arguments sv_name {A} _.
Arguments sv_format {A} _.
Arguments sv_disk {A} _.

Definition save_all {A} {N : Num A} (fs : files A) (l : list (save_call A)) : files A :=
  fold_left (fun fs s => fst (save_hough_transform (sv_cal s) fs (sv_name s) (sv_format s) (sv_disk s))) l fs.

Lemma later_saves {A} {N : Num A} (l : list (save_call A)) : forall fs n,
  (forall s, In s l -> sv_name s ++ ".npy" <> n /\ sv_name s ++ ".json" <> n) -> save_all fs l n = fs n.
Proof.
  induction l as [|s l IH]; intros fs n H; [reflexivity|]. unfold save_all. cbn [fold_left].
  change (save_all (fst (save_hough_transform (sv_cal s) fs (sv_name s) (sv_format s) (sv_disk s))) l n = fs n).
  rewrite IH by (intros q Hq; apply H; right; exact Hq).
  destruct (H s (or_introl eq_refl)) as (H1 & H2). unfold save_hough_transform.
  destruct (hough_save _ _ _ _ _) as [fs' r] eqn:E. cbn [fst]. eapply save_writes; eauto.
Qed.

(** C146: what a calibrator saved (in a format with npy) can be loaded, into any
    calibrator, whatever was saved since under other names. *)
Lemma saved_npy_kept_main :
  forall (A : Type) (N : Num A) (c d : calib A) fs name fmt (later : list (save_call A)),
    complete (c_ht c) -> str_in "npy" (split_plus fmt) = true -> str_last 4 name <> ".npy" ->
    (forall s, In s later -> sv_name s <> name) ->
    exists d',
      load_hough_transform d (save_all (fst (save_hough_transform c fs name fmt true)) later) name "npy" = (d', Ok tt) /\
      same_stored (c_ht c) (c_ht d') /\ ho_lines (c_ht d') = ho_lines (c_ht d).
Proof.
  intros A N c d fs name fmt later C Hf Hn Hl.
  assert (E : load_hough_transform d (save_all (fst (save_hough_transform c fs name fmt true)) later) name "npy" =
              load_hough_transform d (fst (save_hough_transform c fs name fmt true)) name "npy").
  { unfold load_hough_transform, hough_load. cbn [String.eqb Ascii.eqb Bool.eqb]. unfold with_suffix. cbn [String.length].
    rewrite (proj2 (String.eqb_neq _ _) Hn). rewrite later_saves; [reflexivity|].
    intros s Hs. split; [apply names_apart, Hl, Hs|]. intros E. symmetry in E. revert E. apply suffixes_apart. }
  rewrite E. unfold save_hough_transform, load_hough_transform.
  destruct (hough_save (c_ht c) fs name fmt true) as [fs' r] eqn:Es. cbn [fst].
  destruct (hough_load (c_ht d) fs' name "npy") as [g rl] eqn:El.
  destruct (npy_round_trip_main _ _ _ _ _ _ _ _ _ _ _ C Hf Hn Es El) as (-> & H & H' & _).
  eexists. split; [reflexivity|]. destruct d; split; [exact H|exact H'].
Qed.

(** C146: the same for json, where the points come back as a python list. *)
Lemma saved_json_kept_main :
  forall (A : Type) (N : Num A) (c d : calib A) pts fs name fmt (later : list (save_call A)),
    complete (c_ht c) -> ho_points (c_ht c) = Some (HArr pts) ->
    str_in "json" (split_plus fmt) = true -> str_last 5 name <> ".json" ->
    (forall s, In s later -> sv_name s <> name) ->
    exists d',
      load_hough_transform d (save_all (fst (save_hough_transform c fs name fmt true)) later) name "json" = (d', Ok tt) /\
      ho_points (c_ht d') = Some (HList pts) /\ ho_hist (c_ht d') = ho_hist (c_ht c) /\
      ho_xedges (c_ht d') = ho_xedges (c_ht c) /\ ho_yedges (c_ht d') = ho_yedges (c_ht c) /\
      ho_lims (c_ht d') = ho_lims (c_ht c) /\ ho_lines (c_ht d') = ho_lines (c_ht d).
Proof.
  intros A N c d pts fs name fmt later C Hp Hf Hn Hl.
  assert (E : load_hough_transform d (save_all (fst (save_hough_transform c fs name fmt true)) later) name "json" =
              load_hough_transform d (fst (save_hough_transform c fs name fmt true)) name "json").
  { unfold load_hough_transform, hough_load. cbn [String.eqb Ascii.eqb Bool.eqb]. unfold with_suffix. cbn [String.length].
    rewrite (proj2 (String.eqb_neq _ _) Hn). rewrite later_saves; [reflexivity|].
    intros s Hs. split; [apply suffixes_apart|apply names_apart, Hl, Hs]. }
  rewrite E. unfold save_hough_transform, load_hough_transform.
  destruct (hough_save (c_ht c) fs name fmt true) as [fs' r] eqn:Es. cbn [fst].
  destruct (hough_load (c_ht d) fs' name "json") as [g rl] eqn:El.
  destruct (json_round_trip_main _ _ _ _ _ _ _ _ _ _ _ _ C Hp Hf Hn Es El) as (_ & -> & H).
  eexists. split; [reflexivity|]. destruct d; exact H.
Qed.

(** C146: loading touches nothing but the transform (with the old transform put back the
    calibrator is the old one); a file that is not there and an unknown type are refused
    and change nothing. *)
Lemma load_only_transform_main :
  forall (A : Type) (N : Num A) (c : calib A) fs name t,
    let r := load_hough_transform c fs name t in
    set_c_ht (c_ht c) (fst r) = c /\
    (t <> "npy" -> t <> "json" -> r = (c, Raise ValueError)) /\
    (forall suffix, t = "npy" /\ suffix = ".npy" \/ t = "json" /\ suffix = ".json" ->
       fs name = None -> fs (name ++ suffix) = None -> r = (c, Raise FileNotFoundError)).
Proof.
  intros A N c fs name t r. unfold r, load_hough_transform. clear r.
  destruct (hough_load (c_ht c) fs name t) as [h x] eqn:E. cbn [fst].
  split; [destruct c; reflexivity|].
  assert (Q : forall y, (h, x) = (c_ht c, y) -> (set_c_ht h c, x) = (c, y)) by (intros y Ey; injection Ey as -> ->; destruct c; reflexivity).
  split.
  - intros H1 H2. apply Q. rewrite <- E. unfold hough_load. apply String.eqb_neq in H1, H2. rewrite H1, H2. reflexivity.
  - intros sf [(-> & ->)|(-> & ->)] H1 H2; apply Q; rewrite <- E; unfold hough_load, with_suffix;
      cbn [String.eqb Ascii.eqb Bool.eqb];
      (destruct (String.eqb (str_last _ name) _); [rewrite H1|rewrite H2]; reflexivity).
Qed.

(** C146: a transform saved under one name, another and an in-memory save since, loaded into
    a new calibrator. *)
Example archive_example_main :
  match calib_init all_inside [fz 10; fz 20] None return Prop with
  | Ok c0 =>
      let c := set_c_ht binned_example c0 in
      let later := [mkSave c0 "other" "npy+json" true; mkSave c "run" "npy" true; mkSave c0 "runs" "json" true] in
      complete (c_ht c) /\ (forall s, In s later -> sv_name s <> "first") /\
      str_in "npy" (split_plus "json+npy") = true /\ str_in "json" (split_plus "json+npy") = true /\
      str_last 4 "first" <> ".npy" /\ str_last 5 "first" <> ".json" /\
      ho_hist (c_ht (fst (load_hough_transform c0 (save_all (fun _ => None) (mkSave c "first" "json+npy" true :: later)) "first" "json")))
      = ho_hist binned_example
  | Raise _ => False
  end.
Proof.
  vm_compute. split; [repeat split; discriminate|]. split; [intros s [<-|[<-|[<-|[]]]]; discriminate|].
  repeat split; try reflexivity; discriminate.
Qed.

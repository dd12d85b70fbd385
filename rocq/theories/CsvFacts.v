(** * CsvFacts: lemmas on reading a line list from text. *)

From Coq Require Import ZArith Bool List String Ascii Lia Arith.
From Verif Require Import Num Py Np NpFacts Util Csv SpecCsv.
Import ListNotations.

Lemma free_cons c x s : free_of c (String x s) <-> x <> c /\ free_of c s.
Proof. unfold free_of. cbn. tauto. Qed.

Lemma free_app c s t : free_of c (s ++ t)%string <-> free_of c s /\ free_of c t.
Proof.
  induction s as [|x s IH]; cbn [append].
  - unfold free_of at 2. cbn. tauto.
  - rewrite !free_cons, IH. tauto.
Qed.

Lemma split_on_free c s : free_of c s -> split_on c s = [s].
Proof.
  induction s as [|x s IH]; intros H; [reflexivity|]. apply free_cons in H. destruct H as [H1 H2].
  cbn [split_on]. rewrite IH by auto. apply Ascii.eqb_neq in H1. now rewrite H1.
Qed.

Lemma split_on_app c s t : free_of c s -> split_on c (s ++ String c t) = s :: split_on c t.
Proof.
  induction s as [|x s IH]; intros H; cbn [append split_on].
  - now rewrite Ascii.eqb_refl.
  - apply free_cons in H. destruct H as [H1 H2]. apply Ascii.eqb_neq in H1. now rewrite H1, IH.
Qed.

Lemma split_concat c ls :
  ls <> [] -> Forall (free_of c) ls ->
  split_on c (String.concat (String c EmptyString) ls) = ls.
Proof.
  induction ls as [|s ls IH]; intros H F; [congruence|]. inversion F as [|? ? F1 F2]; subst.
  destruct ls as [|s2 ls]; [cbn; now apply split_on_free|].
  change (String.concat (String c EmptyString) (s :: s2 :: ls))
    with (s ++ String c (String.concat (String c EmptyString) (s2 :: ls)))%string.
  rewrite split_on_app by auto. f_equal. apply IH; [discriminate|auto].
Qed.

Lemma strip_free s t : free_of "#"%char s -> strip_comment (s ++ t) = (s ++ strip_comment t)%string.
Proof.
  induction s as [|x s IH]; intros H; cbn [append strip_comment]; [reflexivity|].
  apply free_cons in H. destruct H as [H1 H2]. apply Ascii.eqb_neq in H1. rewrite H1. f_equal. auto.
Qed.

Lemma strip_remark s : remark s -> strip_comment s = EmptyString.
Proof. intros [->|(c & -> & _)]; reflexivity. Qed.

Lemma str_app_nil s : (s ++ "")%string = s.
Proof. induction s as [|x s IH]; cbn; [reflexivity|congruence]. Qed.

Lemma concat_free c sep ls :
  free_of c sep -> Forall (free_of c) ls -> free_of c (String.concat sep ls).
Proof.
  intros Hs. induction 1 as [|s ls H1 H2 IH]; [unfold free_of; cbn; tauto|].
  destruct ls as [|s2 ls]; [exact H1|].
  change (free_of c (s ++ sep ++ String.concat sep (s2 :: ls))).
  rewrite !free_app. auto.
Qed.

Lemma remark_free s : remark s -> free_of newline s.
Proof.
  intros [->|(c & -> & H)]; [unfold free_of; cbn; tauto|]. apply free_cons. split; [discriminate|auto].
Qed.

Lemma says_free ls rows : says ls rows -> Forall (free_of newline) ls.
Proof.
  induction 1 as [|s ls rows H1 H2 IH|fields s ls rows H1 H2 H3 H4 IH]; constructor; auto.
  - now apply remark_free.
  - apply free_app. split; [|now apply remark_free].
    apply concat_free; [unfold free_of; cbn; intuition discriminate|].
    eapply Forall_impl; [|exact H1]. intros f (_ & _ & H). exact H.
Qed.

Lemma says_body ls rows :
  says ls rows ->
  map (split_on ","%char)
    (filter (fun s => negb (String.eqb s EmptyString)) (map strip_comment ls)) = rows.
Proof.
  induction 1 as [|s ls rows H1 H2 IH|fields s ls rows H1 H2 H3 H4 IH]; cbn [map filter]; [reflexivity| |].
  - now rewrite strip_remark.
  - rewrite strip_free, (strip_remark s H3), str_app_nil.
    2:{ apply concat_free; [unfold free_of; cbn; intuition discriminate|].
        eapply Forall_impl; [|exact H1]. intros f (_ & H & _). exact H. }
    apply String.eqb_neq in H2. rewrite H2. cbn [negb map]. rewrite IH. f_equal.
    apply split_concat.
    + intros ->. apply String.eqb_neq in H2. now apply H2.
    + eapply Forall_impl; [|exact H1]. intros f (H & _). exact H.
Qed.

Lemma file_body text rows :
  file_says text rows ->
  map (split_on ","%char)
    (filter (fun s => negb (String.eqb s EmptyString)) (map strip_comment (split_on newline text))) = rows.
Proof.
  intros (ls & -> & S). destruct ls as [|l0 ls].
  - inversion S. reflexivity.
  - rewrite split_concat; [now apply says_body|discriminate|now apply says_free with rows].
Qed.

Lemma loadtxt_body text rows :
  file_says text rows ->
  loadtxt text = match rows with
                 | [] => Ok []
                 | r0 :: _ =>
                   if forallb (fun r => Nat.eqb (List.length r) (List.length r0)) rows
                   then Ok (map (map (str_take 12)) rows) else Raise ValueError
                 end.
Proof. intros H. unfold loadtxt. rewrite (file_body _ _ H). reflexivity. Qed.

Lemma loadtxt_even text rows n :
  file_says text rows -> rows_of_width n rows -> loadtxt text = Ok (map (map (str_take 12)) rows).
Proof.
  intros H W. rewrite (loadtxt_body _ _ H). destruct rows as [|r0 rows]; [reflexivity|].
  replace (forallb _ _) with true; [reflexivity|]. symmetry. apply forallb_forall.
  intros r Hr. apply Nat.eqb_eq. unfold rows_of_width in W. rewrite Forall_forall in W.
  rewrite (W r Hr). symmetry. apply W. left. reflexivity.
Qed.

Lemma take_short n s : String.length s <= n -> str_take n s = s.
Proof.
  revert s. induction n as [|n IH]; intros [|x s] H; cbn in *; [reflexivity|lia|reflexivity|].
  f_equal. apply IH. lia.
Qed.

Lemma take_length n s : String.length (str_take n s) <= n.
Proof. revert s. induction n as [|n IH]; intros [|x s]; cbn; try lia. specialize (IH s). lia. Qed.

(** *** The argument *)

Lemma lower_n c : lower_ascii c = "n"%char <-> c = "n"%char \/ c = "N"%char.
Proof. destruct c as [[] [] [] [] [] [] [] []]; cbv; split; intros H; try discriminate; auto; destruct H; discriminate. Qed.
Lemma lower_i c : lower_ascii c = "i"%char <-> c = "i"%char \/ c = "I"%char.
Proof. destruct c as [[] [] [] [] [] [] [] []]; cbv; split; intros H; try discriminate; auto; destruct H; discriminate. Qed.
Lemma lower_s c : lower_ascii c = "s"%char <-> c = "s"%char \/ c = "S"%char.
Proof. destruct c as [[] [] [] [] [] [] [] []]; cbv; split; intros H; try discriminate; auto; destruct H; discriminate. Qed.
Lemma lower_t c : lower_ascii c = "t"%char <-> c = "t"%char \/ c = "T"%char.
Proof. destruct c as [[] [] [] [] [] [] [] []]; cbv; split; intros H; try discriminate; auto; destruct H; discriminate. Qed.

Lemma spells_lower s : String.eqb (str_lower s) "nist" = true <-> spells_nist s.
Proof.
  rewrite String.eqb_eq. split.
  - destruct s as [|a [|b [|c [|d [|e s]]]]]; cbn [str_lower]; try discriminate.
    intros H. injection H as Ha Hb Hc Hd. exists a, b, c, d.
    rewrite <- lower_n, <- lower_i, <- lower_s, <- lower_t. auto.
  - intros (a & b & c & d & -> & Ha & Hb & Hc & Hd). cbn [str_lower].
    apply lower_n in Ha. apply lower_i in Hb. apply lower_s in Hc. apply lower_t in Hd.
    now rewrite Ha, Hb, Hc, Hd.
Qed.

Lemma spells_lower_no s : String.eqb (str_lower s) "nist" = false <-> ~ spells_nist s.
Proof. rewrite <- spells_lower. destruct (String.eqb (str_lower s) "nist"); split; congruence || (intros; auto; try discriminate; try (exfalso; auto)). Qed.

Lemma names_read d a text : names_text d a text -> read_text d a = Ok text.
Proof.
  intros (s & -> & [(H & ->)|(H & E)]); cbn [read_text].
  - apply spells_lower in H. now rewrite H.
  - apply spells_lower_no in H. now rewrite H, E.
Qed.

(** *** Rows of text against rows of numbers *)

Section Csv.
  Context {A : Type} {N : Num A}.
  Variable parse : string -> option A.
  Local Open Scope num_scope.

  (** A row of text and the line it stands for. *)
  Definition stands (r : list string) (l : line A) : Prop :=
    exists w i rest, r = l_el l :: w :: i :: rest /\ parse w = Some (l_wl l) /\ parse i = Some (l_int l).

  Lemma rows_hold_stands elements rows lines :
    rows_hold parse elements rows lines ->
    Forall2 stands (filter (asked elements) rows) lines /\
    (forall l, In l lines -> In (l_el l) elements).
  Proof.
    induction 1 as [|r rows lines H1 H2 IH|el w i rest v u rows lines H1 H2 H3 H4 IH]; cbn [filter].
    - split; [constructor|intros ? []].
    - replace (asked elements r) with false; [exact IH|].
      destruct r as [|el rest]; [reflexivity|]. cbn [asked]. symmetry.
      destruct (str_in el elements) eqn:E; [|reflexivity]. exfalso. apply (H1 el rest eq_refl).
      unfold str_in in E. apply existsb_exists in E. destruct E as (y & Hy & E).
      apply String.eqb_eq in E. now subst.
    - cbn [asked]. replace (str_in el elements) with true.
      2:{ symmetry. unfold str_in. apply existsb_exists. exists el. split; [auto|apply String.eqb_refl]. }
      destruct IH as [I1 I2]. split.
      + constructor; [|exact I1]. exists w, i, rest. cbn. auto.
      + intros l [<-|Hl]; cbn; auto.
  Qed.

  Lemma float_column_stands rows lines :
    Forall2 stands rows lines -> float_column parse 1 rows = Ok (map l_wl lines).
  Proof.
    induction 1 as [|r l rows lines (w & i & rest & -> & Hw & Hi) H IH]; [reflexivity|].
    cbn [float_column field nth_error bind map]. unfold to_float. rewrite Hw. cbn [bind].
    rewrite IH. reflexivity.
  Qed.

  Definition stands' (p : list string * A) (l : line A) : Prop := stands (fst p) l /\ snd p = l_wl l.

  Lemma combine_stands rows lines :
    Forall2 stands rows lines -> Forall2 stands' (combine rows (map l_wl lines)) lines.
  Proof. induction 1; cbn; constructor; auto. split; auto. Qed.

  Lemma nth_stands {T U} (P : T -> U -> Prop) xs ys i :
    Forall2 P xs ys ->
    match nth_error xs i, nth_error ys i with
    | Some x, Some y => P x y | None, None => True | _, _ => False end.
  Proof. intros H. revert i. induction H; intros [|i]; cbn; auto. apply IHForall2. Qed.

  Lemma gather_stands {T U} (P : T -> U -> Prop) xs ys idx :
    Forall2 P xs ys -> Forall2 P (gather xs idx) (gather ys idx).
  Proof.
    intros H. unfold gather. induction idx as [|i idx IH]; cbn [flat_map]; [constructor|].
    pose proof (nth_stands P xs ys i H) as K.
    destruct (nth_error xs i), (nth_error ys i); cbn [app]; try contradiction; [constructor; auto|auto].
  Qed.

  Lemma mask_stands {T U} (P : T -> U -> Prop) xs ys m :
    Forall2 P xs ys -> Forall2 P (mask_select m xs) (mask_select m ys).
  Proof.
    intros H. revert m. induction H as [|x y xs ys H1 H2 IH]; intros [|b m]; try (constructor; fail).
    rewrite !mask_select_cons. destruct b; [constructor; auto|auto].
  Qed.

  Lemma text_wavelengths_stands rows lines lo hi :
    Forall2 stands rows lines ->
    exists rows2, text_wavelengths parse rows lo hi = Ok rows2 /\
      Forall2 stands' rows2 (filter_wavelengths lines lo hi).
  Proof.
    intros H. unfold text_wavelengths. rewrite (float_column_stands _ _ H). cbn [bind].
    eexists. split; [reflexivity|]. unfold filter_wavelengths.
    apply mask_stands, gather_stands, combine_stands, H.
  Qed.

  Lemma text_loop_stands d rows lines :
    Forall2 stands' rows lines -> text_intensity_loop parse d rows = intensity_loop d lines.
  Proof.
    induction 1 as [|[r w0] l rows lines [(w & i & rest & E & Hw & Hi) E0] H IH]; [reflexivity|].
    cbn [fst] in E. subst r.
    cbn [text_intensity_loop intensity_loop field nth_error bind fst]. unfold to_float. rewrite Hi.
    cbn [bind]. destruct (dict_get d (l_el l)); [|reflexivity]. now rewrite IH.
  Qed.

  Lemma text_mask_stands elements rows lines m :
    Forall2 stands' rows lines ->
    text_intensity_mask parse elements rows m = intensity_mask elements lines m.
  Proof.
    intros H. assert (L : List.length rows = List.length lines) by (clear - H; induction H; cbn; congruence).
    assert (G : map (fun _ : list string * A => true) rows = map (fun _ : line A => true) lines).
    { clear H. revert lines L. induction rows as [|? rows IH]; intros [|? lines] L; try discriminate; cbn; [reflexivity|].
      f_equal. apply IH. now injection L. }
    destruct m; cbn [text_intensity_mask intensity_mask]; try now rewrite G.
    - unfold filter_intensity. destruct (intensity_dict elements (ThNum a)); cbn [bind]; [|reflexivity].
      now apply text_loop_stands.
    - unfold filter_intensity. destruct (intensity_dict elements (ThList l)); cbn [bind]; [|reflexivity].
      now apply text_loop_stands.
  Qed.

  Lemma text_lines_stands rows lines :
    Forall2 stands' rows lines -> text_lines parse rows = Ok lines.
  Proof.
    induction 1 as [|[r w0] l rows lines [(w & i & rest & E & Hw & Hi) E0] H IH]; [reflexivity|].
    cbn [fst snd] in *. subst r w0.
    cbn [text_lines field nth_error bind fst snd]. unfold to_float. rewrite Hi.
    cbn [bind]. rewrite IH. cbn [bind]. now destruct l.
  Qed.

  Lemma lines_all_asked elements (lines : list (line A)) :
    (forall l, In l lines -> In (l_el l) elements) ->
    mask_select (map (fun l => str_in (l_el l) elements) lines) lines = lines.
  Proof.
    induction lines as [|l lines IH]; intros H; [reflexivity|]. cbn [map].
    replace (str_in (l_el l) elements) with true.
    2:{ symmetry. unfold str_in. apply existsb_exists. exists (l_el l). split; [apply H; left; auto|apply String.eqb_refl]. }
    rewrite mask_select_cons. f_equal. apply IH. intros x Hx. apply H. right. exact Hx.
  Qed.

  Lemma read_always ll (lines : list (line A)) text d :
    names_text d ll text -> read_linelist (always lines) ll = Ok lines.
  Proof.
    intros (s & -> & _). cbn. now destruct (String.eqb (str_lower s) "nist").
  Qed.

  Lemma text_select_stands d (a : load_args A) text rows n lines :
    names_text d (la_linelist a) text -> file_says text rows ->
    2 <= List.length rows -> 3 <= n -> rows_of_width n rows ->
    rows_hold parse (la_elements a) (map (map (str_take 12)) rows) lines ->
    text_select parse d a = load_select (always lines) a.
  Proof.
    intros Hn Hs Hl Hc Hw Hh. unfold text_select, load_select.
    rewrite (names_read _ _ _ Hn), (read_always _ lines _ _ Hn). cbn [bind].
    rewrite (loadtxt_even _ _ _ Hs Hw). cbn [bind]. rewrite map_length.
    assert (C : columns (map (map (str_take 12)) rows) = n).
    { destruct rows as [|r0 rows]; [cbn in Hl; lia|]. cbn [map columns]. rewrite map_length.
      inversion Hw; subst; auto. }
    rewrite C. destruct (rows_hold_stands _ _ _ Hh) as [F I].
    replace (Nat.eqb (List.length rows) 1) with false by (symmetry; apply Nat.eqb_neq; lia).
    replace (Nat.leb (List.length rows) 1) with false by (symmetry; apply Nat.leb_gt; lia).
    replace (Nat.leb n 1) with false by (symmetry; apply Nat.leb_gt; lia).
    replace (Nat.leb n 2) with false by (symmetry; apply Nat.leb_gt; lia). cbn [andb orb].
    rewrite (lines_all_asked _ _ I). destruct (load_limits a) as [lo hi].
    destruct (text_wavelengths_stands _ _ lo hi F) as (rows2 & -> & F2). cbn [bind].
    rewrite (text_mask_stands _ _ _ _ F2).
    destruct (intensity_mask _ _ _) as [m|e]; cbn [bind]; [|reflexivity].
    apply text_lines_stands, mask_stands, F2.
  Qed.
End Csv.

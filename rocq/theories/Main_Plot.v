(** * Main_Plot: the properties of the plotting functions, with their proofs.
    The statements are repeated, without proofs, in Props_Plot.v. *)

From Coq Require Import ZArith Bool List String Ascii Lia Reals Lra Sorted Permutation.
From Verif Require Import RefineFacts Num F64 XReal Py Np NpFacts ArgsortFacts Util Models Atlas Hough HoughFacts PolyEval Calib SpecCalib CalibFacts Main_Calib Cand SpecCand CandFacts Ransac RansacFacts SampleFacts Main_Ransac Fit Main_Fit MatchPeaks SpecMatch MatchFacts Main_Match Main_Refine Main_Edit Plot SpecPlot.
Import ListNotations.
Local Open Scope num_scope.

(* ------------------------------------------------------------------ *)
(** ** The parts of fig_type *)

Lemma no_plus_cons c t : no_plus (String c t) <-> c <> "+"%char /\ no_plus t.
Proof.
  unfold no_plus. split.
  - intros H. split.
    + intros ->. apply (H EmptyString t). reflexivity.
    + intros a b ->. apply (H (String c a) b). reflexivity.
  - intros (H1 & H2) a b E. destruct a as [|d a]; cbn in E.
    + injection E as -> _. apply H1. reflexivity.
    + injection E as -> E. apply (H2 a b). exact E.
Qed.
Lemma no_plus_nil : no_plus EmptyString.
Proof. intros a b E. destruct a; discriminate. Qed.

Definition tail_ok (post : string) : Prop := post = EmptyString \/ exists q, post = ("+" ++ q)%string.

Lemma split_head s : exists post, s = (fst (split_plus s) ++ post)%string /\ no_plus (fst (split_plus s)) /\ tail_ok post.
Proof.
  induction s as [|c s IH]; cbn.
  - exists EmptyString. repeat split; auto using no_plus_nil. left; auto.
  - destruct IH as (post & E & Hn & Ht). destruct (split_plus s) as [h t]. cbn in *.
    destruct (Ascii.eqb_spec c "+"); cbn.
    + subst c. exists (String "+" s). repeat split; auto using no_plus_nil. right. exists s. reflexivity.
    + exists post. rewrite E at 1. repeat split; auto. apply no_plus_cons. auto.
Qed.

Lemma head_unique t u post post' : (t ++ post = u ++ post')%string -> no_plus t -> no_plus u -> tail_ok post -> tail_ok post' -> t = u.
Proof.
  revert u. induction t as [|c t IH]; intros u E H1 H2 H3 H4; destruct u as [|d u]; auto; cbn in E.
  - exfalso. subst post. destruct H3 as [H3|(q & H3)]; [discriminate|]. cbn in H3. injection H3 as -> _.
    apply no_plus_cons in H2. destruct H2 as (H2 & _). apply H2. reflexivity.
  - exfalso. subst post'. destruct H4 as [H4|(q & H4)]; [discriminate|]. cbn in H4. injection H4 as -> _.
    apply no_plus_cons in H1. destruct H1 as (H1 & _). apply H1. reflexivity.
  - injection E as -> E. f_equal. apply no_plus_cons in H1. apply no_plus_cons in H2. apply (IH u); tauto.
Qed.

Lemma split_tail s t : In t (snd (split_plus s)) <->
  exists pre post, s = (pre ++ "+" ++ t ++ post)%string /\ no_plus t /\ tail_ok post.
Proof.
  revert t. induction s as [|c s IH]; intros t; cbn.
  - split; [contradiction|]. intros (pre & post & E & _). destruct pre; discriminate.
  - destruct (split_head s) as (p0 & E0 & N0 & T0). destruct (split_plus s) as [h l] eqn:Es. cbn in *.
    destruct (Ascii.eqb_spec c "+").
    + subst c. cbn. split.
      * intros [<-|H].
        -- exists EmptyString, p0. cbn. rewrite <- E0. auto.
        -- apply IH in H. destruct H as (pre & post & E & H). exists (String "+" pre), post. cbn. rewrite E. auto.
      * intros (pre & post & E & H1 & H2). destruct pre as [|d pre]; cbn in E.
        -- left. injection E as E. rewrite E in E0. symmetry. eapply head_unique; eauto.
        -- right. injection E as <- E. apply IH. exists pre, post. auto.
    + cbn. rewrite IH. split; intros (pre & post & E & H).
      * exists (String c pre), post. cbn. rewrite E. auto.
      * destruct pre as [|d pre]; cbn in E; injection E as E1 E2; [congruence|]. exists pre, post. auto.
Qed.

Lemma sapp_assoc (a b c : string) : ((a ++ b) ++ c = a ++ (b ++ c))%string.
Proof. induction a; cbn; congruence. Qed.
Lemma sapp_length (a b : string) : String.length (a ++ b) = (String.length a + String.length b)%nat.
Proof. induction a; cbn; auto. Qed.

Lemma split_parts f t : In t (fst (split_plus f) :: snd (split_plus f)) <-> part_of f t.
Proof.
  cbn. rewrite split_tail. unfold part_of. split.
  - intros [<-|(pre & post & E & H1 & H2)].
    + destruct (split_head f) as (post & E & H1 & H2). exists EmptyString, post. cbn. auto.
    + exists (pre ++ "+")%string, post. rewrite E, sapp_assoc. repeat split; eauto.
  - intros (pre & post & E & H1 & [->|(q & ->)] & H3).
    + left. destruct (split_head f) as (p0 & E0 & N0 & T0). cbn in E. rewrite E0 in E at 1.
      eapply head_unique; eauto.
    + right. exists q, post. rewrite E, sapp_assoc. auto.
Qed.

Lemma writes_spec lib t : writes lib t = true <-> format_of lib t.
Proof.
  assert (K : existsb (String.eqb t) ["jpg"; "png"; "svg"; "pdf"]%string = true <-> In t ["jpg"; "png"; "svg"; "pdf"]%string).
  { rewrite existsb_exists. split; [intros (x & Hx & E); apply String.eqb_eq in E; subst; auto|].
    intros H. exists t. split; auto. apply String.eqb_refl. }
  unfold writes, format_of. destruct lib.
  - rewrite K. split; auto. intros [H|(H & _)]; [auto|discriminate].
  - rewrite orb_true_iff, K, String.eqb_eq. tauto.
Qed.

Lemma files_spec lib save ft name def path fmt :
  In (path, fmt) (files_written lib save ft name def) <->
    save = true /\ part_of ft fmt /\ format_of lib fmt /\
    path = (match name with None => def | Some f => f end ++ "." ++ fmt)%string.
Proof.
  unfold files_written. destruct save; [|cbn; intuition discriminate].
  rewrite (surjective_pairing (split_plus ft)), in_map_iff. split.
  - intros (t & E & H). apply filter_In in H. destruct H as (H1 & H2). injection E as E1 E2. subst t.
    rewrite split_parts in H1. rewrite writes_spec in H2. auto.
  - intros (_ & H1 & H2 & H3). exists fmt. split; [subst path; reflexivity|]. apply filter_In.
    rewrite split_parts, writes_spec. auto.
Qed.

(** The library selected. *)
Definition selected {A} (c : calib A) (lib : library) : Prop :=
  match lib with
  | Matplotlib => g_mpl (c_gp c) = true
  | Plotly => g_mpl (c_gp c) = false /\ g_plotly (c_gp c) = true
  end.

Lemma plot_fit_inv {A} {N : Num A} (c : calib A) a c' sp ou :
  plot_fit c a = (c', sp, Ok ou) ->
  exists lib k co at_ pts,
    selected c lib /\ c_kind c = Some k /\ match pf_coeff a with None => c_coeff c = Some co | Some l => l = co end /\
    c_atlas c = Some at_ /\ residual_panel lib c co (pf_tol a) = Ok pts /\ pts <> [] /\
    ou = finish lib "rascal_solution" (pf_show a) pts (Some (drawn_rms (map snd pts))).
Proof.
  unfold plot_fit. intros H. 
  match type of H with (_, ?r) = _ => assert (E : r = Ok ou) by congruence end. clear H.
  match type of E with match ?s with _ => _ end = _ => set (s0 := s) in E end.
  assert (E' : match c_kind c, match pf_coeff a with None => c_coeff c | Some l => Some l end, g_pixels (c_gp c) with
         | None, _, _ => Raise AttributeError
         | _, None, _ | _, _, None => Raise TypeError
         | Some k, Some co, Some px =>
             bind (polyvals_of (Some k) px co) (fun _ =>
             match (if g_mpl (c_gp c) then Some Matplotlib else if g_plotly (c_gp c) then Some Plotly else None) with
             | None => Raise AssertionError
             | Some lib =>
                 bind (match lib, s0 with
                       | Matplotlib, Some v => if Nat.eqb (List.length px) (List.length v) then Ok tt else Raise ValueError
                       | _, _ => Ok tt
                       end) (fun _ =>
                 bind (residual_panel lib c co (pf_tol a)) (fun pts =>
                 match pts with
                 | [] => Raise ValueError
                 | _ => Ok (finish lib "rascal_solution" (pf_show a) pts (Some (drawn_rms (map snd pts))))
                 end))
             end)
         end = Ok ou) by (destruct s0 as [[|]|]; [discriminate E|exact E|exact E]).
  clear E. destruct (c_kind c) as [k|] eqn:Ek; [|discriminate].
  destruct (match pf_coeff a with None => c_coeff c | Some l => Some l end) as [co|] eqn:Eco; [|discriminate].
  destruct (g_pixels (c_gp c)) as [px|]; [|discriminate].
  apply bind_Ok in E'. destruct E' as (vs & _ & E).
  destruct (if g_mpl (c_gp c) then Some Matplotlib else if g_plotly (c_gp c) then Some Plotly else None) as [lib|] eqn:El; [|discriminate].
  apply bind_Ok in E. destruct E as (u & _ & E). apply bind_Ok in E. destruct E as (pts & Hp & E).
  assert (Hat : exists at_, c_atlas c = Some at_).
  { unfold residual_panel in Hp. destruct (c_atlas c) as [at_|]; [eauto|discriminate]. }
  destruct Hat as (at_ & Hat). exists lib, k, co, at_, pts. repeat split; auto.
  - destruct (g_mpl (c_gp c)) eqn:E1; [assert (lib = Matplotlib) by congruence; subst; exact E1|].
    destruct (g_plotly (c_gp c)) eqn:E2; [assert (lib = Plotly) by congruence; subst; split; auto|discriminate].
  - destruct (pf_coeff a); congruence.
  - intros ->. discriminate.
  - destruct pts; [discriminate|congruence].
Qed.

Lemma plot_arc_inv {A} {N : Num A} (c : calib A) px a ou :
  plot_arc c px a = Ok (Some ou) ->
  exists lib pts, selected c lib /\ ou = finish lib "rascal_arc" a pts None.
Proof.
  unfold plot_arc. intros H.
  match type of H with match ?s with _ => _ end = _ => destruct s as [l|]; [|discriminate] end.
  destruct (g_mpl (c_gp c)) eqn:E1.
  - exists Matplotlib. destruct (c_spectrum c) as [s|].
    + apply bind_Ok in H. destruct H as (m & _ & H).
      destruct (Nat.eqb (List.length l) (List.length s)); [|discriminate].
      eexists. split; [exact E1|]. assert (E : forall x y : outcome A, Ok (Some x) = Ok (Some y) -> y = x) by (intros; congruence).
      apply E. exact H.
    + destruct (c_peaks c); [discriminate|]. exists []. split; [exact E1|congruence].
  - destruct (g_plotly (c_gp c)) eqn:E2; [|discriminate]. exists Plotly. destruct (c_spectrum c) as [s|]; [|discriminate].
    apply bind_Ok in H. destruct H as (m & _ & H). eexists. split; [split; auto|].
    assert (E : forall x y : outcome A, Ok (Some x) = Ok (Some y) -> y = x) by (intros; congruence).
    apply E. exact H.
Qed.

(** C79: the files a successful plot writes are those of the formats named in fig_type
    that the library can write, each under the given (or the default) name with the
    format as ending; nothing is written without save_fig. *)
Lemma plot_files_main :
  forall (A : Type) (N : Num A) (c : calib A) path fmt,
    (forall a c' sp ou, plot_fit c a = (c', sp, Ok ou) ->
       let s := pf_show a in
       exists lib, selected c lib /\
         (In (path, fmt) (ou_files ou) <->
            sh_save s = true /\ part_of (sh_type s) fmt /\ format_of lib fmt /\
            path = (match sh_name s with None => "rascal_solution" | Some f => f end ++ "." ++ fmt)%string)) /\
    (forall px s ou, plot_arc c px s = Ok (Some ou) ->
       exists lib, selected c lib /\
         (In (path, fmt) (ou_files ou) <->
            sh_save s = true /\ part_of (sh_type s) fmt /\ format_of lib fmt /\
            path = (match sh_name s with None => "rascal_arc" | Some f => f end ++ "." ++ fmt)%string)).
Proof.
  intros A N c path fmt. split.
  - intros a c' sp ou H. destruct (plot_fit_inv _ _ _ _ _ H) as (lib & k & co & at_ & pts & Hl & _ & _ & _ & _ & _ & ->).
    exists lib. split; auto. apply files_spec.
  - intros px s ou H. destruct (plot_arc_inv _ _ _ _ H) as (lib & pts & Hl & ->). exists lib. split; auto. apply files_spec.
Qed.

(** A fitted calibrator for the examples, with the pixels set and a library selected. *)
Definition c_plot (mpl : bool) : calib f64 :=
  set_c_gp (mkG None (Some (map fz [0; 1; 2]%Z)) None mpl (negb mpl)) c_fitted.
Definition show_png : show_args := mkShow true "png+gif+iframe" (Some "out"%string) true true.

(** Non-vacuity of C79: png is written by both libraries, iframe by plotly, gif by
    neither. *)
Example plot_files_example_main :
  match snd (plot_fit (c_plot true) (mkPF None None (fz 20) false show_png)),
        snd (plot_fit (c_plot false) (mkPF None None (fz 20) false show_png)) with
  | Ok m, Ok p =>
      ou_files m = [("out.png", "png")]%string /\
      ou_files p = [("out.png", "png"); ("out.iframe", "iframe")]%string
  | _, _ => False
  end.
Proof. vm_compute. repeat split. Qed.

(** C96: refuted: the documentation says that a missing extension is defaulted to png;
    in fact the extension is always appended, so that no call ever writes the file it
    was given the name of. *)
Lemma plot_filename_refuted_main :
  forall (A : Type) (N : Num A) (c : calib A) name fmt,
    (forall a c' sp ou, plot_fit c a = (c', sp, Ok ou) ->
       sh_name (pf_show a) = Some name -> ~ In (name, fmt) (ou_files ou)) /\
    (forall px s ou, plot_arc c px s = Ok (Some ou) ->
       sh_name s = Some name -> ~ In (name, fmt) (ou_files ou)).
Proof.
  intros A N c name fmt.
  assert (K : forall x y : string, name <> (name ++ "." ++ x)%string).
  { intros x y E. apply (f_equal String.length) in E. rewrite sapp_length in E. cbn in E. lia. }
  split.
  - intros a c' sp ou H E Hin. destruct (plot_files_main A N c name fmt) as (P & _). destruct (P _ _ _ _ H) as (lib & _ & Q).
    apply Q in Hin. rewrite E in Hin. destruct Hin as (_ & _ & _ & Hin). exact (K _ EmptyString Hin).
  - intros px s ou H E Hin. destruct (plot_files_main A N c name fmt) as (_ & P). destruct (P _ _ _ H) as (lib & _ & Q).
    apply Q in Hin. rewrite E in Hin. destruct Hin as (_ & _ & _ & Hin). exact (K _ EmptyString Hin).
Qed.

(** C96, the part that holds: a name without extension gets .png under the default
    fig_type, and nothing else is written. *)
Lemma plot_filename_partial_main :
  forall (A : Type) (N : Num A) (c : calib A) name,
    (forall a c' sp ou, plot_fit c a = (c', sp, Ok ou) ->
       sh_name (pf_show a) = Some name -> sh_save (pf_show a) = true -> sh_type (pf_show a) = "png"%string ->
       ou_files ou = [((name ++ ".png")%string, "png"%string)]) /\
    (forall px s ou, plot_arc c px s = Ok (Some ou) ->
       sh_name s = Some name -> sh_save s = true -> sh_type s = "png"%string ->
       ou_files ou = [((name ++ ".png")%string, "png"%string)]).
Proof.
  intros A N c name.
  assert (K : forall lib, files_written lib true "png" (Some name) "rascal_solution" = [((name ++ ".png")%string, "png"%string)] /\
     files_written lib true "png" (Some name) "rascal_arc" = [((name ++ ".png")%string, "png"%string)]).
  { intros lib. destruct lib; split; reflexivity. }
  split.
  - intros a c' sp ou H E1 E2 E3. destruct (plot_fit_inv _ _ _ _ _ H) as (lib & k & co & at_ & pts & Hl & _ & _ & _ & _ & _ & ->).
    cbn [finish ou_files]. rewrite E1, E2, E3. apply K.
  - intros px s ou H E1 E2 E3. destruct (plot_arc_inv _ _ _ _ H) as (lib & pts & Hl & ->). cbn [finish ou_files].
    rewrite E1, E2, E3. apply K.
Qed.

(** Non-vacuity of C96: "out.png" becomes "out.png.png". *)
Example plot_filename_example_main :
  match snd (plot_fit (c_plot true) (mkPF None None (fz 20) false (mkShow true "png" (Some "out.png"%string) false false))),
        plot_arc (set_c_spectrum (Some (map fz [1; 4; 2]%Z)) (c_plot false)) None (mkShow true "png" (Some "arc"%string) false false) with
  | Ok m, Ok (Some p) => ou_files m = [("out.png.png", "png")]%string /\ ou_files p = [("arc.png", "png")]%string
  | _, _ => False
  end.
Proof. vm_compute. repeat split. Qed.

(** C95: refuted: the documentation says that nothing is displayed when JSON is asked
    for; in fact every successful call with display (the default) displays the figure. *)
Lemma plot_json_silent_refuted_main :
  forall (A : Type) (N : Num A) (c : calib A),
    (forall a c' sp ou, plot_fit c a = (c', sp, Ok ou) ->
       sh_json (pf_show a) = true -> sh_display (pf_show a) = true -> ou_shown ou = true) /\
    (forall px s ou, plot_arc c px s = Ok (Some ou) ->
       sh_json s = true -> sh_display s = true -> ou_shown ou = true).
Proof.
  intros A N c. split.
  - intros a c' sp ou H _ E. destruct (plot_fit_inv _ _ _ _ _ H) as (lib & k & co & at_ & pts & Hl & _ & _ & _ & _ & _ & ->). exact E.
  - intros px s ou H _ E. destruct (plot_arc_inv _ _ _ _ H) as (lib & pts & Hl & ->). exact E.
Qed.

(** C95, the part that holds: JSON is returned exactly when it is asked for and plotly is
    selected, and nothing is displayed without display. *)
Lemma plot_json_silent_partial_main :
  forall (A : Type) (N : Num A) (c : calib A),
    (forall a c' sp ou, plot_fit c a = (c', sp, Ok ou) ->
       (ou_json ou = true <-> sh_json (pf_show a) = true /\ selected c Plotly) /\
       (sh_display (pf_show a) = false -> ou_shown ou = false)) /\
    (forall px s ou, plot_arc c px s = Ok (Some ou) ->
       (ou_json ou = true <-> sh_json s = true /\ selected c Plotly) /\
       (sh_display s = false -> ou_shown ou = false)).
Proof.
  intros A N c. split.
  - intros a c' sp ou H. destruct (plot_fit_inv _ _ _ _ _ H) as (lib & k & co & at_ & pts & Hl & _ & _ & _ & _ & _ & ->).
    cbn. split; auto. destruct lib; cbn in *; [|tauto]. split; [discriminate|intros (_ & E & _); congruence].
  - intros px s ou H. destruct (plot_arc_inv _ _ _ _ H) as (lib & pts & Hl & ->).
    cbn. split; auto. destruct lib; cbn in *; [|tauto]. split; [discriminate|intros (_ & E & _); congruence].
Qed.

(** Non-vacuity of C95. *)
Example plot_json_silent_example_main :
  match snd (plot_fit (c_plot false) (mkPF None None (fz 20) false show_png)),
        plot_arc (set_c_spectrum (Some (map fz [1; 4; 2]%Z)) (c_plot false)) None show_png with
  | Ok m, Ok (Some p) => ou_shown m = true /\ ou_json m = true /\ ou_shown p = true /\ ou_json p = true
  | _, _ => False
  end.
Proof. vm_compute. repeat split. Qed.

(* ------------------------------------------------------------------ *)
(** ** The spectrum *)

Lemma clip_id {A} {N : Num A} (s : list A) : (forall v, In v s -> v <' nZ 0 = false) -> clip_spectrum s = s.
Proof.
  unfold clip_spectrum. induction s as [|v s IH]; intros H; auto. cbn [map].
  rewrite (H v) by (left; auto). f_equal. apply IH. intros w Hw. apply H. right; auto.
Qed.

Lemma set_spectrum_same {A} (c : calib A) : set_c_spectrum (c_spectrum c) c = c.
Proof. destruct c; reflexivity. Qed.

(** C77: refuted: in logarithmic display every negative value is overwritten in the
    array the caller gave, or in the calibrator's own spectrum. *)
Lemma plot_fit_leaves_spectrum_refuted_main :
  forall (c : calib xr) a c' sp r (s : list xr) v,
    plot_fit c a = (c', sp, r) -> pf_log a = true -> In v s -> v <' nZ 0 = true ->
    (pf_spectrum a = Some s -> sp <> Some s) /\
    (pf_spectrum a = None -> c_spectrum c = Some s -> c_spectrum c' <> Some s).
Proof.
  intros c a c' sp r s v H Hlog Hin Hneg.
  assert (Hp : nltb (nlit (A := xr) 1 (-100)) (nZ 0) = false).
  { rewrite (nZ_Fin 0). change (nlit (A := xr) 1 (-100)) with (Fin (1 * powerRZ 10 (-100))).
    change (Rltb (1 * powerRZ 10 (-100)) 0 = false). destruct (Rltb_spec (1 * powerRZ 10 (-100)) 0) as [K|]; auto.
    pose proof (powerRZ_lt 10 (-100)). lra. }
  assert (K : clip_spectrum s <> s).
  { intros E. assert (Q : forall w, In w s -> w <' nZ 0 = false).
    { rewrite <- E. intros w Hw. unfold clip_spectrum in Hw. apply in_map_iff in Hw. destruct Hw as (u & <- & _).
      destruct (nltb u (nZ 0)) eqn:Eu; auto. }
    rewrite (Q v Hin) in Hneg. discriminate. }
  unfold plot_fit in H.
  match type of H with (?x, ?y, _) = _ => assert (E1 : x = c') by congruence; assert (E2 : y = sp) by congruence end.
  clear H. split.
  - intros Es. rewrite Es in E2. cbn [plot_spectrum] in E2. rewrite Hlog in E2. rewrite <- E2. congruence.
  - intros Es Ec. rewrite Es, Ec in E1. cbn [plot_spectrum] in E1. rewrite Hlog in E1. rewrite <- E1. cbn. congruence.
Qed.

(** C77, the part that holds: with log_spectrum off, or without negative values, the
    caller's spectrum and the whole calibrator are unchanged, whatever the outcome; and
    a spectrum given by the caller always spares the calibrator. *)
Lemma plot_fit_leaves_spectrum_partial_main :
  forall (A : Type) (N : Num A) (c : calib A) a c' sp r,
    plot_fit c a = (c', sp, r) ->
    (pf_spectrum a <> None -> c' = c) /\
    (pf_log a = false \/
     (forall s v, (pf_spectrum a = Some s \/ pf_spectrum a = None /\ c_spectrum c = Some s) -> In v s -> v <' nZ 0 = false) ->
     c' = c /\ sp = pf_spectrum a).
Proof.
  intros A N c a c' sp r H. unfold plot_fit in H.
  match type of H with (?x, ?y, _) = _ => assert (E1 : x = c') by congruence; assert (E2 : y = sp) by congruence end.
  clear H. subst c' sp. split.
  - destruct (pf_spectrum a); congruence.
  - intros H.
    assert (K : forall s, (pf_spectrum a = Some s \/ pf_spectrum a = None /\ c_spectrum c = Some s) -> plot_spectrum a (Some s) = Some s).
    { intros s Hs. cbn. destruct (pf_log a); auto. destruct H as [H|H]; [discriminate|]. rewrite clip_id; eauto. }
    split.
    + destruct (pf_spectrum a) as [s|] eqn:Es; auto. destruct (c_spectrum c) as [s|] eqn:Ec.
      * rewrite K by auto. rewrite <- Ec. apply set_spectrum_same.
      * cbn. rewrite <- Ec. apply set_spectrum_same.
    + destruct (pf_spectrum a) as [s|] eqn:Es; auto.
Qed.

(** Non-vacuity of C77: a successful call that overwrites the caller's -5, one that
    overwrites the stored -5, and one that changes nothing. *)
Example plot_fit_spectrum_example_main :
  let s := map fz [3; -5; 8]%Z in
  let a g l := mkPF None g (fz 20) l show_png in
  let cs := set_c_spectrum (Some s) (c_plot true) in
  (match plot_fit cs (a (Some s) true) with
   | (c', Some [_; v; _], Ok _) => v = fd 1 (-100) /\ c_spectrum c' = Some s | _ => False end) /\
  (match plot_fit cs (a None true) with
   | (c', None, Ok _) => match c_spectrum c' with Some [_; v; _] => v = fd 1 (-100) | _ => False end | _ => False end) /\
  (match plot_fit cs (a (Some s) false) with
   | (c', Some s', Ok _) => s' = s /\ c_spectrum c' = Some s | _ => False end).
Proof. vm_compute. repeat split. Qed.

(* ------------------------------------------------------------------ *)
(** ** The residuals *)

Lemma xr_sub_self (a : R) : nsub (Fin a) (Fin a) = Fin 0.
Proof. change (Fin (a + - a) = Fin 0). f_equal. lra. Qed.

Lemma drawn_matches_zero (lines : list R) : forall m d,
  (forall q, In q m -> In (snd q) (map Fin lines)) ->
  drawn_matches (map Fin lines) m = Ok d -> Forall (fun q => snd q = Fin 0) d.
Proof.
  induction m as [|[p x] m IH]; intros d Hm H; cbn [drawn_matches] in H.
  - assert (d = []) by congruence. subst. constructor.
  - pose proof (Hm (p, x) (or_introl eq_refl)) as Hx. cbn in Hx. apply in_map_iff in Hx. destruct Hx as (xr0 & <- & Hx).
    assert (Hne : map (fun l => nabs (l -' Fin xr0)) (map Fin lines) <> []) by (destruct lines; [contradiction|discriminate]).
    destruct (np_argmin_spec _ Hne) as (i & dd & Ei & Ed & Hd). rewrite Ei in H.
    rewrite nth_error_map in Ed. destruct (nth_error (map Fin lines) i) as [l|] eqn:El; [|discriminate].
    cbn [option_map] in Ed. assert (Ed' : nabs (l -' Fin xr0) = dd) by congruence.
    apply bind_Ok in H. destruct H as (rest & Hr & H). assert (E : d = (p, l -' Fin xr0) :: rest) by congruence. subst d.
    constructor.
    + cbn [snd]. apply nth_error_In in El. apply in_map_iff in El. destruct El as (lr & <- & _).
      specialize (Hd (nabs (Fin xr0 -' Fin xr0))).
      assert (Q : dd = Fin (Rabs (lr + - xr0))) by (rewrite <- Ed'; reflexivity). rewrite Q in Hd.
      rewrite xr_sub_self in Hd. assert (W : nltb (nabs (Fin 0)) (Fin (Rabs (lr + - xr0))) = false).
      { apply Hd. apply in_map_iff. exists (Fin xr0). split; [rewrite xr_sub_self; reflexivity|]. apply in_map. exact Hx. }
      change (Rltb (Rabs 0) (Rabs (lr + - xr0)) = false) in W. rewrite Rabs_R0 in W.
      destruct (Rltb_spec 0 (Rabs (lr + - xr0))) as [|W']; [discriminate|].
      change (Fin (lr + - xr0) = Fin 0). f_equal. unfold Rabs in W'. destruct (Rcase_abs (lr + - xr0)); lra.
    + eapply IH; eauto. intros q Hq. apply Hm. right; auto.
Qed.

Lemma mseq_none {A} (m : mseq A) : m <> MNone -> m = MList (mseq_vals m) \/ m = MArr (mseq_vals m).
Proof. destruct m; cbn; auto. congruence. Qed.

(** C78: refuted: matplotlib draws, for a matched pair, the distance of its wavelength
    from the nearest atlas line, not from the fit: for matched lines of the atlas every
    residual, and the rms, is drawn as 0, whatever the coefficients. *)
Lemma plot_fit_residuals_refuted_main :
  forall (c : calib xr) a c' sp ou (at_ : atlas xr) lines,
    plot_fit c a = (c', sp, Ok ou) -> selected c Matplotlib ->
    c_atlas c = Some at_ -> get_lines at_ = map Fin lines ->
    (forall w, In w (mseq_vals (c_matlas c)) -> In w (get_lines at_)) ->
    Forall (fun q => snd q = Fin 0) (ou_points ou) /\ ou_rms ou = Some (Fin 0).
Proof.
  intros c a c' sp ou at_ lines H Hs Ha Hl Hm.
  destruct (plot_fit_inv _ _ _ _ _ H) as (lib & k & co & at' & pts & Hlib & Hk & _ & Ha' & Hp & Hne & ->).
  assert (at' = at_) by congruence. subst at'.
  destruct lib; [|destruct Hlib as (Hlib & _); cbn in Hs; congruence].
  assert (Hz : Forall (fun q : xr * xr => snd q = Fin 0) pts).
  { unfold residual_panel in Hp. rewrite Ha, Hl in Hp.
    assert (Hp' : bind (drawn_matches (map Fin lines) (combine (mseq_vals (c_mpeaks c)) (mseq_vals (c_matlas c)))) (fun d =>
                bind (polyvals_of (c_kind c) (map fst d) co) (fun xs => Ok (combine xs (map snd d)))) = Ok pts).
    { destruct (c_mpeaks c), (c_matlas c); try discriminate Hp; exact Hp. }
    clear Hp. apply bind_Ok in Hp'. destruct Hp' as (d & Hd & Hp). apply bind_Ok in Hp. destruct Hp as (xs & _ & Hp).
    assert (pts = combine xs (map snd d)) by congruence. subst pts.
    assert (Hz : Forall (fun q : xr * xr => snd q = Fin 0) d).
    { eapply drawn_matches_zero; eauto. intros [p w] Hq. apply in_combine_r in Hq. cbn. rewrite <- Hl. auto. }
    apply Forall_forall. intros [x y] Hq. apply in_combine_r in Hq. apply in_map_iff in Hq. destruct Hq as (q & <- & Hq).
    rewrite Forall_forall in Hz. exact (Hz q Hq). }
  cbn [finish ou_points ou_rms]. split; auto. f_equal. unfold drawn_rms, np_mean.
  assert (E : map (fun v : xr => v *' v) (map snd pts) = map Fin (repeat 0%R (List.length pts))).
  { clear -Hz. induction Hz as [|q l Hq Hz IH]; [reflexivity|]. cbn [map repeat List.length]. rewrite IH, Hq. f_equal.
    change (Fin (0 * 0) = Fin 0). f_equal. ring. }
  rewrite E, np_sum_Fin_R, map_length, repeat_length, nnat_Fin.
  assert (E0 : forall n, fold_right Rplus 0%R (repeat 0%R n) = 0%R) by (induction n as [|n IH]; cbn; [|rewrite IH]; lra).
  rewrite E0. assert (Hn : INR (List.length pts) <> 0%R).
  { destruct pts; [contradiction|]. apply not_0_INR. discriminate. }
  change (xsqrt (xdiv (Fin 0) (Fin (INR (List.length pts)))) = Fin 0). cbn [xdiv].
  destruct (Reqb_spec (INR (List.length pts)) 0) as [|_]; [contradiction|].
  unfold Rdiv. rewrite Rmult_0_l. cbn [xsqrt]. destruct (Rltb_spec 0 0); [lra|]. rewrite sqrt_0. reflexivity.
Qed.

(** C78: refuted, an instance in floating point: the coefficients given put every peak at
    wavelength 0, thousands of Angstrom from its matched line; the residuals drawn and
    the rms are 0. *)
Lemma plot_fit_residuals_instance_refuted_main :
  match snd (plot_fit (c_plot true) (mkPF (Some [fz 0; fz 0]) None (fz 5) false show_png)) with
  | Ok ou =>
      c_mpeaks (c_plot true) = MList ex_peaks /\ c_matlas (c_plot true) = MList ex_waves /\
      Forall (fun w => fz 3000 <' nabs (w -' fz 0) = true) ex_waves /\
      ou_points ou = map (fun _ => (fz 0, fz 0)) ex_peaks /\ ou_rms ou = Some (fz 0)
  | _ => False
  end.
Proof. vm_compute. repeat split; repeat constructor. Qed.

(** C78, the part that holds, over exact numbers: plotly draws, for exactly the peaks
    with an atlas line within the tolerance of the fit, the nearest line minus the fitted
    wavelength, at the fitted wavelength; the rms line is that of these residuals. *)
Lemma plot_fit_residuals_partial_main :
  forall (c : calib xr) a c' sp ou,
    plot_fit c a = (c', sp, Ok ou) -> selected c Plotly ->
    exists k co at_ m,
      c_kind c = Some k /\ match pf_coeff a with None => c_coeff c = Some co | Some l => l = co end /\
      c_atlas c = Some at_ /\
      (let f := fun p => eval_kind k p co in
       Forall (fun q => nearest f (get_lines at_) (fst q) (snd q) /\ within f (pf_tol a) (fst q) (snd q) = true) m /\
       (no_nan (get_lines at_) ->
        map fst m = filter (fun p => existsb (within f (pf_tol a) p) (get_lines at_)) (c_peaks c)) /\
       ou_points ou = map (fun q => (f (fst q), snd q -' f (fst q))) m /\
       ou_rms ou = Some (nsqrt (np_mean (map (fun q => (snd q -' f (fst q)) *' (snd q -' f (fst q))) m)))).
Proof.
  intros c a c' sp ou H Hs.
  destruct (plot_fit_inv _ _ _ _ _ H) as (lib & k & co & at_ & pts & Hlib & Hk & Hco & Ha & Hp & Hne & ->).
  destruct lib; [destruct Hs as (Hs & _); cbn in Hlib; congruence|]. clear Hs Hlib.
  unfold residual_panel in Hp. rewrite Ha, Hk in Hp. apply bind_Ok in Hp. destruct Hp as (m & Hm & Hp).
  apply bind_Ok in Hp. destruct Hp as (xs & Hxs & Hp). assert (Ep : pts = combine xs (map (fun q => snd (fst q) -' snd q) (combine m xs))) by congruence.
  clear Hp. destruct m as [|q0 m0] eqn:Em.
  { exfalso. apply Hne. rewrite Ep. cbn. destruct xs; reflexivity. }
  rewrite <- Em in *. assert (Hmn : m <> []) by (rewrite Em; discriminate).
  assert (Hc : co <> []).
  { intros ->. destruct (c_peaks c) as [|p ps]; [cbn in Hm; congruence|]. cbn [nearest_lines] in Hm. cbn in Hm. discriminate. }
  assert (Hl : get_lines at_ <> []).
  { intros E. rewrite E in Hm. destruct (c_peaks c) as [|p ps]; [cbn in Hm; congruence|]. cbn [nearest_lines] in Hm.
    apply bind_Ok in Hm. destruct Hm as (x & _ & Hm). discriminate. }
  destruct (nearest_lines_spec k (get_lines at_) co (pf_tol a) Hl Hc (c_peaks c)) as (m' & Hm' & Hf & Hn).
  assert (m' = m) by congruence. subst m'. clear Em.
  rewrite polyvals_map in Hxs by auto. assert (Ex : xs = map (fun p => eval_kind k p co) (map fst m)) by congruence.
  exists k, co, at_, m. split; [exact Hk|]. split; [exact Hco|]. split; [exact Ha|]. cbv zeta. split; [exact Hf|]. split; [exact Hn|].
  assert (E : pts = map (fun q => (eval_kind k (fst q) co, snd q -' eval_kind k (fst q) co)) m).
  { rewrite Ep, Ex. clear. induction m as [|q m IH]; auto. cbn [map combine fst snd]. rewrite IH. reflexivity. }
  cbn [finish ou_points ou_rms]. split; auto. unfold drawn_rms. rewrite E, !map_map. reflexivity.
Qed.

(** Non-vacuity of C78 in plotly: the same nonsense coefficients draw nothing (and raise),
    the fitted ones draw all the peaks. *)
Example plot_fit_residuals_example_main :
  snd (plot_fit (c_plot false) (mkPF (Some [fz 0; fz 0]) None (fz 5) false show_png)) = Raise ValueError /\
  match snd (plot_fit (c_plot false) (mkPF None None (fz 20) false show_png)) return Prop with
  | Ok ou => List.length (ou_points ou) = List.length ex_peaks
  | _ => False
  end.
Proof. vm_compute. repeat split. Qed.

(* ------------------------------------------------------------------ *)
(** ** plot_arc *)

(** C97: refuted: a calibrator made from peaks alone cannot be plotted: plot_arc()
    raises TypeError with either library. *)
Lemma plot_arc_without_spectrum_refuted_main :
  forall (A : Type) (N : Num A) (e : env A) peaks c0 h s,
    calib_init (e_hull e) peaks None = Ok c0 ->
    plot_arc (cal_run e c0 h) None s = Raise TypeError.
Proof.
  intros A N e peaks c0 h s H0.
  assert (K : c_spectrum (cal_run e c0 h) = None).
  { apply cal_run_inv.
    - exact (init_spectrum _ _ _ _ H0).
    - intros c o Hc. rewrite step_spectrum. exact Hc. }
  unfold plot_arc. rewrite K. reflexivity.
Qed.

(** C97, the part that holds, over exact numbers: with a spectrum, plot_arc() succeeds
    with either library and draws, at pixel i, the i-th value divided by the greatest
    value (if that is not 0). *)
Lemma plot_arc_without_spectrum_partial_main :
  forall (c : calib xr) lib s v vs,
    selected c lib -> c_spectrum c = Some (map Fin (v :: vs)) ->
    exists ou m, plot_arc c None s = Ok (Some ou) /\
      In m (v :: vs) /\ (forall u, In u (v :: vs) -> (u <= m)%R) /\
      List.length (ou_points ou) = List.length (v :: vs) /\
      forall i u, m <> 0%R -> nth_error (v :: vs) i = Some u ->
        nth_error (ou_points ou) i = Some (Fin (INR i), Fin (u / m)).
Proof.
  intros c lib s v vs Hs Hc. destruct (np_amax_Fin vs v) as (m & Em & Im & Lm).
  set (l := v :: vs) in *.
  exists (finish lib "rascal_arc" s (combine (map nnat (seq 0 (List.length (map Fin l)))) (map (fun u => u /' Fin m) (map Fin l))) None), m.
  split.
  { unfold plot_arc. rewrite Hc, Em. cbn [bind]. rewrite map_length, seq_length, Nat.eqb_refl.
    destruct lib; cbn in Hs; [rewrite Hs; reflexivity|]. destruct Hs as (-> & ->). reflexivity. }
  split; auto. split; auto. cbn [finish ou_points]. split.
  - rewrite combine_length, !map_length, seq_length. lia.
  - intros i u Hm Hi. assert (Hlt : (i < List.length l)%nat) by (apply nth_error_Some; congruence).
    assert (K : forall (X Y : Type) (a : list X) (b : list Y) j x y, nth_error a j = Some x -> nth_error b j = Some y -> nth_error (combine a b) j = Some (x, y)).
    { clear. induction a as [|x0 a IH]; intros b j x y H1 H2; destruct j; destruct b; cbn in *; try discriminate; [congruence|auto]. }
    apply K.
    + rewrite nth_error_map. rewrite (nth_error_nth' (seq 0 _) 0%nat) by (rewrite seq_length, map_length; lia).
      rewrite seq_nth by (rewrite map_length; lia). cbn [option_map Nat.add]. rewrite nnat_Fin. reflexivity.
    + rewrite !nth_error_map, Hi. cbn [option_map]. f_equal. change (xdiv (Fin u) (Fin m) = Fin (u / m)). cbn.
      destruct (Reqb_spec m 0); [contradiction|reflexivity].
Qed.

(** Non-vacuity of C97, on both sides. *)
Example plot_arc_example_main :
  (exists c0 : calib f64, calib_init (e_hull env0) [fz 10; fz 20] None = Ok c0) /\
  match plot_arc (set_c_spectrum (Some (map fz [1; 4; 2]%Z)) (c_plot true)) None show_png with
  | Ok (Some ou) => ou_points ou = [(fz 0, fd 25 (-2)); (fz 1, fz 1); (fz 2, fd 5 (-1))]
  | _ => False
  end.
Proof. split; [eexists; vm_compute; reflexivity|vm_compute; reflexivity]. Qed.

(* ------------------------------------------------------------------ *)
(** ** The region of plot_search_space *)

Definition on_points (k : list (R * R)) : list (xr * xr) := map (fun q => (Fin (fst q), Fin (snd q))) k.

Lemma xr_div_Fin a b : b <> 0%R -> ndiv (Fin a) (Fin b) = Fin (a / b).
Proof. intros H. change (xdiv (Fin a) (Fin b) = Fin (a / b)). cbn. destruct (Reqb_spec b 0); [contradiction|reflexivity]. Qed.

Lemma region_upper_Fin minw maxw rt m x : m <> 0%R ->
  region_upper (Fin minw) (Fin maxw) (Fin rt) (Fin m) (Fin x) = Fin ((maxw - minw) / m * x + minw + rt).
Proof.
  intros H. unfold region_upper. change (nsub (nadd (Fin maxw) (Fin rt)) (nadd (Fin minw) (Fin rt))) with (Fin (maxw + rt + - (minw + rt))).
  rewrite xr_div_Fin by auto. match goal with |- _ = Fin ?r => change (Fin ((maxw + rt + - (minw + rt)) / m * x + minw + rt) = Fin r) end.
  f_equal. field. auto.
Qed.
Lemma region_lower_Fin minw maxw rt m x : m <> 0%R ->
  region_lower (Fin minw) (Fin maxw) (Fin rt) (Fin m) (Fin x) = Fin ((maxw - minw) / m * x + minw - rt).
Proof.
  intros H. unfold region_lower. change (nsub (nsub (Fin maxw) (Fin rt)) (nsub (Fin minw) (Fin rt))) with (Fin (maxw + - rt + - (minw + - rt))).
  rewrite xr_div_Fin by auto. match goal with |- _ = Fin ?r => change (Fin ((maxw + - rt + - (minw + - rt)) / m * x + (minw + - rt)) = Fin r) end.
  f_equal. field. auto.
Qed.

Lemma in_quad m a b d e p w : in_hull [(0, a); (0, b); (m, d); (m, e)]%R (p, w) ->
  exists t1 t2 t3 t4, (0 <= t1 /\ 0 <= t2 /\ 0 <= t3 /\ 0 <= t4 /\ t1 + t2 + t3 + t4 = 1 /\
    p = (t3 + t4) * m /\ w = t1 * a + t2 * b + t3 * d + t4 * e)%R.
Proof.
  intros (ws & L & F & S & E). destruct ws as [|t1 [|t2 [|t3 [|t4 [|]]]]]; try discriminate.
  inversion F as [|? ? F1 G1]; subst. inversion G1 as [|? ? F2 G2]; subst. inversion G2 as [|? ? F3 G3]; subst.
  inversion G3 as [|? ? F4 _]; subst. exists t1, t2, t3, t4. cbn in S, E. injection E as E1 E2. repeat split; auto; lra.
Qed.

(** C98: with constrain_poly, every pair kept lies, over exact numbers and for a convex
    hull test that accepts only points of the hull, on the detector and within the
    candidate tolerance of the region plot_search_space draws. *)
Lemma pairs_in_drawn_region_main :
  forall (e : env xr) (inside : list (xr * xr) -> xr * xr -> bool) peaks spectrum c0 h (a : atlas xr)
         (ct minw maxw rt m : R) px rows p w,
    (forall k pts, e_hull e k pts = Ok (map (inside k) pts)) ->
    (forall k q1 q2, inside (on_points k) (Fin q1, Fin q2) = true -> in_hull k (q1, q2)) ->
    calib_init (e_hull e) peaks spectrum = Ok c0 ->
    let c := cal_run e c0 h in
    let r := set_atlas (e_hull e) c a (Fin ct) true in
    snd r = Ok tt -> c_pairs (fst r) = PArr rows -> In (Fin p, Fin w) rows ->
    h_minw (c_hp c) = Some (Fin minw) -> h_maxw (c_hp c) = Some (Fin maxw) -> h_rt (c_hp c) = Some (Fin rt) ->
    (0 <= rt)%R -> (0 <= ct)%R ->
    g_pixels (c_gp c) = Some (map Fin px) -> In m px -> (forall x, In x px -> (x <= m)%R) -> (0 < m)%R ->
    (0 <= p <= m)%R /\
    ((maxw - minw) / m * p + minw - rt - ct <= w <= (maxw - minw) / m * p + minw + rt + ct)%R.
Proof.
  intros e inside peaks spectrum c0 h a ct minw maxw rt m px rows p w Hh Hin H0 c r Hr Hpr Hq E1 E2 E3 Hrt Hct Epx Im Lm Pm.
  destruct (pairs_constrained_main xr XRnum e inside peaks spectrum c0 h a (Fin ct) Hh H0 Hr)
    as (minw' & maxw' & rt' & px' & m' & rows' & F1 & F2 & F3 & F4 & F5 & _ & F6).
  fold c r in F1, F2, F3, F4, F6.
  assert (minw' = Fin minw) by congruence. assert (maxw' = Fin maxw) by congruence. assert (rt' = Fin rt) by congruence.
  assert (px' = map Fin px) by congruence. subst.
  assert (m' = Fin m).
  { destruct px as [|x0 px]; [contradiction|]. destruct (np_amax_Fin px x0) as (m1 & G1 & G2 & G3).
    assert (m' = Fin m1) by congruence. subst m'. f_equal. apply Rle_antisym; auto. }
  subst m'. rewrite Hpr in F6.
  assert (Er : rows = filter (inside [(nZ 0, Fin minw +' Fin rt +' Fin ct); (nZ 0, Fin minw -' Fin rt -' Fin ct);
          (Fin m, Fin maxw -' Fin rt -' Fin ct); (Fin m, Fin maxw +' Fin rt +' Fin ct)]) rows') by congruence.
  rewrite Er in Hq. apply filter_In in Hq. destruct Hq as (_ & Hq). rewrite (nZ_Fin 0) in Hq.
  specialize (Hin [(0, minw + rt + ct); (0, minw + - rt + - ct); (m, maxw + - rt + - ct); (m, maxw + rt + ct)]%R p w Hq).
  apply in_quad in Hin. destruct Hin as (t1 & t2 & t3 & t4 & P1 & P2 & P3 & P4 & S & Ep & Ew).
  assert (Q : ((maxw - minw) / m * p = (maxw - minw) * (t3 + t4))%R) by (rewrite Ep; field; lra).
  rewrite Q. split.
  - rewrite Ep. split; [apply Rmult_le_pos; lra|]. rewrite <- (Rmult_1_l m) at 2. apply Rmult_le_compat_r; lra.
  - rewrite Ew.
    assert (t1 = 1 - t2 - t3 - t4)%R by lra. subst t1. split; nra.
Qed.

(** A hull test for the parallelograms in question, for the example. *)
Definition quad_inside (k : list (xr * xr)) (q : xr * xr) : bool :=
  match k, q with
  | [(Fin x0, Fin a); (Fin x1, Fin b); (Fin x2, Fin d); (Fin x3, Fin e)], (Fin p, Fin w) =>
      Reqb x0 0 && Reqb x1 0 && Rltb 0 x2 && Reqb x3 x2 && Reqb (a - b) (e - d) && Rltb b a &&
      Rleb 0 p && Rleb p x2 && Rleb (b + (d - b) / x2 * p) w && Rleb w (a + (e - a) / x2 * p)
  | _, _ => false
  end.
Lemma quad_inside_sound k p w : quad_inside (on_points k) (Fin p, Fin w) = true -> in_hull k (p, w).
Proof.
  destruct k as [|[x0 a] [|[x1 b] [|[x2 d] [|[x3 e] [|]]]]]; try discriminate. unfold quad_inside, on_points. cbn [map fst snd].
  rewrite !andb_true_iff. intros (((((((((H1 & H2) & H3) & H4) & H5) & H6) & H7) & H8) & H9) & H10).
  destruct (Reqb_spec x0 0); [|discriminate]. destruct (Reqb_spec x1 0); [|discriminate]. destruct (Rltb_spec 0 x2); [|discriminate].
  destruct (Reqb_spec x3 x2); [|discriminate]. destruct (Reqb_spec (a - b) (e - d)); [|discriminate]. destruct (Rltb_spec b a); [|discriminate].
  destruct (Rleb_spec 0 p); [|discriminate]. destruct (Rleb_spec p x2); [|discriminate].
  destruct (Rleb_spec (b + (d - b) / x2 * p) w); [|discriminate]. destruct (Rleb_spec w (a + (e - a) / x2 * p)); [|discriminate].
  clear H1 H2 H3 H4 H5 H6 H7 H8 H9 H10. subst x0 x1 x3.
  set (t := (p / x2)%R). set (u := ((w - (b + (d - b) * t)) / (a - b))%R).
  assert (Et : (t * x2 = p)%R) by (unfold t; field; lra).
  assert (T : (0 <= t <= 1)%R).
  { unfold t. split; [apply Rmult_le_pos; [lra|left; apply Rinv_0_lt_compat; lra]|].
    apply Rmult_le_reg_r with x2; [lra|]. unfold Rdiv. rewrite Rmult_assoc, Rinv_l by lra. lra. }
  assert (E1 : ((d - b) / x2 * p = (d - b) * t)%R) by (unfold t; field; lra).
  assert (E2 : ((e - a) / x2 * p = (e - a) * t)%R) by (unfold t; field; lra).
  rewrite E1 in *. rewrite E2 in *.
  assert (Eu : (u * (a - b) = w - (b + (d - b) * t))%R) by (unfold u; field; lra).
  assert (U : (0 <= u <= 1)%R).
  { split.
    - apply Rmult_le_reg_r with (a - b)%R; [lra|]. rewrite Eu. lra.
    - apply Rmult_le_reg_r with (a - b)%R; [lra|]. rewrite Eu. nra. }
  clearbody t u. exists [(1 - t) * u; (1 - t) * (1 - u); t * (1 - u); t * u]%R. split; [reflexivity|]. split.
  { repeat (apply Forall_cons; [apply Rmult_le_pos; lra|]). apply Forall_nil. }
  split; [cbn; ring|]. cbn. f_equal; [rewrite <- Et; ring|].
  assert (w = u * (a - b) + (b + (d - b) * t))%R by lra. subst w. assert (e = d + a - b)%R by lra. subst e. ring.
Qed.

(** Non-vacuity of C98: the pair (50, 6000) is kept, (50, 9000) is not. *)
Example pairs_in_drawn_region_example_main :
  let e := mkEnv (fun l : list xr => seq 0 (List.length l)) (mkCatalogue [] (fun _ => None)) (fun k pts => Ok (map (quad_inside k) pts)) in
  let at_ := mkAtlas (map (fun w => mkAL (Fin w) "Ar"%string (Fin 1) None) [6000; 9000]%R) (Fin 3000) (Fin 9000) (Fin 500) in
  let h := [OGeneral None (Some (map Fin [0; 100]%R)) None] in
  exists c0, calib_init (e_hull e) [Fin 50] (Some [Fin 1; Fin 2]) = Ok c0 /\
    (let c := cal_run e c0 h in
     let r := set_atlas (e_hull e) c at_ (Fin 10) true in
     snd r = Ok tt /\ c_pairs (fst r) = PArr [(Fin 50, Fin 6000)] /\
     h_minw (c_hp c) = Some (Fin 3000) /\ h_maxw (c_hp c) = Some (Fin 9000) /\ h_rt (c_hp c) = Some (Fin 500) /\
     g_pixels (c_gp c) = Some (map Fin [0; 100]%R)).
Proof.
  cbv zeta. unfold calib_init.
  set (e := mkEnv _ _ _).
  assert (Ea : exists x r, np_arange0 (nnat (A := xr) 2) = x :: r).
  { unfold np_arange0, np_arange1. rewrite nnat_Fin, (nZ_Fin 0).
    assert (E : nceil (nsub (Fin (INR 2)) (Fin 0)) = Some 2%Z).
    { unfold nceil. assert (E : nsub (Fin (INR 2)) (Fin 0) = Fin (IZR 2)) by (change (Fin (INR 2 + - 0) = Fin (IZR 2)); f_equal; cbn; lra).
      rewrite E. change (ntrunc (Fin (IZR 2))) with (xtrunc (Fin (IZR 2))). rewrite xtrunc_IZR, nZ_Fin.
      change (nltb (Fin 2) (Fin 2)) with (Rltb 2 2). destruct (Rltb_spec 2 2); [lra|reflexivity]. }
    rewrite E. cbn. do 2 eexists. reflexivity. }
  destruct Ea as (x & r & Ea).
  unfold set_calibrator_properties. cbn [calib_blank c_gp g_num_pix c_spectrum List.length g_pixels g_library keep]. rewrite Ea.
  cbn -[e set_hough_properties set_ransac_properties].
  unfold set_hough_properties. cbn -[np_ptp set_ransac_properties nadd nsub nZ]. 
  unfold np_ptp, np_amax, np_amin. cbn -[set_ransac_properties nadd nsub nZ np_maximum np_minimum].
  eexists. split; [reflexivity|]. cbn -[nadd nsub nZ nlit nnat np_arange0 keep set_atlas quad_inside].
  unfold set_atlas, generate_pairs. cbn -[nadd nsub nZ nlit np_amax quad_inside].
  unfold corners. cbn -[nadd nsub nZ nlit np_amax quad_inside].
  assert (Em : np_maximum (Fin 0) (Fin 100) = Fin 100).
  { unfold np_maximum. change (nleb (Fin 100) (Fin 0)) with (Rleb 100 0). destruct (Rleb_spec 100 0); [lra|reflexivity]. }
  rewrite Em. change (Fin (Rlit 0 0)) with (nZ (A := xr) 0). rewrite !nZ_Fin.
  repeat match goal with
  | |- context [nadd (Fin ?a) (Fin ?b)] => change (nadd (Fin a) (Fin b)) with (Fin (a + b))
  | |- context [nsub (Fin ?a) (Fin ?b)] => change (nsub (Fin a) (Fin b)) with (Fin (a + - b))
  | |- context [xadd (Fin ?a) (Fin ?b)] => change (xadd (Fin a) (Fin b)) with (Fin (a + b))
  | |- context [xsub (Fin ?a) (Fin ?b)] => change (xsub (Fin a) (Fin b)) with (Fin (a + - b))
  end.
  unfold quad_inside.
  repeat match goal with
  | |- context [Reqb ?a ?b] => let E := fresh in
     first [ assert (E : Reqb a b = true) by (destruct (Reqb_spec a b); [reflexivity|exfalso; lra])
           | assert (E : Reqb a b = false) by (destruct (Reqb_spec a b); [exfalso; lra|reflexivity])]; rewrite E; clear E
  | |- context [Rltb ?a ?b] => let E := fresh in
     first [ assert (E : Rltb a b = true) by (destruct (Rltb_spec a b); [reflexivity|exfalso; lra])
           | assert (E : Rltb a b = false) by (destruct (Rltb_spec a b); [exfalso; lra|reflexivity])]; rewrite E; clear E
  | |- context [Rleb ?a ?b] => let E := fresh in
     first [ assert (E : Rleb a b = true) by (destruct (Rleb_spec a b); [reflexivity|exfalso; lra])
           | assert (E : Rleb a b = false) by (destruct (Rleb_spec a b); [exfalso; lra|reflexivity])]; rewrite E; clear E
  end.
  repeat split; reflexivity.
Qed.

(** * Main_Log: the log level of calibrators and how often messages are written. *)

From Coq Require Import Bool List String Ascii Arith Lia.
From Verif Require Import Py Log SpecLog.
Import ListNotations.
Local Open Scope string_scope.
Local Open Scope list_scope.

Lemma replace_length {T} (l : list T) i v : i < List.length l -> List.length (replace l i v) = List.length l.
Proof. intros H. unfold replace. rewrite app_length, firstn_length. cbn [List.length]. rewrite skipn_length. lia. Qed.
Lemma replace_same {T} (l : list T) i v : i < List.length l -> nth_error (replace l i v) i = Some v.
Proof.
  intros H. unfold replace. rewrite nth_error_app2; rewrite firstn_length_le by lia; [|lia]. replace (i - i) with 0 by lia. reflexivity.
Qed.
Lemma nth_skip {T} : forall n (l : list T) m, nth_error (skipn n l) m = nth_error l (n + m).
Proof. induction n as [|n IH]; intros [|x l] m; cbn [skipn Nat.add nth_error]; auto. destruct m; reflexivity. Qed.
Lemma nth_first {T} : forall n (l : list T) m, m < n -> nth_error (firstn n l) m = nth_error l m.
Proof. induction n as [|n IH]; intros [|x l] m H; try lia; destruct m; cbn; auto. apply IH. lia. Qed.
Lemma replace_other {T} (l : list T) i j v : i < List.length l -> j <> i -> nth_error (replace l i v) j = nth_error l j.
Proof.
  intros H HJ. unfold replace. destruct (Nat.lt_ge_cases j i) as [L|L].
  - rewrite nth_error_app1 by (rewrite firstn_length_le; lia). apply nth_first. exact L.
  - rewrite nth_error_app2; rewrite firstn_length_le by lia; [|lia].
    destruct (j - i) as [|m] eqn:E; [lia|]. cbn [nth_error]. rewrite nth_skip. f_equal. lia.
Qed.

Lemma put_same t n l : put t n l n = l.
Proof. unfold put. rewrite String.eqb_refl. reflexivity. Qed.
Lemma put_other t n l m : m <> n -> put t n l m = t m.
Proof. intros H. unfold put. apply String.eqb_neq in H. rewrite H. reflexivity. Qed.

Lemma cals_step w p : List.length (lw_cals (log_step w p)) = grow (List.length (lw_cals w)) p.
Proof.
  destruct p as [|i name level|name]; cbn [log_step grow].
  - unfold start_log. change (level_number "warning") with (Ok 30 : res nat). cbn [lw_cals]. rewrite app_length. cbn [List.length]. lia.
  - destruct (nth_error (lw_cals w) i) as [k|] eqn:E; [|reflexivity].
    assert (H : i < List.length (lw_cals w)) by (apply nth_error_Some; congruence).
    unfold start_log. destruct (level_number _); cbn [lw_cals]; apply replace_length; exact H.
  - reflexivity.
Qed.

(** Case analysis of a step: the level of a logger, its handlers. *)
Lemma level_step w p name :
  lg_level (lw_loggers (log_step w p) name) =
  match asks (List.length (lw_cals w)) p with
  | Some (m, u) => if String.eqb m name then u else lg_level (lw_loggers w name)
  | None => lg_level (lw_loggers w name)
  end.
Proof.
  destruct p as [|i nm level|nm]; cbn [log_step asks].
  - change (start_log (lw_loggers w) (mkCL "" None) "Calibrator" "warning") with
      (put (lw_loggers w) "Calibrator" (mkLogger 30 (if Nat.eqb (lg_handlers (lw_loggers w "Calibrator")) 0 then 1 else lg_handlers (lw_loggers w "Calibrator"))), mkCL "Calibrator" (Some 30), Ok tt).
    cbn [lw_loggers]. destruct (String.eqb "Calibrator" name) eqn:E.
    + apply String.eqb_eq in E. subst name. rewrite put_same. reflexivity.
    + apply String.eqb_neq in E. rewrite put_other by congruence. reflexivity.
  - destruct (nth_error (lw_cals w) i) as [k|] eqn:E.
    + assert (H : i < List.length (lw_cals w)) by (apply nth_error_Some; congruence). apply Nat.ltb_lt in H. rewrite H.
      unfold start_log. destruct (level_number (or_default level "warning")) as [v|e]; [|reflexivity]. cbn [lw_loggers].
      destruct (String.eqb (or_default nm "Calibrator") name) eqn:EN.
      * apply String.eqb_eq in EN. subst name. rewrite put_same. reflexivity.
      * apply String.eqb_neq in EN. rewrite put_other by congruence. reflexivity.
    + apply nth_error_None in E. apply Nat.ltb_ge in E. rewrite E. reflexivity.
  - cbn [lw_loggers]. destruct (String.eqb name nm) eqn:E.
    + apply String.eqb_eq in E. subst nm. rewrite put_same. reflexivity.
    + apply String.eqb_neq in E. rewrite put_other by congruence. reflexivity.
Qed.

Lemma handlers_step w p name : (forall n, p <> LHandler n) -> lg_handlers (lw_loggers w name) <= 1 ->
  lg_handlers (lw_loggers (log_step w p) name) <= 1.
Proof.
  intros HP H.
  assert (G : forall nm v, lg_handlers (put (lw_loggers w) nm (mkLogger v (if Nat.eqb (lg_handlers (lw_loggers w nm)) 0 then 1 else lg_handlers (lw_loggers w nm))) name) <= 1).
  { intros nm v. destruct (String.eqb name nm) eqn:E.
    - apply String.eqb_eq in E. subst nm. rewrite put_same. cbn. destruct (Nat.eqb _ 0); lia.
    - apply String.eqb_neq in E. rewrite put_other by exact E. exact H. }
  destruct p as [|i nm level|nm]; [| |exfalso; apply (HP nm); reflexivity].
  - apply (G "Calibrator" 30).
  - cbn [log_step]. destruct (nth_error (lw_cals w) i) as [k|] eqn:E; [|exact H].
    unfold start_log. destruct (level_number (or_default level "warning")) as [v|e]; [|exact H]. apply G.
Qed.

(** Whatever calibrators are created and configured, in any order and number, no message is
    written twice; and a message of a calibrator whose last configuration was accepted is
    written exactly once if the level of its logger allows it, and not at all otherwise. *)
Lemma log_once_main :
  forall (root : nat) (h : list log_op),
    no_handlers h ->
    (forall i sev n, written root (log_run log_start h) i sev = Some n -> n <= 1) /\
    (forall i name level v, i < List.length (lw_cals (log_run log_start h)) ->
       level_number (or_default level "warning") = Ok v -> v <> 0 ->
       forall sev, written root (log_run log_start (h ++ [LSet i name level])) i sev = Some (if Nat.leb v sev then 1 else 0)).
Proof.
  intros root h NH.
  assert (I : forall name, lg_handlers (lw_loggers (log_run log_start h) name) <= 1).
  { intros name. unfold log_run. assert (G : forall h w, no_handlers h -> lg_handlers (lw_loggers w name) <= 1 -> lg_handlers (lw_loggers (fold_left log_step h w) name) <= 1).
    { clear. induction h as [|p h IH]; intros w NH Hw; [exact Hw|]. cbn [fold_left]. apply IH.
      - intros n Hn. apply (NH n). right. exact Hn.
      - apply handlers_step; [|exact Hw]. intros n ->. apply (NH n). left. reflexivity. }
    apply G; [exact NH|]. cbn. lia. }
  split.
  - intros i sev n. unfold written. destruct (nth_error _ i) as [k|]; [|discriminate].
    intros E. assert (I' := I (cl_logger k)). set (l := lw_loggers (log_run log_start h) (cl_logger k)) in *.
    assert (EN : n = if Nat.leb (if Nat.eqb (lg_level l) 0 then root else lg_level l) sev
            then (if Nat.eqb (lg_handlers l) 0 then (if Nat.leb 30 sev then 1 else 0) else lg_handlers l) else 0) by congruence.
    subst n. destruct (Nat.leb _ sev); [|lia]. destruct (Nat.eqb _ 0); [destruct (Nat.leb 30 sev); lia|exact I'].
  - intros i name level v Hi HL Hv sev. unfold log_run. rewrite fold_left_app. cbn [fold_left]. fold (log_run log_start h).
    set (w := log_run log_start h) in *. cbn [log_step].
    destruct (nth_error (lw_cals w) i) as [k|] eqn:E; [|apply nth_error_None in E; lia].
    unfold start_log. rewrite HL. unfold written. cbn [lw_cals lw_loggers]. rewrite replace_same by exact Hi. cbn [cl_logger].
    rewrite put_same. cbn [lg_level lg_handlers]. apply Nat.eqb_neq in Hv. rewrite Hv.
    assert (I' := I (or_default name "Calibrator")). fold w in I'.
    destruct (Nat.leb v sev); [|reflexivity].
    destruct (lg_handlers (lw_loggers w (or_default name "Calibrator"))) as [|[|m]]; [reflexivity|reflexivity|lia].
Qed.

(** The level of a logger is the one last asked for under its name, by whichever calibrator. *)
Lemma log_level_last_main :
  forall (h : list log_op) (name : string),
    lg_level (lw_loggers (log_run log_start h) name) = last_asked 0 name 0 h.
Proof.
  intros h name. unfold log_run.
  assert (G : forall h w, lg_level (lw_loggers (fold_left log_step h w) name) =
    last_asked (List.length (lw_cals w)) name (lg_level (lw_loggers w name)) h).
  { clear h. induction h as [|p h IH]; intros w; [reflexivity|]. cbn [fold_left last_asked].
    rewrite IH, cals_step, level_step. reflexivity. }
  rewrite G. reflexivity.
Qed.

(** A calibrator with a logger of its own: as long as no other call names this logger and
    the calibrator is not configured again, its messages are written as before. *)
Lemma log_level_kept_partial_main :
  forall (root : nat) (w : log_world) (i : nat) (k : cal_log) (h : list log_op),
    nth_error (lw_cals w) i = Some k -> Forall (leaves i (cl_logger k)) h ->
    forall sev, written root (log_run w h) i sev = written root w i sev.
Proof.
  intros root w i k h HK HF.
  assert (G : nth_error (lw_cals (log_run w h)) i = Some k /\ lw_loggers (log_run w h) (cl_logger k) = lw_loggers w (cl_logger k)).
  { revert w HK. induction HF as [|p h HP HF IH]; intros w HK; [auto|]. change (log_run w (p :: h)) with (log_run (log_step w p) h).
    assert (ST : nth_error (lw_cals (log_step w p)) i = Some k /\ lw_loggers (log_step w p) (cl_logger k) = lw_loggers w (cl_logger k)).
    { destruct p as [|j nm level|nm]; cbn [leaves] in HP.
      - cbn [log_step]. unfold start_log. change (level_number "warning") with (Ok 30 : res nat). cbn [lw_cals lw_loggers]. split.
        + rewrite nth_error_app1; [exact HK|]. apply nth_error_Some. congruence.
        + apply put_other. exact HP.
      - destruct HP as [HJ HN]. cbn [log_step]. destruct (nth_error (lw_cals w) j) as [kj|] eqn:EJ; [|auto].
        assert (L : j < List.length (lw_cals w)) by (apply nth_error_Some; congruence).
        unfold start_log. destruct (level_number _); cbn [lw_cals lw_loggers]; rewrite replace_other by (auto; congruence); split; auto.
        apply put_other. congruence.
      - cbn [log_step lw_cals lw_loggers]. split; [exact HK|]. apply put_other. congruence. }
    destruct ST as [S1 S2]. destruct (IH _ S1) as [I1 I2]. split; [exact I1|]. rewrite I2. exact S2. }
  destruct G as [G1 G2]. intros sev. unfold written. rewrite G1, HK, G2. reflexivity.
Qed.

(** The level chosen for a calibrator does not stay.  In any program: creating another
    calibrator, or configuring the same one again for another reason, puts the level back to
    warning; and the level chosen for one calibrator applies to all that were configured with
    the same (default) logger name. *)
Lemma log_level_kept_refuted_main :
  forall (root : nat) (h : list log_op) (i : nat) (level : string) (v : nat),
    no_handlers h -> i < List.length (lw_cals (log_run log_start h)) -> level_number level = Ok v -> 0 < v < 30 ->
    let w := log_run log_start (h ++ [LSet i None (Some level)]) in
    written root w i v = Some 1 /\
    written root (log_step w LNew) i v = Some 0 /\
    written root (log_step w (LSet i None None)) i v = Some 0 /\
    (forall j k, nth_error (lw_cals w) j = Some k -> cl_logger k = "Calibrator" -> written root w j v = Some 1).
Proof.
  intros root h i level v NH Hi HL Hv w.
  assert (W1 : forall sev, written root w i sev = Some (if Nat.leb v sev then 1 else 0)).
  { apply (proj2 (log_once_main root h NH) i None (Some level) v); [exact Hi|exact HL|lia]. }
  assert (WC : w = mkLW (lw_loggers w) (lw_cals w)) by (destruct w; reflexivity).
  assert (LC : List.length (lw_cals w) = List.length (lw_cals (log_run log_start h))).
  { subst w. unfold log_run. rewrite fold_left_app. cbn [fold_left]. rewrite cals_step. reflexivity. }
  assert (KI : exists k, nth_error (lw_cals w) i = Some k /\ cl_logger k = "Calibrator" /\
    lw_loggers w "Calibrator" = mkLogger v 1).
  { assert (J := proj2 (log_once_main root h NH) i None (Some level) v Hi HL ltac:(lia) v).
    assert (LV := level_step (log_run log_start h) (LSet i None (Some level)) "Calibrator").
    assert (W2 := W1 v). rewrite Nat.leb_refl in W2. unfold written in W2.
    destruct (nth_error (lw_cals w) i) as [k|] eqn:EK; [|discriminate]. exists k. split; [reflexivity|].
    assert (CK : cl_logger k = "Calibrator").
    { revert EK. subst w. unfold log_run. rewrite fold_left_app. cbn [fold_left]. fold (log_run log_start h). cbn [log_step].
      destruct (nth_error (lw_cals (log_run log_start h)) i) as [k0|] eqn:E0; [|apply nth_error_None in E0; lia].
      unfold start_log. change (or_default (Some level) "warning") with level. rewrite HL. cbn [lw_cals]. rewrite replace_same by exact Hi.
      intros E. assert (k = mkCL (or_default None "Calibrator") (Some v)) by congruence. subst k. reflexivity. }
    split; [exact CK|]. rewrite CK in W2.
    assert (LV' : lg_level (lw_loggers w "Calibrator") = v).
    { subst w. unfold log_run. rewrite fold_left_app. cbn [fold_left]. fold (log_run log_start h). rewrite LV. cbn [asks].
      apply Nat.ltb_lt in Hi. rewrite Hi. change (or_default (Some level) "warning") with level. rewrite HL. reflexivity. }
    rewrite LV' in W2. destruct (Nat.eqb v 0) eqn:V0; [apply Nat.eqb_eq in V0; lia|]. rewrite Nat.leb_refl in W2.
    destruct (lw_loggers w "Calibrator") as [lv hd] eqn:EL. cbn [lg_level lg_handlers] in *. subst lv.
    assert (HS : hd <> 0).
    { assert (X : lg_handlers (lw_loggers w "Calibrator") <> 0); [|rewrite EL in X; exact X].
      subst w. unfold log_run. rewrite fold_left_app. cbn [fold_left]. fold (log_run log_start h). cbn [log_step].
      destruct (nth_error (lw_cals (log_run log_start h)) i) as [k0|] eqn:E0; [|apply nth_error_None in E0; lia].
      unfold start_log. change (or_default (Some level) "warning") with level. rewrite HL. cbn [lw_loggers or_default]. rewrite put_same.
      cbn [lg_handlers]. destruct (lg_handlers (lw_loggers (log_run log_start h) "Calibrator")); cbn; lia. }
    apply Nat.eqb_neq in HS. rewrite HS in W2. congruence. }
  destruct KI as (k & EK & CK & EL). clearbody w.
  assert (VB : Nat.leb 30 v = false) by (apply Nat.leb_gt; lia).
  split; [rewrite W1, Nat.leb_refl; reflexivity|]. split; [|split].
  - cbn [log_step]. unfold start_log. change (level_number "warning") with (Ok 30 : res nat). unfold written. cbn [lw_cals lw_loggers].
    rewrite nth_error_app1 by (apply nth_error_Some; congruence). rewrite EK, CK, put_same. cbn [lg_level lg_handlers Nat.eqb]. rewrite VB. reflexivity.
  - cbn [log_step]. rewrite EK. unfold start_log. cbn [or_default]. change (level_number "warning") with (Ok 30 : res nat). unfold written. cbn [lw_cals lw_loggers].
    rewrite replace_same by (apply nth_error_Some; congruence). cbn [cl_logger]. rewrite put_same. cbn [lg_level lg_handlers Nat.eqb]. rewrite VB. reflexivity.
  - intros j kj EJ CJ. unfold written. rewrite EJ, CJ, EL. cbn [lg_level lg_handlers Nat.eqb].
    destruct (Nat.eqb v 0) eqn:V0; [apply Nat.eqb_eq in V0; lia|]. rewrite Nat.leb_refl. reflexivity.
Qed.

(** A level that is not known raises ValueError, in any spelling of upper and lower case;
    the calibrator then writes to the logger asked for although it was not configured: under a
    new name its messages up to the level of the root logger go unformatted to python's handler
    of last resort. *)
Lemma log_level_rejected_main :
  forall (w : log_world) (i : nat) (k : cal_log) (name level : string),
    nth_error (lw_cals w) i = Some k -> level_number level = Raise ValueError ->
    snd (start_log (lw_loggers w) k name level) = Raise ValueError /\
    lw_loggers (log_step w (LSet i (Some name) (Some level))) = lw_loggers w /\
    nth_error (lw_cals (log_step w (LSet i (Some name) (Some level)))) i = Some (mkCL name (cl_level k)).
Proof.
  intros w i k name level HK HL. cbn [log_step]. rewrite HK. unfold start_log. cbn [or_default]. rewrite HL. cbn [snd lw_loggers lw_cals].
  split; [reflexivity|]. split; [reflexivity|]. apply replace_same. apply nth_error_Some. congruence.
Qed.

Lemma upper_char_same : forall c d, upper_char c = upper_char d <-> same_letter c d.
Proof.
  assert (NA : forall n, n < 256 -> nat_of_ascii (ascii_of_nat n) = n) by (intros; apply nat_ascii_embedding; lia).
  assert (U : forall c, nat_of_ascii (upper_char c) =
    if (Nat.leb 97 (nat_of_ascii c) && Nat.leb (nat_of_ascii c) 122)%bool then nat_of_ascii c - 32 else nat_of_ascii c).
  { intros c. unfold upper_char. destruct (_ && _)%bool; [|reflexivity]. apply NA. pose proof (nat_ascii_bounded c). lia. }
  assert (INJ : forall c d, nat_of_ascii c = nat_of_ascii d -> c = d).
  { intros c d H. rewrite <- (ascii_nat_embedding c), <- (ascii_nat_embedding d). congruence. }
  intros c d. split.
  - intros H. assert (H' : nat_of_ascii (upper_char c) = nat_of_ascii (upper_char d)) by congruence.
    rewrite !U in H'.
    destruct (Nat.leb_spec 97 (nat_of_ascii c)), (Nat.leb_spec (nat_of_ascii c) 122),
      (Nat.leb_spec 97 (nat_of_ascii d)), (Nat.leb_spec (nat_of_ascii d) 122); cbn [andb] in H';
      try (left; apply INJ; lia).
    all: right.
    all: first [ exists (nat_of_ascii c - 97); lia | exists (nat_of_ascii d - 97); lia ].
  - intros [H|(k & K & H)]; [congruence|]. apply INJ. rewrite !U.
    destruct (Nat.leb_spec 97 (nat_of_ascii c)), (Nat.leb_spec (nat_of_ascii c) 122),
      (Nat.leb_spec 97 (nat_of_ascii d)), (Nat.leb_spec (nat_of_ascii d) 122); cbn [andb]; lia.
Qed.

Lemma upper_same : forall s t, upper s = upper t <-> same_word s t.
Proof.
  induction s as [|c s IH]; intros [|d t]; cbn [upper same_word]; try (split; [discriminate|tauto]).
  - tauto.
  - rewrite <- upper_char_same, <- IH. split; [intros H; injection H; auto|intros [H1 H2]; congruence].
Qed.

(** A level is accepted exactly when it is one of the names of levels, in whatever case, and
    stands for that name's number; anything else raises ValueError. *)
Lemma log_level_names_main :
  forall (s : string),
    (forall v, level_number s = Ok v <-> exists name, In (name, v) level_names /\ same_word s name) /\
    (forall e, level_number s = Raise e <-> e = ValueError /\ forall name v, In (name, v) level_names -> ~ same_word s name).
Proof.
  intros s.
  assert (G : (exists v, level_number s = Ok v /\ (exists name, In (name, v) level_names /\ same_word s name) /\
                 forall name u, In (name, u) level_names -> same_word s name -> u = v) \/
              (level_number s = Raise ValueError /\ forall name v, In (name, v) level_names -> ~ same_word s name)).
  { destruct (in_dec string_dec (upper s) ["CRITICAL"; "FATAL"; "ERROR"; "WARNING"; "WARN"; "INFO"; "DEBUG"; "NOTSET"]) as [HI|NI].
    - left.
      assert (Y : forall n low v, In (low, v) level_names -> upper low = n -> n = upper s -> level_number s = Ok v ->
        (forall low' u, In (low', u) level_names -> upper low' = n -> u = v) ->
        exists v, level_number s = Ok v /\ (exists name, In (name, v) level_names /\ same_word s name) /\
                 forall name u, In (name, u) level_names -> same_word s name -> u = v).
      { intros n low v HL HU HS HV UQ. exists v. split; [exact HV|]. split.
        - exists low. split; [exact HL|]. apply upper_same. congruence.
        - intros name u HN HW. apply (UQ name u HN). apply upper_same in HW. congruence. }
      assert (Z : forall n v, (forall low' u, In (low', u) level_names -> upper low' = n -> u = v) <->
        Forall (fun p => upper (fst p) = n -> snd p = v) level_names).
      { intros n v. rewrite Forall_forall. split; [intros H [a b] HA; exact (H a b HA)|intros H a b HA; exact (H (a, b) HA)]. }
      cbn in HI.
      destruct HI as [HI|[HI|[HI|[HI|[HI|[HI|[HI|[HI|[]]]]]]]]];
        [ apply (Y _ "critical" 50) with (3 := HI) | apply (Y _ "fatal" 50) with (3 := HI) | apply (Y _ "error" 40) with (3 := HI)
        | apply (Y _ "warning" 30) with (3 := HI) | apply (Y _ "warn" 30) with (3 := HI) | apply (Y _ "info" 20) with (3 := HI)
        | apply (Y _ "debug" 10) with (3 := HI) | apply (Y _ "notset" 0) with (3 := HI) ].
      all: try solve [cbn; auto 12]; try reflexivity; try (unfold level_number; rewrite <- HI; reflexivity).
      all: apply Z; repeat constructor; cbn; intros Q; solve [reflexivity | discriminate Q].
    - right.
      assert (NE : forall n, In n ["CRITICAL"; "FATAL"; "ERROR"; "WARNING"; "WARN"; "INFO"; "DEBUG"; "NOTSET"] -> String.eqb (upper s) n = false).
      { intros n HN. apply String.eqb_neq. intros Q. apply NI. rewrite Q. exact HN. }
      split.
      + unfold level_number. cbv zeta. rewrite !NE by (cbn; auto 12). reflexivity.
      + intros name v HN HS. apply upper_same in HS. apply NI. rewrite HS. cbn in HN.
        repeat (destruct HN as [HN|HN]; [injection HN as <- <-; cbn; auto 12|]). destruct HN. }
  destruct G as [(v & E & (name & HN & HS) & UQ)|(E & NO)]; rewrite E; split.
  - intros u. split; [intros H; assert (u = v) by congruence; subst u; eauto|].
    intros (n & HI & HW). rewrite (UQ _ _ HI HW). reflexivity.
  - intros e. split; [discriminate|]. intros [_ H]. destruct (H _ _ HN HS).
  - intros u. split; [discriminate|]. intros (n & HI & HW). destruct (NO _ _ HI HW).
  - intros e. split; [intros H; split; [congruence|exact NO]|intros [-> _]; reflexivity].
Qed.

(** Two calibrators; the first is to write everything from debug on. *)
Example log_level_example_main :
  let w := log_run log_start [LNew; LNew; LSet 0 None (Some "Debug"); LSet 1 (Some "mine") (Some "error")] in
  map (written 30 w 0) [10; 20; 40] = [Some 1; Some 1; Some 1] /\
  map (written 30 w 1) [10; 20; 40] = [Some 0; Some 0; Some 1] /\
  level_number "verbose" = Raise ValueError /\
  Forall (leaves 1 "mine") [LNew; LSet 0 None None].
Proof. vm_compute. repeat split; try constructor; try discriminate; repeat constructor; discriminate. Qed.

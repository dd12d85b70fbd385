(** * Main_Listing: what is printed by Atlas.list (C152). *)

From Coq Require Import ZArith Bool List String Ascii Lia SpecFloat.
From Verif Require Import Num F64 Py Np Util Atlas SpecAtlas Main_Atlas Hough PolyEval Calib SpecCalib CalibFacts SpecMirror Main_Mirror Listing.
Import ListNotations.
Local Open Scope string_scope.
Local Open Scope list_scope.

(** A text without a blank. *)
Fixpoint unbroken (s : string) : Prop :=
  match s with EmptyString => True | String c r => c <> " "%char /\ unbroken r end.

(** What the text says about a line. *)
Definition told {A} (l : atlas_line A) : string * A * A := (al_el l, al_wl l, al_int l).

Lemma app_assoc_str (a b c : string) : ((a ++ b) ++ c = a ++ (b ++ c))%string.
Proof. induction a; cbn; congruence. Qed.

Lemma last_word (a b x y : string) :
  unbroken x -> unbroken y -> (a ++ String " " x = b ++ String " " y)%string -> a = b /\ x = y.
Proof.
  intros Hx Hy. revert b. induction a as [|c a IH]; intros [|d b] E; cbn [append] in E.
  - injection E as ->. auto.
  - exfalso. injection E as <- E. subst x. clear - Hx. induction b; cbn in Hx; destruct Hx as [H1 H2]; auto.
  - exfalso. injection E as -> E. subst y. clear - Hy. induction a; cbn in Hy; destruct Hy as [H1 H2]; auto.
  - injection E as <- E. destruct (IH b E) as [-> ->]. auto.
Qed.

Lemma same_tail (a b t : string) : (a ++ t = b ++ t)%string -> a = b.
Proof.
  revert b. assert (L : forall u v, String.length (u ++ v)%string = String.length u + String.length v).
  { induction u; intros v; cbn; auto. }
  induction a as [|c a IH]; intros [|d b] E; cbn [append] in E; auto.
  - apply (f_equal String.length) in E. cbn in E. rewrite L in E. lia.
  - apply (f_equal String.length) in E. cbn in E. rewrite L in E. lia.
  - injection E as <- E. f_equal. auto.
Qed.

Lemma one_line {A} (show : A -> string) (l m : atlas_line A) :
  (forall x, unbroken (show x)) ->
  ("Element " ++ al_el l ++ " at " ++ show (al_wl l) ++ " with intensity " ++ show (al_int l) =
   "Element " ++ al_el m ++ " at " ++ show (al_wl m) ++ " with intensity " ++ show (al_int m))%string ->
  al_el l = al_el m /\ show (al_wl l) = show (al_wl m) /\ show (al_int l) = show (al_int m).
Proof.
  intros U E. cbn [append] in E. do 8 (apply (f_equal (fun s => match s with String _ r => r | _ => EmptyString end)) in E; cbv beta iota in E).
  set (w := show (al_wl l)) in *. set (w' := show (al_wl m)) in *. set (i := show (al_int l)) in *. set (i' := show (al_int m)) in *.
  change (al_el l ++ (" at" ++ String " " (w ++ (" with intensity" ++ String " " i))) =
          al_el m ++ (" at" ++ String " " (w' ++ (" with intensity" ++ String " " i'))))%string in E.
  assert (R : forall e v j, (e ++ (" at" ++ String " " (v ++ (" with intensity" ++ String " " j))) =
                             (((e ++ " at") ++ String " " v) ++ " with intensity") ++ String " " j)%string).
  { intros e v j. rewrite !app_assoc_str. reflexivity. }
  rewrite !R in E. apply last_word in E; [|apply U|apply U]. destruct E as [E Ei].
  apply same_tail in E. apply last_word in E; [|apply U|apply U]. destruct E as [E Ew]. apply same_tail in E. auto.
Qed.

(** The numbers of an Atlas. *)
Definition numbers {A} (s : atlas A) : list A := flat_map (fun l => [al_wl l; al_int l]) (at_lines s).

(** C152: the text printed for an Atlas determines its lines: if str() has no blanks and
    tells the numbers apart, two atlases print the same text exactly if they hold the same
    elements, wavelengths and intensities in the same order. *)
Lemma list_tells_lines_main :
  forall (A : Type) (N : Num A) (show : A -> string) (s t : atlas A),
    (forall x, unbroken (show x)) ->
    (forall x y, In x (numbers s) -> In y (numbers t) -> show x = show y -> x = y) ->
    (atlas_list show s = atlas_list show t <-> map told (at_lines s) = map told (at_lines t)).
Proof.
  intros A N show s t U J. unfold atlas_list. unfold numbers in J. revert J. generalize (at_lines s) as l. generalize (at_lines t) as m.
  intros m l. revert m. induction l as [|x l IH]; intros [|y m] J; cbn [map]; split; intros E; try discriminate; auto.
  - apply (f_equal (hd EmptyString)) in E as E1. apply (f_equal (@tl string)) in E. cbn [hd tl] in E, E1.
    apply one_line in E1; [|exact U]. destruct E1 as (H1 & H2 & H3). apply J in H2, H3; try (cbn; tauto).
    apply IH in E; [|intros a b Ha Hb; apply J; cbn; tauto]. rewrite E. unfold told. rewrite H1, H2, H3. reflexivity.
  - injection E as H1 H2 H3 E. rewrite H1, H2, H3. f_equal. apply IH; [|exact E]. intros a b Ha Hb; apply J; cbn; tauto.
Qed.

(** C152: user lines are printed after the lines the Atlas held, one text per supplied
    row and in the order supplied; a rejected call changes nothing. *)
Lemma list_after_user_main :
  forall (A : Type) (N : Num A) (show : A -> string) (s s' : atlas A) (u : user_args A) r,
    add_user_atlas s u = (s', r) ->
    (r = Ok tt /\ exists rows, supplied u rows /\
       atlas_list show s' = atlas_list show s ++
         map (fun q : string * A * A => let '(el, w, i) := q in
                ("Element " ++ el ++ " at " ++ show w ++ " with intensity " ++ show i)%string) rows) \/
    ((exists e, r = Raise e) /\ atlas_list show s' = atlas_list show s).
Proof.
  intros A N show s s' u r E. apply add_user_atlas_atomic_main in E.
  destruct E as [(-> & rows & new & Hs & El & Er) | (-> & _ & H)].
  - left. split; [reflexivity|]. exists rows. split; [exact Hs|]. unfold atlas_list. rewrite El, map_app. f_equal.
    rewrite <- Er, map_map. apply map_ext. intros [w e i src]. reflexivity.
  - right. split; [|reflexivity]. destruct H as [[-> _]|[[-> _]|[-> _]]]; eexists; reflexivity.
Qed.

(** C152: list_atlas raises AttributeError exactly when the calibrator has no Atlas; else
    it prints what list prints for an Atlas object that received the same calls. *)
Lemma list_atlas_mirror_main :
  forall (A : Type) (N : Num A) (show : A -> string) (e : env A) peaks spectrum c0 h1 h2 s,
    calib_init (e_hull e) peaks spectrum = Ok c0 ->
    cal_list_atlas show c0 = Raise AttributeError /\
    (c_atlas (cal_run e c0 h1) = Some s ->
     Forall (fun o => forall a t k, o <> OSetAtlas a t k) h2 ->
     exists ops, atlas_calls e (cal_run e c0 h1) h2 ops /\
       cal_list_atlas show (cal_run e c0 (h1 ++ h2)) =
         Ok (atlas_list show (atlas_run (e_argsort e) (e_cat e) s ops))).
Proof.
  intros A N show e peaks spectrum c0 h1 h2 s H0. split.
  - unfold cal_list_atlas. apply init_others in H0. destruct H0 as (_ & _ & _ & _ & E & _). rewrite E. reflexivity.
  - intros Hs Hf. destruct (calibrator_atlas_mirror_main A N e peaks spectrum c0 h1 h2 s H0 Hs Hf) as (ops & H1 & H2).
    exists ops. split; [exact H1|]. unfold cal_list_atlas. rewrite H2. reflexivity.
Qed.

(** A str() that tells the numbers 40, 20 and 0 apart. *)
Definition show_ex (x : f64) : string :=
  if SFeqb x (fz 40) then "40.0" else if SFeqb x (fz 20) then "20.0" else "0.0".
Example list_after_user_example_main :
  let s := mkAtlas [mkAL (fz 40) "Hg" (fz 0) None] (fz 20) (fz 40) (fz 500) in
  let u := uargs (UElSeq (SeqList ["Ne I"; "at"])) (SeqList [fz 20; fz 40]) None in
  atlas_list show_ex (fst (add_user_atlas s u)) =
    ["Element Hg at 40.0 with intensity 0.0"; "Element Ne I at 20.0 with intensity 0.0";
     "Element at at 40.0 with intensity 0.0"].
Proof. vm_compute. reflexivity. Qed.
Example list_tells_lines_example_main :
  let s := mkAtlas [mkAL (fz 40) "Hg" (fz 0) None; mkAL (fz 20) "Ne I" (fz 40) None] (fz 20) (fz 40) (fz 500) in
  let t := mkAtlas [mkAL (fz 20) "Ne I" (fz 40) None; mkAL (fz 40) "Hg" (fz 0) None] (fz 20) (fz 40) (fz 500) in
  (forall x, unbroken (show_ex x)) /\
  (forall x y, In x (numbers s) -> In y (numbers t) -> show_ex x = show_ex y -> x = y) /\
  atlas_list show_ex s <> atlas_list show_ex t.
Proof.
  cbv zeta. split; [|split].
  - intros x. unfold show_ex. destruct (SFeqb x (fz 40)); [|destruct (SFeqb x (fz 20))]; cbn; repeat split; discriminate.
  - intros x y Hx Hy. cbn in Hx, Hy.
    destruct Hx as [<-|[<-|[<-|[<-|[]]]]]; destruct Hy as [<-|[<-|[<-|[<-|[]]]]]; vm_compute; congruence.
  - vm_compute. discriminate.
Qed.

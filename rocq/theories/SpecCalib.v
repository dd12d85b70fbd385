(** * SpecCalib: histories of a Calibrator and what its state should be. *)

From Coq Require Import ZArith Bool List String Reals.
From Verif Require Import Num Py Np Util Atlas Hough Calib.
Import ListNotations.

Section Spec.
  Context {A : Type} {N : Num A}.

  (** The outside world: the unstable argsort, the line catalogue, the hull test. *)
  Record env : Type := mkEnv {
    e_argsort : list A -> list nat; e_cat : catalogue A; e_hull : hull_test A
  }.

  (** The calls that configure a Calibrator. *)
  Inductive cal_op : Type :=
  | OGeneral (num_pix : option A) (pixel_list : option (list A)) (library : option string)
  | OUseMatplotlib | OUsePlotly
  | OHough (a : hough_args A)
  | ORansac (a : ransac_args A)
  | OKnown (pix wave : known_arg A)
  | OSetAtlas (a : atlas A) (cand_tol : A) (constrain : bool)
  | OAddAtlas (a : add_args A) (cand_tol : A) (constrain : bool)
  | OAddUser (u : user_args A) (cand_tol : A) (constrain : bool)
  | ORemove (w tol : A)
  | OClear
  | OTransform (brute : bool)
  | OLoad (fs : files A) (name filetype : string).

  Definition cal_step (e : env) (c : calib A) (o : cal_op) : calib A * res unit :=
    match o with
    | OGeneral n p l => set_calibrator_properties c n p l
    | OUseMatplotlib => (use_matplotlib c, Ok tt)
    | OUsePlotly => (use_plotly c, Ok tt)
    | OHough a => set_hough_properties (e_hull e) c a
    | ORansac a => set_ransac_properties c a
    | OKnown p w => set_known_pairs c p w
    | OSetAtlas a t k => set_atlas (e_hull e) c a t k
    | OAddAtlas a t k => cal_add_atlas (e_argsort e) (e_cat e) (e_hull e) c a t k
    | OAddUser u t k => cal_add_user_atlas (e_hull e) c u t k
    | ORemove w t => cal_remove_lines c w t
    | OClear => cal_clear_atlas c
    | OTransform b => do_hough_transform (e_argsort e) c b
    | OLoad fs n t => load_hough_transform c fs n t
    end.

  (** The state after a history whose exceptions the caller catches. *)
  Definition cal_run (e : env) (c : calib A) (h : list cal_op) : calib A :=
    fold_left (fun c o => fst (cal_step e c o)) h c.

  (** No call of the history raises. *)
  Fixpoint cal_ok (e : env) (c : calib A) (h : list cal_op) : Prop :=
    match h with
    | [] => True
    | o :: r => snd (cal_step e c o) = Ok tt /\ cal_ok e (fst (cal_step e c o)) r
    end.

  (** The last value given for a property in a history. *)
  Fixpoint last_given {T} (arg : cal_op -> option T) (h : list cal_op) : option T :=
    match h with
    | [] => None
    | o :: r => match last_given arg r with Some v => Some v | None => arg o end
    end.
  Definition given_or {T} (arg : cal_op -> option T) (h : list cal_op) (dflt : T) : T :=
    match last_given arg h with Some v => v | None => dflt end.

  Definition hough_arg {T} (f : hough_args A -> option T) (o : cal_op) : option T :=
    match o with OHough a => f a | _ => None end.
  Definition ransac_arg {T} (f : ransac_args A -> option T) (o : cal_op) : option T :=
    match o with ORansac a => f a | _ => None end.

  (** A selection of a plotting library by the user. *)
  Definition names_library (o : cal_op) : bool :=
    match o with
    | OGeneral _ _ (Some l) => String.eqb l "matplotlib" || String.eqb l "plotly"
    | OUseMatplotlib | OUsePlotly => true
    | _ => false
    end.
  Definition is_general (o : cal_op) : bool :=
    match o with OGeneral _ _ _ => true | _ => false end.

  (** Calls that shrink the atlas. *)
  Definition shrinks_atlas (o : cal_op) : bool :=
    match o with ORemove _ _ | OClear => true | _ => false end.
  Definition transforms (o : cal_op) : bool :=
    match o with OTransform _ => true | _ => false end.

  (** A stored list of known pairs is fit for use. *)
  Definition valid_known (k : option (list A * list A)) : Prop :=
    match k with
    | None => True
    | Some (p, w) => List.length p = List.length w /\
        (forall x, In x p -> nisnan x = false) /\ (forall x, In x w -> nisnan x = false)
    end.

  (** The rows of the product in peak-major order. *)
  Definition is_product (peaks lines : list A) (rows : list (A * A)) : Prop :=
    List.length rows = (List.length peaks * List.length lines)%nat /\
    forall i j p w, nth_error peaks i = Some p -> nth_error lines j = Some w ->
      nth_error rows (i * List.length lines + j) = Some (p, w).

  (** The pairs (without constrain_poly) for an atlas. *)
  Definition pairs_of_atlas (peaks : list A) (a : atlas A) (p : pairs_val A) : Prop :=
    match p with
    | PMissing => False
    | PFlat => peaks = [] \/ get_lines a = []
    | PArr rows => rows <> [] /\ is_product peaks (get_lines a) rows
    end.
End Spec.
Arguments env A : clear implicits.
Arguments cal_op A : clear implicits.

(** A straight solution with the given wavelengths at the first and last pixel. *)
Definition straight_slope (first last ptp : R) : R := ((last - first) / ptp)%R.
Definition within (x y tol : R) : Prop := (Rabs (x - y) <= tol)%R.

(** * SpecOrder: which parts of a Calibrator its configuring calls read and write. *)

From Coq Require Import ZArith Bool List String.
From Verif Require Import Num Py Np Util Atlas Hough Calib SpecCalib.
Import ListNotations.

(** Parts of a calibrator: the peaks and the spectrum; num_pix and pixel_list; the plotting
    library; the Hough settings with the limits derived from them; the RANSAC settings; the
    known pairs; the atlas with candidate_tolerance and constrain_poly; the
    pixel-wavelength pairs; the Hough transform. *)
Inductive part : Type :=
  PInput | PGeometry | PLibrary | PHough | PRansac | PKnown | PAtlas | PPairs | PTransform.

Definition part_eqb (p q : part) : bool :=
  match p, q with
  | PInput, PInput | PGeometry, PGeometry | PLibrary, PLibrary | PHough, PHough | PRansac, PRansac
  | PKnown, PKnown | PAtlas, PAtlas | PPairs, PPairs | PTransform, PTransform => true
  | _, _ => false
  end.
Definition mem (p : part) (l : list part) : bool := existsb (part_eqb p) l.
Definition disjoint (l1 l2 : list part) : bool := forallb (fun p => negb (mem p l2)) l1.

Section Spec.
  Context {A : Type} {N : Num A}.

  (** What a call may look at. *)
  Definition reads (o : cal_op A) : list part :=
    match o with
    | OGeneral _ _ _ => [PInput; PGeometry; PLibrary]
    | OUseMatplotlib | OUsePlotly => [PLibrary]
    | OHough _ => [PInput; PGeometry; PHough; PAtlas; PPairs]
    | ORansac _ => [PRansac]
    | OKnown _ _ => [PKnown]
    | OSetAtlas _ _ _ | OAddAtlas _ _ _ | OAddUser _ _ _ => [PInput; PGeometry; PHough; PAtlas; PPairs]
    | ORemove _ _ | OClear => [PAtlas]
    | OTransform _ => [PHough; PPairs; PTransform]
    | OLoad _ _ _ => [PTransform]
    end.

  (** What a call may change. *)
  Definition writes (o : cal_op A) : list part :=
    match o with
    | OGeneral _ _ _ => [PGeometry; PLibrary]
    | OUseMatplotlib | OUsePlotly => [PLibrary]
    | OHough _ => [PHough; PPairs]
    | ORansac _ => [PRansac]
    | OKnown _ _ => [PKnown]
    | OSetAtlas _ _ _ | OAddAtlas _ _ _ | OAddUser _ _ _ => [PAtlas; PPairs]
    | ORemove _ _ | OClear => [PAtlas]
    | OTransform _ | OLoad _ _ _ => [PTransform]
    end.

  (** Neither call changes what the other looks at. *)
  Definition independent (o1 o2 : cal_op A) : bool :=
    disjoint (writes o1) (reads o2) && disjoint (writes o2) (reads o1).

  (** The outcomes of the calls of a history, in order. *)
  Fixpoint outcomes (e : env A) (c : calib A) (h : list (cal_op A)) : list (res unit) :=
    match h with
    | [] => []
    | o :: r => snd (cal_step e c o) :: outcomes e (fst (cal_step e c o)) r
    end.

  (** Calls that state a setting (or compute the transform from the settings), rather
      than add to or take from the atlas. *)
  Definition states_setting (o : cal_op A) : bool :=
    match o with OAddAtlas _ _ _ | OAddUser _ _ _ | ORemove _ _ => false | _ => true end.
End Spec.

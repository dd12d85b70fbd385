(** * Listing: the text printed by Atlas.list and Calibrator.list_atlas. *)

From Coq Require Import ZArith Bool List String.
From Verif Require Import Num Py Np Util Atlas Hough Calib.
Import ListNotations.
Local Open Scope string_scope.

Section Listing.
  Context {A : Type} {N : Num A}.

  (** atlas.py:337-345 Atlas.list: the lines of text printed, in order.  [show] is str()
      of a number. *)
  Definition atlas_list (show : A -> string) (s : atlas A) : list string :=
    map (fun l => "Element " ++ al_el l ++ " at " ++ show (al_wl l) ++ " with intensity " ++ show (al_int l))
        (at_lines s).

  (** calibrator.py:1350-1355 Calibrator.list_atlas.  Without an Atlas the attribute is
      None and has no method. *)
  Definition cal_list_atlas (show : A -> string) (c : calib A) : res (list string) :=
    match c_atlas c with
    | None => Raise AttributeError
    | Some a => Ok (atlas_list show a)
    end.
End Listing.

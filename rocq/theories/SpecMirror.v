(** * SpecMirror: the calls on an Atlas that calls on a Calibrator stand for. *)

From Coq Require Import ZArith Bool List String.
From Verif Require Import Num Py Np Util SpecUtil Atlas SpecAtlas Hough Calib SpecCalib.
Import ListNotations.
Local Open Scope num_scope.

Section Spec.
  Context {A : Type} {N : Num A}.

  (** A call of add_user_atlas with usable arguments. *)
  Definition accepted (o : atlas_op A) : Prop := exists u rows, o = OpUser u /\ supplied u rows.

  (** What a call on a calibrator with the range [minw, maxw] and tolerance [rt] asks of
      its atlas: add_atlas fills in the limits that are not given. *)
  Definition atlas_call (minw maxw rt : A) (o : cal_op A) : list (atlas_op A) :=
    match o with
    | OAddUser u _ _ => [OpUser u]
    | OAddAtlas a _ _ =>
        [OpAdd {| aa_elements := aa_elements a;
                  aa_min := Some (oget (minw -' rt) (aa_min a));
                  aa_max := Some (oget (maxw +' rt) (aa_max a));
                  aa_min_intensity := aa_min_intensity a;
                  aa_min_distance := aa_min_distance a;
                  aa_vacuum := aa_vacuum a;
                  aa_pressure := aa_pressure a;
                  aa_temperature := aa_temperature a;
                  aa_rh := aa_rh a;
                  aa_linelist := aa_linelist a;
                  aa_brightest_n := aa_brightest_n a |}]
    | ORemove w t => [OpRemove w t]
    | OClear => [OpClear]
    | _ => []
    end.

  (** The calls that a history of calls on calibrator [c] asks of its atlas; the range is
      the one set at the time of the call. *)
  Inductive atlas_calls (e : env A) : calib A -> list (cal_op A) -> list (atlas_op A) -> Prop :=
  | calls_nil c : atlas_calls e c [] []
  | calls_cons c o h ops minw maxw rt :
      h_minw (c_hp c) = Some minw -> h_maxw (c_hp c) = Some maxw -> h_rt (c_hp c) = Some rt ->
      atlas_calls e (fst (cal_step e c o)) h ops ->
      atlas_calls e c (o :: h) (atlas_call minw maxw rt o ++ ops).

  (** The same without add_atlas, which needs no range. *)
  Definition own_lines_call (o : cal_op A) : list (atlas_op A) :=
    match o with
    | OAddUser u _ _ => [OpUser u]
    | ORemove w t => [OpRemove w t]
    | OClear => [OpClear]
    | _ => []
    end.
End Spec.

(** * Props_World: property theorems only.  The proofs are in Main_World.v. *)

From Coq Require Import ZArith Bool List Lia String.
From Verif Require Import Num F64 Py Np NpFacts ArgsortFacts Util Atlas Hough Calib SpecCalib CalibFacts World.
From Verif Require Main_Calib.
From Verif Require Import Main_World.
Import ListNotations.
Local Open Scope num_scope.

(** C120: as long as no Atlas object is handed to two calibrators, every calibrator
    behaves, in every interleaving of calls to all of them, exactly as if it were
    alone: its state is the one its own calls lead to. *)
Theorem calibrators_independent_partial :
  forall (A : Type) (N : Num A) (e : env A) (w : world A) (h : list (world_op A)) i c,
    separate w -> forallb unshared h = true -> view w i = Some c ->
    separate (world_run e w h) /\
    view (world_run e w h) i = Some (cal_run e c (flat_map (addressed i) h)) /\
    (forall o p, unshared o = true -> addressed i o = [p] ->
       snd (world_step e (world_run e w h) o) =
       Some (snd (cal_step e (cal_run e c (flat_map (addressed i) h)) p))).
Proof. exact calibrators_independent_partial_main. Qed.
Print Assumptions calibrators_independent_partial.

(** C120 fails when the same Atlas object is given to two calibrators: whatever the
    state, clearing or shrinking it through one does so to the other too, whose pairs are left
    as they were. *)
Theorem calibrators_independent_refuted :
  forall (A : Type) (N : Num A) (e : env A) (w : world A) i j r c d ci dj a,
    i <> j -> nth_error (w_cals w) i = Some (c, Some r) -> nth_error (w_cals w) j = Some (d, Some r) ->
    nth_error (w_heap w) r = Some a -> view w i = Some ci -> view w j = Some dj ->
    (view (fst (world_step e w (WCall i OClear))) j = Some (set_c_atlas (Some (atlas_clear a)) dj)) /\
    (forall wl tol, view (fst (world_step e w (WCall i (ORemove wl tol)))) j =
                    Some (set_c_atlas (Some (remove_atlas_lines_range a wl tol)) dj)) /\
    (forall f, view (fst (world_step e w (WAtlas r f))) j = Some (set_c_atlas (Some (f a)) dj)).
Proof. exact calibrators_independent_refuted_main. Qed.
Print Assumptions calibrators_independent_refuted.

(** Two calibrators given one Atlas of two lines: after one of them is cleared, the
    other has no lines either, though it still holds its four pairs. *)
Example calibrators_independent_example :
  exists c0 : calib f64, calib_init Main_Calib.all_inside [fz 10; fz 20] None = Ok c0 /\
    let w0 := mkW [Main_Calib.atlas2] [(c0, None); (c0, None)] in
    separate w0 /\
    let shared := [WSetShared 0 0 (fz 10) false; WSetShared 1 0 (fz 10) false; WCall 0 OClear] in
    let own := [WSetOwn 0 Main_Calib.atlas2 (fz 10) false; WSetOwn 1 Main_Calib.atlas2 (fz 10) false; WCall 0 OClear] in
    let lines (h : list (world_op f64)) := match view (world_run Main_Calib.env0 w0 h) 1 with
                   | Some c => match c_atlas c with Some a => Some (List.length (get_lines a)) | None => None end
                   | None => None end in
    forallb unshared own = true /\ lines shared = Some 0%nat /\ lines own = Some 2%nat.
Proof. exact calibrators_independent_example_main. Qed.

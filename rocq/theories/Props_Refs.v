(** * Props_Refs: property theorems only.  The proofs are in Main_Refs.v. *)

From Coq Require Import ZArith Bool List Lia.
From Verif Require Import Num F64 Py Np Hough Calib World Refs.
From Verif Require Import Main_Refs.
Import ListNotations.
Local Open Scope num_scope.

(** C145 (part that holds): the peaks are the calibrator's own.  Whatever the caller does
    with the objects it knows, in any order with calls of the calibrator, the calibrator
    keeps the peaks it was made with. *)
Theorem peaks_private :
  forall (A : Type) (N : Num A) (b : obj A) (l : list (ref_op A)),
    peaks_seen (ref_run (ref_init b) l) = ob_vals b.
Proof. exact peaks_private_main. Qed.
Print Assumptions peaks_private.

(** C145 (part that holds): known pairs given as lists or integer arrays stay as they were
    given until set_known_pairs is called again. *)
Theorem known_private_partial :
  forall (A : Type) (N : Num A) (b : obj A) (before after : list (ref_op A)) p w kp kw xs ys,
    let s := ref_run (ref_init b) before in
    nth_error (rf_heap s) p = Some (mkObj kp xs) -> nth_error (rf_heap s) w = Some (mkObj kw ys) ->
    kp <> FloatArray -> kw <> FloatArray ->
    length xs = length ys -> existsb nisnan xs = false -> existsb nisnan ys = false ->
    (forall q r, ~ In (RKnown q r) after) ->
    known_seen (ref_run (ref_step s (RKnown p w)) after) = Some (xs, ys).
Proof. exact known_private_partial_main. Qed.
Print Assumptions known_private_partial.

(** C145 REFUTED: known pixels given as a float array are the caller's array: whatever the
    caller later writes into it (NaN, which set_known_pairs refuses, or another number of
    values) is what the calibrator uses. *)
Theorem known_shared_refuted :
  forall (A : Type) (N : Num A) (s : refs A) p w xs kw ys (f : list A -> list A),
    In p (rf_held s) -> nth_error (rf_heap s) p = Some (mkObj FloatArray xs) -> nth_error (rf_heap s) w = Some (mkObj kw ys) ->
    p <> w -> length xs = length ys -> existsb nisnan xs = false -> existsb nisnan ys = false ->
    known_seen (ref_run s [RKnown p w; REdit p f]) = Some (f xs, ys).
Proof. exact known_shared_refuted_main. Qed.
Print Assumptions known_shared_refuted.

(** C145 REFUTED: a pixel list given as an array of any kind is shared, too, and after a
    change it no longer agrees with the table behind the conversion to raw pixels. *)
Theorem pixels_shared_refuted :
  forall (A : Type) (N : Num A) (s : refs A) r k xs (f : list A -> list A),
    In r (rf_held s) -> nth_error (rf_heap s) r = Some (mkObj k xs) -> k <> PyList ->
    let s' := ref_run s [RPixels r; REdit r f] in
    pixels_seen s' = Some (f xs) /\ rf_table s' = Some xs.
Proof. exact pixels_shared_refuted_main. Qed.
Print Assumptions pixels_shared_refuted.

(** C145 REFUTED: the lists and coefficients that fit returns are the calibrator's own:
    the caller who changes them changes the solution stored in the calibrator. *)
Theorem results_shared_refuted :
  forall (A : Type) (N : Num A) (s : refs A) co mp ma,
    let s1 := ref_step s (RFit co mp ma) in
    coeff_seen s1 = Some co /\ matched_seen s1 = (Some mp, Some ma) /\
    exists rc rp ra, In rc (rf_held s1) /\ In rp (rf_held s1) /\ In ra (rf_held s1) /\
      forall f g h,
        let s2 := ref_run s1 [REdit rc f; REdit rp g; REdit ra h] in
        coeff_seen s2 = Some (f co) /\ matched_seen s2 = (Some (g mp), Some (h ma)).
Proof. exact results_shared_refuted_main. Qed.
Print Assumptions results_shared_refuted.

(** C145 (part that holds): manual_refit copies the lists it is given.  Changes of anything
    the caller knew before the call leave the stored solution as it is. *)
Theorem refit_private_partial :
  forall (A : Type) (N : Num A) (b : obj A) (before : list (ref_op A)) p w kp kw xs ys co (edits : list (nat * (list A -> list A))),
    let s := ref_run (ref_init b) before in
    nth_error (rf_heap s) p = Some (mkObj kp xs) -> nth_error (rf_heap s) w = Some (mkObj kw ys) ->
    (forall q, In q edits -> In (fst q) (rf_held s)) ->
    let s' := ref_run (ref_step s (RRefit p w co)) (map (fun q => REdit (fst q) (snd q)) edits) in
    coeff_seen s' = Some co /\ matched_seen s' = (Some xs, Some ys).
Proof. exact refit_private_partial_main. Qed.
Print Assumptions refit_private_partial.

(** C145 (part that holds): after adding or removing a pair the matched lists are the
    calibrator's own: they stay, whatever the caller does, until they are set again; and the
    coefficients, known pairs and pixels are as before. *)
Theorem edited_private :
  forall (A : Type) (N : Num A) (b : obj A) (before after : list (ref_op A)) mp ma,
    let s := ref_run (ref_init b) before in
    let s1 := ref_step s (RSetPairs mp ma) in
    coeff_seen s1 = coeff_seen s /\ peaks_seen s1 = peaks_seen s /\
    rf_known s1 = rf_known s /\ rf_pixels s1 = rf_pixels s /\ rf_table s1 = rf_table s /\
    ((forall o, In o after -> match o with RFit _ _ _ | RMatch _ _ _ | RRefit _ _ _ | RSetPairs _ _ => False | _ => True end) ->
     matched_seen (ref_run s1 after) = (Some mp, Some ma)).
Proof. exact edited_private_main. Qed.
Print Assumptions edited_private.

(** C145: a calibrator for the peaks 10 and 20, whose list is then emptied, with known pairs as a list,
    as an integer array, and as a float array. *)
Example sharing_example :
  let nan := fz 0 /' fz 0 in
  let calls k := [REdit 0 (fun _ => []); RMake (mkObj k [fz 1; fz 2]); RMake (mkObj k [fz 5; fz 6]); RKnown 2 3;
                  REdit 2 (fun _ => [nan])] in
  let s k := ref_run (ref_init (mkObj PyList [fz 10; fz 20])) (calls k) in
  nisnan nan = true /\
  peaks_seen (s FloatArray) = [fz 10; fz 20] /\
  known_seen (s PyList) = Some ([fz 1; fz 2], [fz 5; fz 6]) /\
  known_seen (s IntArray) = Some ([fz 1; fz 2], [fz 5; fz 6]) /\
  known_seen (s FloatArray) = Some ([nan], [fz 5; fz 6]) /\
  coeff_seen (ref_run (s PyList) [RFit [fz 7; fz 8] [fz 1] [fz 5]; REdit 6 (fun _ => [fz 0; fz 0])]) = Some [fz 0; fz 0].
Proof. exact sharing_example_main. Qed.

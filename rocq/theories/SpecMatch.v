(** * SpecMatch: specification of the matching and editing that follow a fit. *)

From Coq Require Import ZArith Bool List Permutation.
From Verif Require Import Num Py Np Models Atlas PolyEval Calib MatchPeaks.
Import ListNotations.
Local Open Scope num_scope.

Section Spec.
  Context {A : Type} {N : Num A}.

  (** The coefficients match_peaks starts from: its argument, else the stored ones. *)
  Definition input_coeff (c : calib A) (a : match_args A) (co : list A) : Prop :=
    match ma_coeff a with
    | MNone => c_coeff c = Some co
    | m => mseq_vals m = co
    end.

  (** w is within tol of the value of the curve at p. *)
  Definition within (f : A -> A) (tol p w : A) : bool := nabs (w -' f p) <' tol.

  (** w is the only one of the lines within tol of the curve at p. *)
  Definition only_line (f : A -> A) (tol : A) (lines : list A) (p w : A) : Prop :=
    In w lines /\ within f tol p w = true /\ forall w', In w' lines -> within f tol p w' = true -> w' = w.

  (** w is one of the lines and none is nearer to the curve at p. *)
  Definition nearest (f : A -> A) (lines : list A) (p w : A) : Prop :=
    In w lines /\ forall w', In w' lines -> nabs (w' -' f p) <' nabs (w -' f p) = false.

  (** The coefficients [fit] with [delta] added to the first of them. *)
  Definition shifted (fit delta co : list A) : Prop :=
    (length delta <= length fit)%nat /\
    co = map (fun q => fst q +' snd q) (combine fit delta) ++ skipn (length delta) fit.

  (** The first n of a list as python slices it: l[:n], where a negative n counts from the
      end. *)
  Definition python_prefix (l : list A) (n : Z) (s : list A) : Prop :=
    exists rest, l = s ++ rest /\
      Z.of_nat (length s) = Z.min (Z.of_nat (length l)) (Z.max 0 (if (n <? 0)%Z then Z.of_nat (length l) + n else n)).

  (** The root mean square, where a NaN counts as 0. *)
  Definition root_mean_square (r : list A) : A :=
    nsqrt (np_sum (map (fun s => if nisnan s then nZ 0 else s) (map (fun v => v *' v) r)) /' nnat (length r)).

  (** Two calls of match_peaks that differ only in what concerns the refinement. *)
  Definition same_but_refine (a b : match_args A) : Prop :=
    ma_coeff a = ma_coeff b /\ ma_tol a = ma_tol b /\ ma_robust a = ma_robust b /\ ma_deg a = ma_deg b.

  (** An argument of manual_refit, else the stored value. *)
  Definition given_or (m stored : mseq A) : mseq A := match m with MNone => stored | m => m end.

  (** One call of the editing functions. *)
  Inductive edit_op : Type := EAdd (pix wave : A) | ERemove (arg : Z).
  Definition edit_step (c : calib A) (e : edit_op) : calib A * res unit :=
    match e with
    | EAdd p w => add_pix_wave_pair c p w
    | ERemove k => remove_pix_wave_pair c k
    end.
  Definition edit_run (c : calib A) (h : list edit_op) : calib A :=
    fold_left (fun c e => fst (edit_step c e)) h c.

  (** The matched pairs. *)
  Definition matched_pairs (c : calib A) : list (A * A) :=
    combine (mseq_vals (c_mpeaks c)) (mseq_vals (c_matlas c)).
  Definition aligned (c : calib A) : Prop :=
    c_mpeaks c <> MNone /\ c_matlas c <> MNone /\
    length (mseq_vals (c_mpeaks c)) = length (mseq_vals (c_matlas c)).

  (** The pairs added, and the pairs removed, by the successful calls of a history. *)
  Fixpoint added (c : calib A) (h : list edit_op) : list (A * A) :=
    match h with
    | [] => []
    | e :: r =>
        (match e, snd (edit_step c e) with
         | EAdd p w, Ok _ => [(p, w)]
         | _, _ => []
         end) ++ added (fst (edit_step c e)) r
    end.
  Fixpoint removed (c : calib A) (h : list edit_op) : list (A * A) :=
    match h with
    | [] => []
    | e :: r =>
        (match e, snd (edit_step c e) with
         | ERemove k, Ok _ =>
             match nth_error (matched_pairs c)
                     (Z.to_nat (if (k <? 0)%Z then k + Z.of_nat (length (matched_pairs c)) else k)) with
             | Some q => [q]
             | None => []
             end
         | _, _ => []
         end) ++ removed (fst (edit_step c e)) r
    end.
End Spec.
Arguments edit_op A : clear implicits.

(** * WholeCand: the candidate pruning for whole-number peaks and wavelengths.

    If the peaks and the atlas lines are all integers, np.array(pairs)
    (calibrator.py:131, 134) is an integer array, and so are the candidate wavelengths
    (calibrator.py:185) and aggregated_count (calibrator.py:206). *)

From Coq Require Import ZArith Bool List Lia.
From Verif Require Import Num Py Np Util Atlas Hough PolyEval Calib Cand Whole.
Import ListNotations.
Local Open Scope num_scope.

Section WholeCand.
  Context {A : Type} {N : Num A}.

  (** calibrator.py:207-209: aggregated_count[j] = np.sum(...) for every j; the array
      holds integers, so the decimals are cut off. *)
  Fixpoint cut_all (l : list A) : res (list Z) :=
    match l with
    | [] => Ok []
    | v :: r => bind (cut v) (fun z => bind (cut_all r) (fun zs => Ok (z :: zs)))
    end.

  (** calibrator.py:190-215: the wavelengths returned for one peak; as [common_for], but
      for an integer aggregated_count (integers that a float represents). *)
  Definition common_for_ints (argsort : list A -> list nat) (rows : cand A) (top : nat) (weighted : bool)
      (peak : A) : res (list A) :=
    let sel := filter (fun r => row_x r ==' peak) rows in
    let wm := map row_y sel in
    let counts := if weighted then map row_w sel else map (fun _ => nZ 1) sel in
    let uw := np_unique wm in
    let n := Nat.min top (List.length uw) in
    bind (cut_all (map (fun w => np_sum (mask_select (map (fun v => v ==' w) wm) counts)) uw)) (fun agg =>
    Ok (gather wm (firstn n (argsort (map (fun z => nopp (nZ z)) agg))))).

  (** calibrator.py:190-215: the loop over the peaks. *)
  Fixpoint common_loop (argsort : list A -> list nat) (rows : cand A) (top : nat) (weighted : bool)
      (peaks : list A) : res (list A * list A) :=
    match peaks with
    | [] => Ok ([], [])
    | p :: r =>
        let n := Nat.min top (List.length (np_unique (map row_y (filter (fun q => row_x q ==' p) rows)))) in
        bind (common_for_ints argsort rows top weighted p) (fun ws =>
        bind (common_loop argsort rows top weighted r) (fun out =>
        Ok (repeat p n ++ fst out, ws ++ snd out)))
    end.

  (** calibrator.py:154-217 _get_most_common_candidates for integer peaks and
      wavelengths. *)
  Definition most_common_ints (argsort : list A -> list nat) (cs : list (cand A)) (top : nat)
      (weighted : bool) : res (list A * list A) :=
    let rows := List.concat cs in
    common_loop argsort rows top weighted (np_unique (map row_x rows)).
End WholeCand.

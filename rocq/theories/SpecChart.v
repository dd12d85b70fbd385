(** * SpecChart: specification for plot_search_space and plot_calibration_lines. *)

From Coq Require Import ZArith Bool List String Reals.
From Verif Require Import Num XReal Util.
Import ListNotations.
Local Open Scope num_scope.

(** The intensities of the lines at wavelength g (after rounding), element by element. *)
Definition lines_at {A} {N : Num A} (around : A -> A) (lines : list (line A)) (els : list string) (g : A) : list A :=
  flat_map (fun e => map l_int (filter (fun l => String.eqb (l_el l) e && (g ==' around (l_wl l))) lines)) els.

(** The sum of a list, from the left. *)
Definition total_of {A} {N : Num A} (l : list A) : A := fold_left nadd l (nZ 0).

(** The call of load_calibration_lines that loads every line of the elements in the
    range: no limit on intensity or distance. *)
Definition no_limits {A} {N : Num A} (l : load_args A) : load_args A :=
  mkLoadArgs (la_elements l) (la_min_wl l) (la_max_wl l) (ThNum (nZ 0)) (nZ 0) (la_vacuum l) (la_pressure l)
    (la_temperature l) (la_rh l) (la_linelist l) (la_brightest_n l).

(** * SpecRegion: the straight lines a search can try. *)

From Coq Require Import ZArith Bool List Reals.
From Verif Require Import XReal SpecHough.
Import ListNotations.
Local Open Scope R_scope.

(** The lines through a (peak, wavelength) pair with one of the n slopes tried between
    lo_s and hi_s, whose intercept lies between lo_i and hi_i. *)
Definition admitted (lo_s hi_s lo_i hi_i : R) (n : nat) (pairs : list (R * R)) (line : R * R) : Prop :=
  exists k p w, (k < n)%nat /\ In (p, w) pairs /\ fst line = slope_at lo_s hi_s n k /\
    w = fst line * p + snd line /\ lo_i <= snd line <= hi_i.

(** What one axis (slope or intercept) of the search can give when exactly the values
    satisfying [vote] were admitted: nothing outside the limits if two of them differ;
    up to 1/2 beside a single one; anything from 0 to 1 if there are none. *)
Definition reach (lo hi : R) (vote : R -> Prop) (v : R) : Prop :=
  ((exists a b, vote a /\ vote b /\ a <> b) /\ lo <= v <= hi) \/
  (exists a, vote a /\ (forall b, vote b -> b = a) /\ a - 1 / 2 <= v <= a + 1 / 2) \/
  ((forall a, ~ vote a) /\ 0 <= v <= 1).

(** (p, w) is within tol of a line that the search can try. *)
Definition compatible (lo_s hi_s lo_i hi_i : R) (n : nat) (pairs : list (R * R)) (tol p w : R) : Prop :=
  exists m i,
    reach lo_s hi_s (fun s => exists l, admitted lo_s hi_s lo_i hi_i n pairs l /\ fst l = s) m /\
    reach lo_i hi_i (fun s => exists l, admitted lo_s hi_s lo_i hi_i n pairs l /\ snd l = s) i /\
    Rabs (m * p + i - w) <= tol.

(** * Props_Humid: property theorems only.  The proofs are in Main_Humid.v. *)

From Coq Require Import ZArith List Reals Lra Lia.
From Verif Require Import Num XReal Py Np Util EdlenFacts HumidFacts.
From Verif Require Import Main_Humid.
Import ListNotations.
Local Open Scope R_scope.

(** C127: at any humidity vacuum_to_air strictly shortens and air_to_vacuum
    strictly lengthens a wavelength. *)
Theorem humid_air_shorter :
  forall w t p rh : R, 2000 < w -> 0 <= t <= 60 -> 1000 <= p -> 0 <= rh <= 100 ->
    (exists a, vacuum_to_air [Fin w] (Fin (t + 273.15)) (Fin p) (Fin rh) = [Fin a] /\ 0 < a < w) /\
    (exists v, air_to_vacuum [Fin w] (Fin (t + 273.15)) (Fin p) (Fin rh) = [Fin v] /\ w < v).
Proof. exact humid_air_shorter_main. Qed.
Print Assumptions humid_air_shorter.

(** C127: both conversions preserve the strict order of wavelengths. *)
Theorem humid_order :
  forall w1 w2 t p rh : R, 2000 < w1 -> w1 < w2 -> 0 <= t <= 60 -> 1000 <= p -> 0 <= rh <= 100 ->
    (exists a1 a2, vacuum_to_air [Fin w1; Fin w2] (Fin (t + 273.15)) (Fin p) (Fin rh) = [Fin a1; Fin a2]
                   /\ a1 < a2) /\
    (p <= 120000 ->
     exists v1 v2, air_to_vacuum [Fin w1; Fin w2] (Fin (t + 273.15)) (Fin p) (Fin rh) = [Fin v1; Fin v2]
                   /\ v1 < v2).
Proof. exact humid_order_main. Qed.
Print Assumptions humid_order.

(** C127: air to vacuum and back lengthens a wavelength by less than one part in
    10^7. *)
Theorem humid_round_trip :
  forall w t p rh : R, 2000 < w -> 0 <= t <= 60 -> 1000 <= p <= 120000 -> 0 <= rh <= 100 ->
    exists v a, air_to_vacuum [Fin w] (Fin (t + 273.15)) (Fin p) (Fin rh) = [Fin v] /\
      vacuum_to_air [Fin v] (Fin (t + 273.15)) (Fin p) (Fin rh) = [Fin a] /\
      0 < a - w < w * 0.0000001.
Proof. exact humid_round_trip_main. Qed.
Print Assumptions humid_round_trip.

(** C127: the more humid the air, the smaller the shift of both conversions. *)
Theorem humidity_shrinks_shift :
  forall w t p rh1 rh2 : R, 2000 < w -> 0 <= t <= 60 -> 1000 <= p -> 0 <= rh1 -> rh1 < rh2 -> rh2 <= 100 ->
    exists a1 a2 v1 v2,
      vacuum_to_air [Fin w] (Fin (t + 273.15)) (Fin p) (Fin rh1) = [Fin a1] /\
      vacuum_to_air [Fin w] (Fin (t + 273.15)) (Fin p) (Fin rh2) = [Fin a2] /\
      air_to_vacuum [Fin w] (Fin (t + 273.15)) (Fin p) (Fin rh1) = [Fin v1] /\
      air_to_vacuum [Fin w] (Fin (t + 273.15)) (Fin p) (Fin rh2) = [Fin v2] /\
      a1 < a2 < w /\ w < v2 < v1.
Proof. exact humidity_shrinks_shift_main. Qed.
Print Assumptions humidity_shrinks_shift.

Example humid_example :
  2000 < 5000 /\ 5000 < 5001 /\ 0 <= 10 <= 60 /\ 1000 <= 101325 <= 120000 /\ 0 <= 30 /\ 30 < 80 /\ 80 <= 100.
Proof. exact humid_example_main. Qed.

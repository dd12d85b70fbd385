(** * SpecPlot: specification for the plotting functions. *)

From Coq Require Import ZArith Bool List String Reals.
From Verif Require Import Num XReal Plot.
Import ListNotations.

(** t is one of the parts of f between plus signs. *)
Definition no_plus (t : string) : Prop := forall a b, t <> (a ++ "+" ++ b)%string.
Definition part_of (f t : string) : Prop :=
  exists pre post, f = (pre ++ t ++ post)%string /\ no_plus t /\
    (pre = EmptyString \/ exists q, pre = (q ++ "+")%string) /\
    (post = EmptyString \/ exists q, post = ("+" ++ q)%string).

(** The formats a library can write. *)
Definition format_of (lib : library) (t : string) : Prop :=
  In t ["jpg"; "png"; "svg"; "pdf"]%string \/ (lib = Plotly /\ t = "iframe"%string).

(** (p, w) is a convex combination of the given points. *)
Fixpoint combination (pts : list (R * R)) (ws : list R) : R * R :=
  match pts, ws with
  | (x, y) :: r, a :: s => let (u, v) := combination r s in ((a * x + u)%R, (a * y + v)%R)
  | _, _ => (0%R, 0%R)
  end.
Definition in_hull (pts : list (R * R)) (q : R * R) : Prop :=
  exists ws, List.length ws = List.length pts /\ Forall (fun a => (0 <= a)%R) ws /\
    fold_right Rplus 0%R ws = 1%R /\ combination pts ws = q.

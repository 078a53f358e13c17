(** What a correct piecewise-linear interpolant is, without reference to the
    algorithm. *)
From Verif Require Import Py Model_Interp.

(** Axis values are pairwise different (as on a strictly monotone axis). *)
Definition distinct_axis (samples : list sample) : Prop :=
  ForallOrdPairs (fun s t => ~ fst s == fst t) samples.

(** [(xs, y)] is a sample with a value. *)
Definition known (samples : list sample) (xs y : Q) : Prop := In (xs, Some y) samples.

(** [(x0, y0)] is the closest known sample at or before [x], [(x1, y1)] the
    closest known sample after [x]. *)
Definition left_neighbour samples x x0 y0 : Prop :=
  known samples x0 y0 /\ x0 <= x /\ forall xs y, known samples xs y -> xs <= x -> xs <= x0.
Definition right_neighbour samples x x1 y1 : Prop :=
  known samples x1 y1 /\ x < x1 /\ forall xs y, known samples xs y -> x < xs -> x1 <= xs.

Inductive interpolant (samples : list sample) (x : Q) : num -> Prop :=
| I_before : (forall xs y, known samples xs y -> x < xs) -> interpolant samples x None
| I_between x0 y0 x1 y1 v :
    left_neighbour samples x x0 y0 -> right_neighbour samples x x1 y1 ->
    v == y0 + (y1 - y0) * (x - x0) / (x1 - x0) -> interpolant samples x (Some v)
| I_after x0 y0 v :
    left_neighbour samples x x0 y0 -> (forall xs y, known samples xs y -> xs <= x) ->
    v == y0 -> interpolant samples x (Some v).

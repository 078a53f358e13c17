(** Vocabulary of the properties of the diagnostic cycles: the steps of a cycle, the equally spaced
    points of an axis, the samples of a step. *)
From Verif Require Import Py Num Model_Raw Model_Interp Model_DiagData.

(** The records of a cycle, cut wherever the step index changes. *)
Definition cut_into_steps (rows : list row) (parts : list (list row)) : Prop :=
  rows = concat parts /\
  (forall p, In p parts -> p <> [] /\ forall r r', In r p -> In r' p -> step_index r = step_index r') /\
  (forall l p q l', parts = l ++ p :: q :: l' -> forall r r', In r p -> In r' q -> step_index r <> step_index r').

(** Selects the rows of the result for one cycle and one step of it, counted from 1. *)
Definition of_step (c k : Z) (r : krow) : bool := Z.eqb (k_cycle r) c && Z.eqb (k_counter r) k.

(** The axis values of the rows are the [n] equally spaced points from [a] to [b]. *)
Definition equally_spaced (a b : Q) (n : nat) (rows : list krow) : Prop :=
  length rows = n /\
  forall i r, nth_error rows i = Some r -> k_x r == a + inject_Z (Z.of_nat i) * (b - a) / inject_Z (Z.of_nat (n - 1)).

(** What a step measured: axis value and value of a column. *)
Definition measured (axis col : row -> num) (step : list row) (samples : list sample) : Prop :=
  Forall2 (fun r s => axis r = Some (fst s) /\ col r = snd s) step samples.

(** Number of different step indices in the cycle before the step index [s] first occurs. *)
Definition position_of_step (rows : list row) (s n : Z) : Prop :=
  exists pre r post, rows = pre ++ r :: post /\ step_index r = s /\ (forall r', In r' pre -> step_index r' <> s) /\
  n = Z.of_nat (length (nodup Z.eq_dec (map step_index pre))).

(** [q] is the difference quotient of two values over two voltages. *)
Definition quotient (y0 y1 v0 v1 q : num) : Prop :=
  match y0, y1, v0, v1 with
  | Some y0, Some y1, Some v0, Some v1 => ~ v0 == v1 -> exists x, q = Some x /\ x == (y1 - y0) / (v1 - v0)
  | _, _, _, _ => q = None
  end.

(** Cycle, then step, then time (missing times last). *)
Definition not_after (a b : krow) : Prop :=
  (k_cycle a < k_cycle b)%Z \/
  k_cycle a = k_cycle b /\ ((k_counter a < k_counter b)%Z \/
    k_counter a = k_counter b /\ match k_time a, k_time b with Some s, Some t => s <= t | None, Some _ => False | _, None => True end).

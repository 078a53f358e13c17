(** What is promised about degradation: throughput, the curve through diagnostics, and criteria. *)
From Coq Require Import Sorting.Sorted.
From Verif Require Import Py Num Model_Raw Model_Structure Model_Summary Model_Features Model_Degrade.

(** The sum of a quantity over some rows, where it is known. *)
Definition passed {A} (q : A -> num) (l : list A) : Q := qsum (dropna (map q l)).
(** A regular cycle is one of the summary that is neither cycle 0 nor a diagnostic. *)
Definition is_regular (diag : list drow) (summary : list srow) (r : srow) : Prop :=
  In r summary /\ s_cycle r <> 0%Z /\ (forall d, In d diag -> d_cycle d <> s_cycle r).
(** Cycles without a gap in their numbers. *)
Fixpoint no_gap (l : list Z) : Prop :=
  match l with a :: (b :: _) as t => (b <= a + 1)%Z /\ no_gap t | _ => True end.
Definition ascending (l : list Z) : Prop := StronglySorted Z.lt l.
Definition not_negative (x : num) : Prop := match x with Some v => 0 <= v | None => True end.

(** The broken line through points. *)
Inductive on_curve : list (Q * Q) -> Q -> Q -> Prop :=
| at_point p r x y : x == fst p -> y == snd p -> on_curve (p :: r) x y
| on_segment p q r x y : fst p <= x -> x <= fst q -> (y - snd p) * (fst q - fst p) == (snd q - snd p) * (x - fst p) -> on_curve (p :: q :: r) x y
| later p r x y : on_curve r x y -> on_curve (p :: r) x y.
(** No segment is steeper than [L]. *)
Fixpoint no_steeper (L : Q) (l : list (Q * Q)) : Prop :=
  match l with p :: (q :: _) as t => fst p < fst q /\ Qabs (snd q - snd p) <= L * (fst q - fst p) /\ no_steeper L t | _ => True end.

(** The last known value. *)
Definition final_value (l : list num) : num := last_valid l.
(** The cycle reaches constant voltage before the given fraction of its time. *)
Definition early_cv (cutoff : Q) (data : list (string * row)) (c : Z) : Prop :=
  let rows := filter (fun p => Z.eqb (cycle_index (snd p)) c) data in
  exists cv r0 t a b, cv_default (map snd (filter (fun p => String.eqb (fst p) "charge") rows)) = Ok (r0 :: cv) /\ test_time r0 = Some t /\
    col_min (map (fun p => test_time (snd p)) rows) = Some a /\ col_max (map (fun p => test_time (snd p)) rows) = Some b /\
    (t - a) / (b - a) < cutoff.

(** Vocabulary for cycle life and capacity thresholds. *)
From Coq Require Import Permutation Sorted.
From Verif Require Import Py Num.

(** [m] is the reference capacity of a summary (label, discharge capacity): the
    median of the first 40 values, or 1.1 for at most 40 rows. *)
Definition reference (summary : list (Z * num)) (m : Q) : Prop :=
  ((length summary <= 40)%nat /\ m == 11 # 10) \/
  ((40 < length summary)%nat /\
   exists xs a b, Permutation (map Some xs) (firstn 40 (map snd summary)) /\ StronglySorted Qle xs /\
     nth_error xs 19 = Some a /\ nth_error xs 20 = Some b /\ m == (a + b) / 2).

(** Capacity below a level; NaN is not below. *)
Definition below (level : Q) (c : num) : Prop := match c with Some q => q < level | None => False end.

(** [label] belongs to the first row whose capacity is below [level]. *)
Definition first_below (summary : list (Z * num)) (level : Q) (label : Z) : Prop :=
  exists pre c post, summary = pre ++ (label, c) :: post /\ below level c /\
    Forall (fun r => ~ below level (snd r)) pre.

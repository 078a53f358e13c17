(** What the names and documentation of the cycle statistics and fast charge features promise. *)
From Verif Require Import Py Num Model_Summary Model_Features Model_Stats.

(** The values of a quantity over the steps of one kind of one cycle. *)
Definition points (c : Z) (kind : string) (f : irow -> num) (data : list irow) : list num :=
  map f (filter (fun r => Z.eqb (r_cycle r) c && String.eqb (r_step r) kind) data).
(** The change from [b] to [a] wherever both are known. *)
Definition change (a b : list num) : list Q :=
  flat_map (fun p => match p with (Some x, Some y) => [x - y] | _ => [] end) (combine a b).
(** Charging quantities are measured in charge steps, discharging ones in discharge steps. *)
Definition meaning : list (string * (string * (irow -> num))) :=
  [("charging_capacity", ("charge", r_qc)); ("discharging_capacity", ("discharge", r_qd));
   ("charging_energy", ("charge", r_ec)); ("discharging_energy", ("discharge", r_ed))]%string.
Definition average (l : list Q) : Q := qsum l / inject_Z (Z.of_nat (length l)).

Section Spec.
  Variables (log10 : Q -> cell) (skew kurtosis kurtosis_fisher : list num -> num).
  Definition log_of (x : num) : cell := match x with Some x => log10 (Qabs x) | None => NaN end.
  (** docstring of get_summary_statistics, 205-222 *)
  Definition is_statistic (s : string) (l : list Q) (c : cell) : Prop :=
    (s = "var"%string -> l <> [] -> c = log10 (Qabs (average (map (fun x => (x - average l) * (x - average l)) l)))) /\
    (s = "min"%string -> exists m, In m l /\ (forall x, In x l -> m <= x) /\ c = log10 (Qabs m)) /\
    (s = "mean"%string -> l <> [] -> c = log10 (Qabs (average l))) /\
    (s = "skew"%string -> c = log_of (skew (map Some l))) /\
    (s = "kurtosis"%string -> c = log_of (kurtosis (map Some l))) /\
    (s = "abs"%string -> c = log10 (qsum (map Qabs l))) /\
    (s = "square"%string -> c = log10 (qsum (map (fun x => x * x) l))).

  Variable polyfit : list (nat * num) -> result (cell * cell).
  (** Cycles numbered from 1 in the order of the summary. *)
  Definition cycle_no {A} (f : urow -> option A) (summary : list urow) (k : nat) : option A :=
    match nth_error summary (k - 1) with Some r => f r | None => None end.
  Definition cycles {A} (f : urow -> option A) (summary : list urow) (a b : nat) : list (option A) :=
    map (cycle_no f summary) (seq a (b + 1 - a)).
  (** the largest of the known values, [None] if none is *)
  Definition is_largest (l : list num) (v : num) : Prop :=
    match v with Some m => In (Some m) l /\ (forall x, In (Some x) l -> x <= m) | None => forall x, ~ In (Some x) l end.
  Definition is_smallest (l : list num) (v : num) : Prop :=
    match v with Some m => In (Some m) l /\ (forall x, In (Some x) l -> m <= x) | None => forall x, ~ In (Some x) l end.
End Spec.

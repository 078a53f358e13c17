(** What the documentation of the first version of the half-cell fit promises, without reference to how it is computed. *)
From Verif Require Import Py Num Model_Text Model_Diagnostic Model_Degrade Model_Intracell Spec_Intracell.

(** ** The fresh cell *)
(** the cycle of the first diagnostic of a type *)
Definition first_diagnostic (type : string) (summary : list drow) (c : Z) : Prop :=
  exists before d after, summary = before ++ d :: after /\ d_type d = type /\ d_cycle d = c /\ forall d', In d' before -> d_type d' <> type.
(** the charge of a cycle between the voltage limits, as points of capacity and voltage *)
Definition measured (data : list irec) (type : string) (cycle : Z) (p : Q * num) : Prop :=
  exists r v, In r data /\ i_type r = type /\ i_cycle r = cycle /\ i_step r = 0%Z /\
    i_qc r = Some (fst p) /\ i_voltage r = Some v /\ 27 # 10 < v /\ v < 42 # 10 /\ snd p = Some v.
(** every such record has a capacity *)
Definition capacities_known (data : list irec) (type : string) (cycle : Z) : Prop :=
  forall r v, In r data -> i_type r = type -> i_cycle r = cycle -> i_step r = 0%Z -> i_voltage r = Some v -> 27 # 10 < v -> v < 42 # 10 -> i_qc r <> None.
(** the capacity at a state of charge in percent, if 0 is [lo] and 100 is [hi] *)
Definition capacity_at (lo hi s : Q) : Q := lo + s / 100 * (hi - lo).
Definition capacity_limits (data : list irec) (type : string) (cycle : Z) (lo hi : Q) : Prop :=
  least (fun q => exists v, measured data type cycle (q, v)) lo /\ greatest (fun q => exists v, measured data type cycle (q, v)) hi /\ lo < hi.

(** ** Cells made of two electrodes *)
(** the place of the cell whose voltage is closest to [v] *)
Definition closest_place (pe ne : curve) (v : Q) (i : nat) (q : Q) : Prop :=
  exists a b, electrodes_at pe ne i q a b /\ forall j q' a' b', electrodes_at pe ne j q' a' b' -> Qabs (a - b - v) <= Qabs (a' - b' - v).
(** the place of the cell with the least voltage, at the SOC [q] of the negative electrode *)
Definition lowest_place (pe ne : curve) (q : Q) : Prop :=
  exists i q0 a b, electrodes_at pe ne i q0 a b /\ nth_error ne i = Some (q, Some b) /\
    forall j q' a' b', electrodes_at pe ne j q' a' b' -> a - b <= a' - b'.
(** the SOC at which the cell has a voltage *)
Definition cell_has_voltage (pe ne : curve) (q : Q) : Prop := exists i a b, electrodes_at pe ne i q a b.
(** the places of two profiles that both have a voltage *)
Definition both_at (r e : curve) (i : nat) (a b : Q) : Prop := exists s s', nth_error r i = Some (s, Some a) /\ nth_error e i = Some (s', Some b).
(** the number of points of a profile without a voltage *)
Definition unknown (l : curve) (n : nat) : Prop := n = length (filter (fun p => match snd p with None => true | Some _ => false end) l).
(** the sum of the squares of the differences of the voltages, where the second profile has one *)
Fixpoint squares (r e : curve) : Q :=
  match r, e with
  | (_, Some a) :: r', (_, Some b) :: e' => (a - b) * (a - b) + squares r' e'
  | _ :: r', _ :: e' => squares r' e'
  | _, _ => 0
  end.
(** the points of the cell, whatever its voltage *)
Definition cell_any (pe ne : curve) (p : Q * num) : Prop := exists i a b, electrodes_at pe ne i (fst p) a b /\ snd p = Some (a - b).
(** no two places of a curve have the same SOC *)
Definition distinct_socs (l : curve) : Prop := forall i j p q, nth_error l i = Some p -> nth_error l j = Some q -> fst p == fst q -> i = j.
(** an electrode has each voltage at one place only *)
Definition strictly (l : curve) : Prop := forall p q v w, In (p, Some v) l -> In (q, Some w) l -> v == w -> p == q.
(** the SOC within an electrode, in percent of its own range *)
Definition own_soc (l : curve) (s x : Q) : Prop := exists lo hi, least (has_voltage l) lo /\ greatest (has_voltage l) hi /\ x == 100 * (s - lo) / (hi - lo).
(** the range of SOC over which a curve has a voltage *)
Definition range_of (P : Q -> Prop) (w : Q) : Prop := exists lo hi, least P lo /\ greatest P hi /\ w == hi - lo.

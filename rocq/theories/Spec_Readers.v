(** What the smaller readers and the splicing tool are expected to compute. *)
From Verif Require Import Py Num Model_Readers.

(** Line [i] is the nearest line of kind [k] before line [j]. *)
Definition nearest_before (lines : list string) (k : nw_kind) (i j : nat) : Prop :=
  (i < j)%nat /\ (exists l, nth_error lines i = Some l /\ nw_kind_of l = k) /\
  forall m l, (i < m < j)%nat -> nth_error lines m = Some l -> nw_kind_of l <> k.
(** The record line [j] is written as [fields]: cycle id, step id and resistance
    are those of the nearest cycle and step lines before it, the rest is its own. *)
Definition record_of (ir_index : nat) (lines : list string) (j : nat) (fields : list string) : Prop :=
  exists line c lc s ls,
    nth_error lines j = Some line /\ nw_kind_of line = RecordLine /\
    nearest_before lines CycleLine c j /\ nth_error lines c = Some lc /\
    nearest_before lines StepLine s j /\ nth_error lines s = Some ls /\
    length fields = length (str_split comma line) /\
    forall k, nth_error fields k =
      if Nat.eqb k 0 then nth_error (str_split comma lc) 0
      else if Nat.eqb k 1 then nth_error (str_split comma ls) 1
      else if Nat.eqb k 22 then nth_error (str_split comma ls) ir_index
      else nth_error (str_split comma line) k.
(** The positions of the record lines, in order. *)
Definition record_positions (lines : list string) : list nat :=
  filter (fun j => match nth_error lines j with
                   | Some l => match nw_kind_of l with RecordLine => true | _ => false end
                   | None => false end) (seq 0 (length lines)).

(** Row [b] is the first row of the maximal run of equal labels containing row [i]. *)
Definition run_start (labels : list Z) (b i : nat) : Prop :=
  (b <= i)%nat /\ (forall j, (b <= j <= i)%nat -> nth_error labels j = nth_error labels i) /\
  (b = 0%nat \/ nth_error labels (b - 1) <> nth_error labels b).

(** The largest charge value of a cycle, or the largest value if it has no charge row. *)
Definition cycle_reference (q : nvrow -> Q) (rows : list nvrow) (c : Z) (m : Q) : Prop :=
  let in_cycle r := In r rows /\ nv_cycle r = c in
  let counts r := in_cycle r /\ (nv_is_charge (nv_step r) = true \/ forall r', in_cycle r' -> nv_is_charge (nv_step r') = false) in
  (exists r, counts r /\ q r == m) /\ forall r, counts r -> q r <= m.

(** What it means to find the parameters of a run, to recognise its diagnostics and to annotate the
    steps of a diagnostic cycle. *)
From Coq Require Import Qabs.
From Verif Require Import Py Num Model_Text Model_Diagnostic Model_Summary Model_Features Model_Lookup Proofs_Strings.

(** ** Names of files *)
(** [p] can be the name of a project and [n] the text of a number: no separators inside *)
Definition plain (s : string) : Prop := s <> ""%string /\ char_free "_" s /\ char_free "." s /\ char_free "/" s.
Definition ending (tail : string) : Prop :=
  char_free "/" tail /\ (tail = ""%string \/ exists t, tail = String "_" t \/ tail = String "." t).
(** The path of a file <project>_<number>, with anything after it, in any directory *)
Definition run_file (p n path : string) : Prop :=
  exists tail, ending tail /\ let name := (p ++ "_" ++ n ++ tail)%string in
    path = name \/ exists dir, path = (dir ++ "/" ++ name)%string.
(** The protocol a run records: such a path, or one with backslashes *)
Definition run_protocol (p n protocol : string) : Prop :=
  char_free "\" protocol /\ run_file p n protocol \/
  exists dir name, protocol = (dir ++ "\" ++ name)%string /\ char_free "\" name /\ run_file p n name.
Definition begins (p f : string) : Prop := exists rest, f = (p ++ rest)%string.
(** [t] is the content of the one file whose name begins with the project *)
Definition only_file (dir : directory) (p : string) (t : ptable) : Prop :=
  exists a f b, dir = a ++ (f, Some t) :: b /\ begins p f /\ Forall (fun e => ~ begins p (fst e)) (a ++ b).

(** ** Values of a table *)
Definition well_formed (t : ptable) : Prop :=
  NoDup (p_columns t) /\ ~ In "seq_num"%string (p_columns t) /\ Forall (fun r => length (p_cells r) = length (p_columns t)) (p_rows t).
Definition column (t : ptable) (c : string) : Prop := c = "seq_num"%string \/ In c (p_columns t).
Definition holds (t : ptable) (c : string) (r : prow) (v : cell) : Prop :=
  c = "seq_num"%string /\ v = Number (inject_Z (p_seq r)) \/
  exists i, nth_error (p_columns t) i = Some c /\ nth_error (p_cells r) i = Some v.
(** the least and the greatest number of a column over all rows of the project *)
Definition lowest (t : ptable) (c : string) (x : num) : Prop :=
  match x with
  | Some x => (exists r, In r (p_rows t) /\ holds t c r (Number x)) /\ forall r y, In r (p_rows t) -> holds t c r (Number y) -> x <= y
  | None => forall r y, In r (p_rows t) -> ~ holds t c r (Number y)
  end.
Definition highest (t : ptable) (c : string) (x : num) : Prop :=
  match x with
  | Some x => (exists r, In r (p_rows t) /\ holds t c r (Number x)) /\ forall r y, In r (p_rows t) -> holds t c r (Number y) -> y <= x
  | None => forall r y, In r (p_rows t) -> ~ holds t c r (Number y)
  end.

(** ** Diagnostics of a run *)
Definition recorded (raw : list rawrow) (c s : Z) : Prop := In {| w_cycle := c; w_step := s |} raw.
Definition same_steps (raw : list rawrow) (c d : Z) : Prop := forall s, recorded raw c s <-> recorded raw d s.
Definition step_count (raw : list rawrow) (c : Z) (n : nat) : Prop :=
  exists l, NoDup l /\ (forall s, In s l <-> recorded raw c s) /\ length l = n.
Definition same_counts (raw : list rawrow) (c d : Z) : Prop :=
  forall k, (0 <= k < 5)%Z -> exists n, step_count raw (c + k) n /\ step_count raw (d + k) n.
(** none of the run's cycles comes more than six cycles after [c] *)
Definition near_the_end (raw : list rawrow) (c : Z) : Prop := forall d s, recorded raw d s -> (d <= c + 6)%Z.
(** a diagnostic starts at [c]: it has the steps of the reset cycle of the first or of the second
    diagnostic, or it is one of the last cycles and the five from it have as many steps each *)
Definition diagnostic_start (raw : list rawrow) (start c : Z) : Prop :=
  (exists s, recorded raw c s) /\
  (same_steps raw c 1 \/ same_steps raw c (start + 6) \/
   near_the_end raw c /\ (same_counts raw c 1 \/ same_counts raw c (start + 6))).

(** ** Annotation of steps *)
Definition complete (cycle : list hrow) : Prop := Forall (fun r => h_current r <> None /\ h_time r <> None) cycle.
Definition rows_of (cycle : list hrow) (s : Z) : list hrow := filter (fun r => Z.eqb (h_step r) s) cycle.
(** the steps in the order in which they first appear *)
Definition steps_in (cycle : list hrow) : list Z := uniq (map h_step cycle).
Definition currents (l : list hrow) : list Q := dropna (map h_current l).
Definition times (l : list hrow) : list Q := dropna (map h_time l).
(** rates are in multiples of the nominal capacity [n], to two decimals *)
Definition median_rate (n : Q) (l : list hrow) (x : Q) : Prop := exists m, median (map Some (currents l)) = Some m /\ x = around2 (m / n).
Definition mean_rate (n : Q) (l : list hrow) (x : Q) : Prop := x = around2 (qsum (currents l) / inject_Z (Z.of_nat (length (currents l))) / n).
Definition greatest (l : list Q) (x : Q) : Prop := In x l /\ forall y, In y l -> y <= x.
Definition least (l : list Q) (x : Q) : Prop := In x l /\ forall y, In y l -> x <= y.
(** how long the step takes each time it is run, and the median of these to whole seconds *)
Definition takes (l : list hrow) (k : Z) (d : Q) : Prop :=
  let ts := times (filter (fun r => Z.eqb (h_counter r) k) l) in exists a b, greatest ts a /\ least ts b /\ d = a - b.
Definition lasts (l : list hrow) (d : Q) : Prop :=
  exists ds m, Forall2 (takes l) (uniq (map h_counter l)) ds /\ median (map Some ds) = Some m /\ d = inject_Z (round_half_even m).
(** run once, until the end of the cycle *)
Definition single (l : list hrow) : Prop := forall r r', In r l -> In r' l -> h_counter r = h_counter r'.
Definition to_the_end (cycle l : list hrow) : Prop := forall t, greatest (times l) t -> forall t', In t' (times cycle) -> t' <= t.

Definition pulse (x d : Q) : Prop := 1 # 2 <= Qabs x /\ d < 120.
Definition final (cycle l : list hrow) : Prop := to_the_end cycle l /\ single l.
(** what each annotation of an hppc cycle says of a step with median rate [x], mean rate [y] and duration [d] *)
Definition hppc_kind (cycle l : list hrow) (x y d : Q) (label : string) : Prop :=
  (label = "hppc_long_rest"%string /\ x == 0 /\ 600 < d) \/
  (label = "hppc_short_rest"%string /\ x == 0 /\ 0 < d <= 600) \/
  (label = "hppc_discharge_pulse"%string /\ x < 0 /\ pulse x d) \/
  (label = "hppc_charge_pulse"%string /\ 0 < x /\ pulse x d) \/
  (label = "hppc_final_discharge"%string /\ x < 0 /\ ~ pulse x d /\ final cycle l) \/
  (label = "hppc_discharge_to_next_soc"%string /\ x < 0 /\ ~ pulse x d /\ ~ final cycle l /\ x == y /\ 5 # 100 < Qabs (x * d / 3600)) \/
  (label = "hppc_charge_to_soc"%string /\ 0 < x /\ 120 < d).
Definition hppc_annotation (n : Q) (cycle : list hrow) (s : Z) (label : string) : Prop :=
  exists x y d, median_rate n (rows_of cycle s) x /\ mean_rate n (rows_of cycle s) y /\ lasts (rows_of cycle s) d /\
                hppc_kind cycle (rows_of cycle s) x y d label.
Definition rpt_annotation (n : Q) (type : string) (cycle : list hrow) (s : Z) (label : string) : Prop :=
  exists x, median_rate n (rows_of cycle s) x /\
            (0 < x /\ label = (type ++ "_charge")%string \/ x < 0 /\ label = (type ++ "_discharge")%string).
(** the cycle of a type at a position, negative positions counting from the last *)
Definition cycle_at (data : list hrow) (type : string) (pos : Z) (cycle : list hrow) : Prop :=
  let cycles := filter (fun r => String.eqb (h_type r) type) data in
  exists c, py_nth (uniq (map h_cycle cycles)) pos = Some c /\ cycle = filter (fun r => Z.eqb (h_cycle r) c) cycles.

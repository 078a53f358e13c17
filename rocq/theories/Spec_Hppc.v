(** What the names and documentation of the features of diagnostic cycles promise. *)
From Coq Require Import Sorting.Permutation Sorting.Sorted.
From Verif Require Import Py Num Model_Text Model_Diagnostic Model_Summary Model_Features Model_Stats Model_Degrade Model_Lookup Spec_Stats Model_Hppc.

(** ** The records that are left *)
(** of the "final" diagnostic: a low cycle number at a late time *)
Definition late (t0 : Q) (c0 : Z) (r : drec) : Prop := (q_cycle r < c0)%Z /\ exists t, q_time r = Some t /\ t0 < t.
Definition same_run_of_step (a b : drec) : Prop := q_cycle a = q_cycle b /\ q_step a = q_step b /\ q_counter a = q_counter b.
Definition kept (t0 : Q) (c0 : Z) (data : list drec) (r : drec) : Prop :=
  ~ late t0 c0 r /\ exists s, In s data /\ ~ late t0 c0 s /\ same_run_of_step r s /\ q_time s <> None.
(** the same records without those that are not [kept], in the same order *)
Definition what_is_kept (t0 : Q) (c0 : Z) (data data' : list drec) : Prop :=
  exists keep, data' = filter keep data /\ forall r, In r data -> (keep r = true <-> kept t0 c0 data r).

(** ** The change between two diagnostics *)
(** The cycle of a type at a position, negative positions counting from the last. *)
Definition occurrence (data : list drec) (type : string) (pos : Z) (c : Z) : Prop :=
  py_nth (uniq (map q_cycle (filter (fun r => String.eqb (q_type r) type) data))) pos = Some c.
Definition values_in (data : list drec) (c s : Z) (f : drec -> num) : list num :=
  map f (filter (fun r => Z.eqb (q_cycle r) c && Z.eqb (q_step r) s) data).
(** Charging quantities are measured in the charge step, discharging ones in the discharge step. *)
Definition diag_meaning : list (string * (string * (drec -> num))) :=
  [("charging_capacity", ("_charge", q_qc)); ("discharging_capacity", ("_discharge", q_qd));
   ("charging_energy", ("_charge", q_ec)); ("discharging_energy", ("_discharge", q_ed));
   ("charging_dQdV", ("_charge", q_dqc)); ("discharging_dQdV", ("_discharge", q_dqd))]%string.
Definition summary_meaning : list (string * (drow -> num)) :=
  [("discharge_capacity", d_dis); ("discharge_energy", d_dis_en); ("charge_capacity", d_chg); ("charge_energy", d_chg_en)]%string.
Definition rpt_types : list string := ["rpt_0.2C"; "rpt_1C"; "rpt_2C"]%string.
Definition diff_name (p0 p1 : Z) (type metric : string) : string :=
  ("diag_sum_diff_" ++ str_int p0 ++ "_" ++ str_int p1 ++ "_" ++ type ++ metric)%string.
(** the diagnostic of a type at a position of the summary *)
Definition diagnostic_at (summary : list drow) (type : string) (pos : Z) (d : drow) : Prop :=
  py_nth (filter (fun d => String.eqb (d_type d) type) summary) pos = Some d.
(** the change from [a] to [b] relative to [a]; missing if one is or if [a] is zero *)
Definition relative_change (a b v : num) : Prop :=
  match a, b with
  | Some a, Some b => (a == 0 -> v = None) /\ (~ a == 0 -> exists q, v = Some q /\ q == (b - a) / a)
  | _, _ => v = None
  end.

(** ** Resistances *)
Definition before (a b : drec) : Prop := exists s t, q_time a = Some s /\ q_time b = Some t /\ s < t.
(** the records in the order of their times *)
Definition chronological (l l' : list drec) : Prop := Permutation l l' /\ StronglySorted before l'.
Definition latest (l : list drec) (r : drec) : Prop := In r l /\ forall s, In s l -> s = r \/ before s r.
Definition known (x : num) : Prop := x <> None.
(** every record has a time, a voltage and a current and no two the same time *)
Definition measured_well (l : list drec) : Prop :=
  Forall (fun r => known (q_time r) /\ known (q_voltage r) /\ known (q_current r)) l /\ (exists l', chronological l l').
(** the mean current over the last five records *)
Definition last_five (l five : list drec) : Prop :=
  exists l' earlier, chronological l l' /\ l' = earlier ++ five /\ (length five <= 5)%nat /\ (length five = 5%nat \/ earlier = []).
Definition average_current (l : list drec) (i : Q) : Prop := i == average (dropna (map q_current l)).
(** the last record within [x] of the start of the pulse, or of the pulse *)
Definition moment (pulse : list drec) (t : scale) (p : drec) : Prop :=
  match t with
  | End => latest pulse p
  | At x => exists first start, In first pulse /\ q_time first = Some start /\ (forall s, In s pulse -> s = first \/ before first s) /\
            latest (filter (fun s => match q_time s with Some t => Qle_bool (t - start) x | None => false end) pulse) p
  end.
(** voltage over current, relative to the end of the rest *)
Definition is_resistance (rest pulse : list drec) (t : scale) (v : num) : Prop :=
  exists r p five i vr vp ip,
    latest rest r /\ q_voltage r = Some vr /\ last_five rest five /\ average_current five i /\
    moment pulse t p /\ q_voltage p = Some vp /\ q_current p = Some ip /\
    (ip == i -> v = None) /\ (~ ip == i -> exists q, v = Some q /\ q == (vp - vr) / (ip - i)).
(** the records of the [j]th run of a step *)
Definition nth_run (cycle : list drec) (s : Z) (j : nat) (l : list drec) : Prop :=
  exists k, nth_error (uniq (map q_counter (filter (fun r => Z.eqb (q_step r) s) cycle))) j = Some k /\
            l = filter (fun r => Z.eqb (q_counter r) k) cycle.
Definition hppc_cycle (data : list drec) (pos : Z) (cycle : list drec) : Prop :=
  let rows := filter (fun r => match q_current r with Some _ => true | None => false end) (filter (fun r => String.eqb (q_type r) "hppc") data) in
  exists c, py_nth (uniq (map q_cycle rows)) pos = Some c /\ cycle = filter (fun r => Z.eqb (q_cycle r) c) rows.
(** the six kinds of resistance, in order *)
Definition kinds : list (string * (bool * scale)) :=
  [("r_c_0s", (true, At (1 # 1000))); ("r_c_3s", (true, At 3)); ("r_c_end", (true, End));
   ("r_d_0s", (false, At (1 # 1000))); ("r_d_3s", (false, At 3)); ("r_d_end", (false, End))]%string.
Definition resistance_name (kind : string) (j : nat) : string := (kind ++ "_" ++ str_int (Z.of_nat j))%string.
Definition resistance_names : list string := flat_map (fun k => map (resistance_name (fst k)) (seq 0 9)) kinds.

(** ** Statistics of a list of changes *)
Definition describes (suffix : string) (l : list Q) (skew kurtosis : list num -> num) (fs : list (string * num)) : Prop :=
  exists var least mean sum squares,
    fs = [(("var" ++ suffix)%string, Some var); (("min" ++ suffix)%string, Some least); (("mean" ++ suffix)%string, Some mean);
          (("skew" ++ suffix)%string, skew (map Some l)); (("kurtosis" ++ suffix)%string, kurtosis (map Some l));
          (("sum" ++ suffix)%string, Some sum); (("sum_square" ++ suffix)%string, Some squares)] /\
    mean == average l /\ var == average (map (fun x => (x - average l) * (x - average l)) l) /\
    In least l /\ (forall x, In x l -> least <= x) /\ sum == qsum (map Qabs l) /\ squares == qsum (map (fun x => x * x) l).
(** the tenth voltage from the end of each of the first nine runs of the long rest *)
Definition rest_voltages (cycle : list drec) (s : Z) (vs : list num) : Prop :=
  let runs := firstn 9 (uniq (map q_counter (filter (fun r => Z.eqb (q_step r) s) cycle))) in
  Forall2 (fun k v => exists l, l = map q_voltage (filter (fun r => Z.eqb (q_step r) s && Z.eqb (q_counter r) k) cycle) /\
                                exists a b, l = a ++ v :: b /\ length b = 9%nat) runs vs.

(** ** Diffusion *)
Definition is_greatest (l : list num) (x : Q) : Prop := In (Some x) l /\ forall y, In (Some y) l -> y <= x.
Definition is_least (l : list num) (x : Q) : Prop := In (Some x) l /\ forall y, In (Some y) l -> x <= y.
(** the points of the fit: over the difference of the square roots of the time since the pulse began
    and ended, the voltage over its lowest; of these only the last third *)
Definition relaxation (sqrt : Q -> Q) (pulse rest : list drec) (points : list (num * num)) : Prop :=
  exists t0 t1 start low, is_least (map q_time pulse) t0 /\ is_greatest (map q_time pulse) t1 /\ is_least (map q_time rest) start /\ is_least (map q_voltage rest) low /\
    points = map (fun r => match q_time r, q_voltage r with
                           | Some t, Some v => (Some (sqrt (t - start + (t1 - t0)) - sqrt (t - start)), Some (v - low))
                           | _, _ => (None, None)
                           end) rest.
Definition last_third {A} (l : list A) : list A := skipn (Z.to_nat (round_half_even (inject_Z (2 * Z.of_nat (length l)) / 3))) l.
(** in the order of the times *)
Definition ordered (l l' : list drec) : Prop :=
  Permutation l l' /\ StronglySorted (fun a b => forall s t, q_time a = Some s -> q_time b = Some t -> s <= t) l'.

(** ** Voltage difference *)
(** the records of a step of an hppc cycle *)
Definition step_records (data : list drec) (c s : Z) : list drec :=
  filter (fun r => String.eqb (q_type r) "hppc" && Z.eqb (q_cycle r) c && Z.eqb (q_step r) s) data.
(** the records of the run at a place whose capacity is known and has a property *)
Definition run_at (records : list drec) (place : nat) (p : Q -> Prop) (l : list drec) : Prop :=
  exists k, nth_error (uniq (map q_counter records)) place = Some k /\
  exists b, l = filter b records /\ forall r, b r = true <-> q_counter r = k /\ exists q, q_qd r = Some q /\ p q.

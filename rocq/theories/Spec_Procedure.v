(** Vocabulary for C41, C42, C43, C72: places of a Maccor procedure, the values written
    there, and what each insert_ helper is documented to do. *)
From Verif Require Import Py Model_Text Spec_Numeral Model_Procedure.

(** ** Reading a procedure *)
Inductive inside : val -> place -> val -> Prop :=
| here v : inside v [] v
| under d k v q w : sget d k = Some v -> inside v q w -> inside (VDict d) (K k :: q) w
| nth_of l n v q w : nth_error l n = Some v -> inside v q w -> inside (VList l) (I n :: q) w.
(** [v] is at place [q] of step [n]; steps are numbered from 0. *)
Definition reads (p : steps) (n : nat) (q : place) (v : val) : Prop := exists s, nth_error p n = Some s /\ inside s q v.
(** Neither place contains the other. *)
Definition apart (a b : place) : Prop := exists pre k l ra rb, a = pre ++ k :: ra /\ b = pre ++ l :: rb /\ k <> l.
(** Nothing but the places of [L] differs. *)
Definition changes_only (L : list (nat * place)) (p p' : steps) : Prop :=
  length p' = length p /\
  forall n q, (forall r, In (n, r) L -> apart r q) -> forall v, reads p n q v <-> reads p' n q v.
(** The place [q] can be assigned: what contains it is there. *)
Definition assignable (p : steps) (n : nat) (q : place) : Prop := exists d, reads p n (removelast q) (VDict d).

(** ** Values *)
Definition is_text (t : string) (v : val) : Prop := v = VText t.
Definition number (x : Q) (v : val) : Prop := v = VNum x.
(** the number closest to [x] with [d] decimals *)
Definition closest (d : Z) (x : Q) (v : val) : Prop :=
  exists y z, v = VNum y /\ y * inject_Z (10 ^ d) == inject_Z z /\ Qabs (inject_Z z - x * inject_Z (10 ^ d)) <= 1 # 2.
Definition digits2 (t : string) (z : Z) : Prop := exists ds, written ds t /\ length ds = 2%nat /\ z = place_value ds.
(** HH:MM:SS *)
Definition clock_time (t : string) (secs : Z) : Prop :=
  exists h m s hz mz sz, t = (h ++ ":" ++ m ++ ":" ++ s)%string /\ digits2 h hz /\ digits2 m mz /\ digits2 s sz /\
    (hz < 24 /\ mz < 60 /\ sz < 60)%Z /\ secs = (hz * 3600 + mz * 60 + sz)%Z.
(** A duration in seconds, shown as a time of day: whole days are lost (C41). *)
Definition time_of_day (s : Z) (v : val) : Prop := exists t, v = VText t /\ clock_time t (s mod 86400).
Definition nearest (x : Q) (s : Z) : Prop := Qabs (inject_Z s - x) <= 1 # 2.
Definition about (x : Q) (v : val) : Prop := exists s, nearest x s /\ time_of_day s v.
Definition whole (x : Q) (v : val) : Prop := exists s, (inject_Z s <= x /\ x < inject_Z s + 1) /\ time_of_day s v.

(** ** Documentation of a helper *)
(** what the template must have, relative to the first step of the helper *)
Record expects := { x_step : nat; x_place : place; x_is : val -> Prop }.
(** what is written; [w_if]: the value exists *)
Record writes := { w_step : nat; w_place : place; w_if : Prop; w_is : val -> Prop }.
Definition expected (p : steps) (n : nat) (x : expects) : Prop := exists v, reads p (n + x_step x) (x_place x) v /\ x_is x v.
Definition places (n : nat) (D : list writes) : list (nat * place) := map (fun w => (n + w_step w, w_place w)%nat) D.
(** [f] does what is documented by [E] and [D] for the steps from [n] on, for the
    procedures [pre]: it changes nothing else, whether it fails or not; it fails if and
    only if the template is not as expected or a value does not exist, and a step
    of another type or mode than expected stays as it is. *)
Definition documented (pre : steps -> Prop) (E : list expects) (D : list writes) (n : nat) (f : steps -> steps * option exn) : Prop :=
  forall p p' e, pre p -> f p = (p', e) ->
  changes_only (places n D) p p' /\
  (e = None <-> Forall (expected p n) E /\ Forall (fun w => assignable p (n + w_step w) (w_place w) /\ w_if w) D) /\
  (e = None -> Forall (fun w => exists v, reads p' (n + w_step w) (w_place w) v /\ w_is w v) D) /\
  (forall x, In x E -> x_place x = StepType \/ x_place x = StepMode -> ~ expected p n x ->
     nth_error p' (n + x_step x) = nth_error p (n + x_step x)).

Definition step_is (o : nat) (ty : string) (mode : option string) : list expects :=
  {| x_step := o; x_place := StepType; x_is := is_text ty |} ::
  match mode with Some m => [{| x_step := o; x_place := StepMode; x_is := is_text m |}] | None => [] end.
Definition end_is (o : nat) (q : place) (ty : string) : list expects := [{| x_step := o; x_place := q; x_is := is_text ty |}].
Definition sets (o : nat) (q : place) (m : val -> Prop) : writes := {| w_step := o; w_place := q; w_if := True; w_is := m |}.
Definition sets_if (c : Prop) (o : nat) (q : place) (m : val -> Prop) : writes := {| w_step := o; w_place := q; w_if := c; w_is := m |}.
Definition first_end (f : string) : place := EndField 0 f.
Definition second_end (f : string) : place := EndField 1 f.

(** initial rest *)
Definition rest_expects : list expects := step_is 0 "Rest" None ++ end_is 0 (first_end "EndType") "StepTime".
Definition rest_writes (index : Z) : list writes := [sets 0 (first_end "Value") (time_of_day (3 * 3600 + 12 * 60 * (index mod 96)))].
(** resistance check *)
Definition resistance_expects : list expects := step_is 0 "Charge" (Some "Current"%string).
Definition resistance_writes (r : reg_param) : list writes := [sets 0 StepValue (closest 3 (capacity_nominal r))].
(** charge: constant current for a time, constant current up to a voltage, hold, rest *)
Definition charge_expects : list expects :=
  step_is 0 "Charge" (Some "Current"%string) ++ end_is 0 (first_end "EndType") "StepTime" ++
  step_is 1 "Charge" (Some "Current"%string) ++ end_is 1 (first_end "EndType") "Voltage" ++
  step_is 2 "Charge" (Some "Voltage"%string) ++ end_is 2 (first_end "EndType") "StepTime" ++
  step_is 3 "Rest" None ++ end_is 3 (first_end "EndType") "StepTime".
Definition charge_writes_v2 (r : reg_param) : list writes :=
  [sets 0 StepValue (closest 3 (charge_constant_current_1 r * capacity_nominal r));
   sets_if (~ charge_constant_current_1 r == 0) 0 (first_end "Value") (about (3600 * (charge_percent_limit_1 r / 100) / charge_constant_current_1 r));
   sets 1 StepValue (closest 3 (charge_constant_current_2 r * capacity_nominal r));
   sets 1 (first_end "Value") (closest 3 (charge_cutoff_voltage r));
   sets 2 StepValue (number (charge_cutoff_voltage r));
   sets 2 (first_end "Value") (about (60 * charge_constant_voltage_time r));
   sets 3 (first_end "Value") (about (60 * charge_rest_time r))].
(** version 3 also sets the voltage of the second end of the first step, unless it is the number 4.4 *)
Definition charge_expects_v3 : list expects :=
  charge_expects ++ [{| x_step := 0; x_place := second_end "Value"; x_is := fun v => forall q, v = VNum q -> ~ q == 44 # 10 |}].
Definition charge_writes_v3 (r : reg_param) : list writes := sets 0 (second_end "Value") (closest 3 (charge_cutoff_voltage r)) :: charge_writes_v2 r.
(** discharge, rest, and the loop three steps on *)
Definition discharge_expects : list expects :=
  step_is 0 "Dischrge" (Some "Current"%string) ++ end_is 0 (first_end "EndType") "Voltage" ++
  step_is 1 "Rest" None ++ end_is 1 (first_end "EndType") "StepTime" ++
  [{| x_step := 3; x_place := StepType; x_is := fun v => exists t, v = VText ("Loop" ++ t) |}].
Definition discharge_writes (r : reg_param) : list writes :=
  [sets 0 StepValue (closest 3 (discharge_constant_current r * capacity_nominal r));
   sets 0 (first_end "Value") (closest 3 (discharge_cutoff_voltage r));
   sets 1 (first_end "Value") (about (60 * discharge_rest_time r))].
Definition loop_expects : list expects := end_is 3 (OnlyEnd "EndType") "Loop Cnt".
Definition loop_writes (x : Q) : list writes := [sets 3 (OnlyEnd "Value") (number x)].
(** storage: the end of its first step is single in version 2, first of several in version 3 *)
Definition storage_expects (e : string -> place) : list expects :=
  step_is 0 "Dischrge" (Some "Current"%string) ++ end_is 0 (e "EndType"%string) "Current" ++
  step_is 1 "Charge" (Some "Current"%string) ++ end_is 1 (first_end "EndType") "StepTime".
Definition storage_writes (e : string -> place) (r : reg_param) : list writes :=
  [sets 0 StepValue (closest 3 (capacity_nominal r / 2)); sets 0 (Limit "Voltage") (closest 3 (discharge_cutoff_voltage r));
   sets 0 (e "Value"%string) (closest 3 (capacity_nominal r / 20));
   sets 1 StepValue (closest 3 (capacity_nominal r / 2)); sets 1 (first_end "Value") (time_of_day (12 * 60))].
(** reset cycle *)
Definition reset_expects : list expects :=
  step_is 0 "Charge" (Some "Current"%string) ++ end_is 0 (first_end "EndType") "Current" ++
  step_is 1 "Dischrge" (Some "Current"%string) ++ end_is 1 (first_end "EndType") "Voltage".
Definition reset_writes (cap : Q) (d : diag_param) : list writes :=
  [sets 0 StepValue (closest 4 (cap * reset_cycle_current d)); sets 0 (Limit "Voltage") (closest 3 (diagnostic_charge_cutoff_voltage d));
   sets 0 (first_end "Value") (closest 4 (cap * reset_cycle_cutoff_current d));
   sets 1 StepValue (closest 4 (cap * reset_cycle_current d)); sets 1 (first_end "Value") (closest 3 (diagnostic_discharge_cutoff_voltage d))].
(** pulse cycle *)
Definition hppc_expects : list expects :=
  step_is 0 "Charge" (Some "Current"%string) ++ end_is 0 (first_end "EndType") "Current" ++
  step_is 2 "Rest" None ++ end_is 2 (first_end "EndType") "StepTime" ++
  step_is 3 "Dischrge" (Some "Current"%string) ++ end_is 3 (first_end "EndType") "StepTime" ++ end_is 3 (second_end "EndType") "Voltage" ++
  step_is 4 "Rest" None ++ end_is 4 (first_end "EndType") "StepTime" ++
  step_is 5 "Charge" (Some "Current"%string) ++ end_is 5 (first_end "EndType") "StepTime" ++ end_is 5 (second_end "EndType") "Voltage" ++
  step_is 6 "Dischrge" (Some "Current"%string) ++ end_is 6 (first_end "EndType") "StepTime" ++ end_is 6 (second_end "EndType") "Voltage" ++
  step_is 8 "Dischrge" (Some "Voltage"%string) ++ end_is 8 (first_end "EndType") "Current".
Definition hppc_writes (cap : Q) (d : diag_param) : list writes :=
  [sets 0 StepValue (closest 3 (cap * HPPC_baseline_constant_current d)); sets 0 (Limit "Voltage") (closest 3 (diagnostic_charge_cutoff_voltage d));
   sets 0 (first_end "Value") (closest 3 (cap * diagnostic_cutoff_current d));
   sets 2 (first_end "Value") (about (60 * HPPC_rest_time d));
   sets 3 StepValue (closest 3 (cap * HPPC_pulse_current_1 d)); sets 3 (first_end "Value") (whole (HPPC_pulse_duration_1 d));
   sets 3 (second_end "Value") (closest 3 (diagnostic_discharge_cutoff_voltage d));
   sets 4 (first_end "Value") (about (HPPC_pulse_rest_time d));
   sets 5 StepValue (closest 3 (cap * HPPC_pulse_current_2 d)); sets 5 (first_end "Value") (whole (HPPC_pulse_duration_2 d));
   sets 5 (second_end "Value") (closest 3 (HPPC_pulse_cutoff_voltage d));
   sets 6 StepValue (closest 3 (cap * HPPC_baseline_constant_current d));
   sets_if (~ HPPC_baseline_constant_current d == 0) 6 (first_end "Value") (about (3600 * (HPPC_interval d / 100) / HPPC_baseline_constant_current d - 1));
   sets 6 (second_end "Value") (closest 3 (diagnostic_discharge_cutoff_voltage d));
   sets 8 StepValue (closest 3 (diagnostic_discharge_cutoff_voltage d)); sets 8 (Limit "Current") (closest 3 (cap * HPPC_baseline_constant_current d));
   sets 8 (first_end "Value") (closest 3 (cap * diagnostic_cutoff_current d))].
(** rate performance test: three charges and discharges *)
Definition rpt_expects1 (n : nat) : list expects :=
  step_is n "Charge" (Some "Current"%string) ++ end_is n (first_end "EndType") "Current" ++
  step_is (n + 1) "Dischrge" (Some "Current"%string) ++ end_is (n + 1) (first_end "EndType") "Voltage".
Definition rpt_writes1 (n : nat) (cap : Q) (d : diag_param) (rate : Q) : list writes :=
  [sets n StepValue (closest 3 (cap * RPT_charge_constant_current d)); sets n (Limit "Voltage") (closest 3 (diagnostic_charge_cutoff_voltage d));
   sets n (first_end "Value") (closest 3 (cap * diagnostic_cutoff_current d));
   sets (n + 1) StepValue (closest 3 (cap * rate)); sets (n + 1) (first_end "Value") (closest 3 (diagnostic_discharge_cutoff_voltage d))].
Definition rpt_expects : list expects := rpt_expects1 0 ++ rpt_expects1 3 ++ rpt_expects1 6.
Definition rpt_writes (cap : Q) (d : diag_param) : list writes :=
  rpt_writes1 0 cap d (RPT_discharge_constant_current_1 d) ++ rpt_writes1 3 cap d (RPT_discharge_constant_current_2 d) ++ rpt_writes1 6 cap d (RPT_discharge_constant_current_3 d).

(** ** Whole procedures: the helpers one after another *)
Definition needs_at (k : nat) (E : list expects) : list expects := map (fun x => {| x_step := k + x_step x; x_place := x_place x; x_is := x_is x |}) E.
Definition writes_at (k : nat) (D : list writes) : list writes := map (fun w => {| w_step := k + w_step w; w_place := w_place w; w_if := w_if w; w_is := w_is w |}) D.
(** the two loops of regular cycles: steps 35 and 67, counted from 0 *)
Definition two_loops (p : steps) : Prop := reads p 35 StepType (VText "Loop 1") /\ reads p 67 StepType (VText "Loop 2").
Definition cycles_expects (charge : list expects) : list expects :=
  needs_at 28 charge ++ needs_at 32 (discharge_expects ++ loop_expects) ++ needs_at 60 charge ++ needs_at 64 (discharge_expects ++ loop_expects).
Definition cycles_writes (charge : list writes) (r : reg_param) : list writes :=
  writes_at 28 charge ++ writes_at 32 (discharge_writes r ++ loop_writes (diagnostic_start_cycle r)) ++
  writes_at 60 charge ++ writes_at 64 (discharge_writes r ++ loop_writes (diagnostic_interval r)).
Definition regcycle_v2_expects : list expects := needs_at 1 resistance_expects ++ cycles_expects charge_expects ++ needs_at 69 (storage_expects OnlyEnd).
Definition regcycle_v2_writes (r : reg_param) : list writes := writes_at 1 (resistance_writes r) ++ cycles_writes (charge_writes_v2 r) r ++ writes_at 69 (storage_writes OnlyEnd r).
Definition regcycle_v3_expects : list expects :=
  needs_at 0 rest_expects ++ needs_at 1 resistance_expects ++ cycles_expects charge_expects_v3 ++ needs_at 93 (storage_expects first_end).
Definition regcycle_v3_writes (index : Z) (r : reg_param) : list writes :=
  writes_at 0 (rest_writes index) ++ writes_at 1 (resistance_writes r) ++ cycles_writes (charge_writes_v3 r) r ++ writes_at 93 (storage_writes first_end r).
Definition diagnostic_expects (starts : list (nat * nat * nat)) : list expects :=
  flat_map (fun '(a, b, c) => needs_at a reset_expects ++ needs_at b hppc_expects ++ needs_at c rpt_expects) starts.
Definition diagnostic_writes (cap : Q) (d : diag_param) (starts : list (nat * nat * nat)) : list writes :=
  flat_map (fun '(a, b, c) => writes_at a (reset_writes cap d) ++ writes_at b (hppc_writes cap d) ++ writes_at c (rpt_writes cap d)) starts.
Definition two_diagnostics : list (nat * nat * nat) := [(4, 8, 18); (37, 40, 50)]%nat.
Definition three_diagnostics : list (nat * nat * nat) := [(4, 8, 18); (37, 40, 50); (70, 74, 84)]%nat.
(** a waveform step *)
Definition wave_writes (name : string) : list writes :=
  [sets 0 StepType (is_text "FastWave"); sets 0 StepMode (is_text ""); sets 0 [K "Ends"] (eq VNone); sets 0 [K "Reports"] (eq VNone);
   sets 0 [K "Range"] (is_text ""); sets 0 [K "Option1"] (is_text ""); sets 0 [K "Option2"] (is_text ""); sets 0 [K "Option3"] (is_text "");
   sets 0 StepValue (is_text name)].
Definition free_of (c : ascii) (s : string) : Prop := ~ In c (list_ascii_of_string s).
(** [file] is the file [name] with extension MWF, in a directory whose path has no dot *)
Definition wave_file (file name : string) : Prop :=
  exists dir ext, file = (dir ++ name ++ "." ++ ext)%string /\ lower ext = "mwf"%string /\ (String.length name < 25)%nat /\
    free_of "." name /\ free_of "/" name /\ (dir = ""%string \/ exists d, dir = (d ++ "/")%string /\ free_of "." d).
Definition driving_expects : list expects :=
  needs_at 0 rest_expects ++ needs_at 1 resistance_expects ++ needs_at 28 charge_expects_v3 ++ needs_at 60 charge_expects_v3 ++ needs_at 93 (storage_expects first_end).
Definition driving_writes (index : Z) (r : reg_param) (name : string) : list writes :=
  writes_at 0 (rest_writes index) ++ writes_at 1 (resistance_writes r) ++ writes_at 28 (charge_writes_v3 r) ++ writes_at 32 (wave_writes name) ++
  writes_at 60 (charge_writes_v3 r) ++ writes_at 64 (wave_writes name) ++ writes_at 93 (storage_writes first_end r).
(** charging: a waveform instead of the first charge step; the others as documented with the fourth rate *)
Definition tail_of_charge (r : reg_param) (c4 : Q) : list writes :=
  [sets 1 StepValue (closest 3 (c4 * capacity_nominal r));
   sets 1 (first_end "Value") (closest 3 (charge_cutoff_voltage r));
   sets 2 StepValue (number (charge_cutoff_voltage r));
   sets 2 (first_end "Value") (about (60 * charge_constant_voltage_time r));
   sets 3 (first_end "Value") (about (60 * charge_rest_time r))].
Definition charging_writes (index : Z) (r : reg_param) (c4 : Q) (name : string) : list writes :=
  writes_at 0 (rest_writes index) ++ writes_at 1 (resistance_writes r) ++ cycles_writes (tail_of_charge r c4 ++ wave_writes name) r ++
  writes_at 93 (storage_writes first_end r).
(** What a procedure that has been completely parameterised looks like. *)
Definition parameterised (D : list writes) (template p : steps) : Prop :=
  changes_only (places 0 D) template p /\ Forall (fun w => exists v, reads p (w_step w) (w_place w) v /\ w_is w v) D.

(** ** Changes described by a condition *)
Definition changes_where (W : nat -> place -> Prop) (p p' : steps) : Prop :=
  length p' = length p /\ forall n q, (forall r, W n r -> apart r q) -> forall v, reads p n q v <-> reads p' n q v.
(** end condition [k] of step [n], one of several, jumps to [key] on a voltage *)
Definition jumps (p : steps) (key oper : string) (n k : nat) : Prop :=
  reads p n (EndField k "Step") (VText key) /\ reads p n (EndField k "EndType") (VText "Voltage") /\ reads p n (EndField k "Oper") (VText oper).
Definition renames (new_key : option string) (t : string) : Prop := new_key = Some t /\ t <> ""%string.
Definition skip_places (p : steps) (key : string) (new_key : option string) (n : nat) (r : place) : Prop :=
  exists k oper, jumps p key oper n k /\ (oper = ">=" \/ oper = "<=")%string /\ (r = EndField k "Value" \/ r = EndField k "Step" /\ exists t, renames new_key t).
(** the last step of type [t] *)
Definition last_step (p : steps) (t : string) (n : nat) : Prop :=
  reads p n StepType (VText t) /\ forall m, (n < m)%nat -> ~ reads p m StepType (VText t).
Definition limited_charge (p : steps) (n : nat) : Prop := reads p n StepType (VText "Charge") /\ exists v, reads p n (Limit "Voltage") v.
Definition current_step (p : steps) (a b : nat) (type : string) (n : nat) : Prop :=
  (a < n < b)%nat /\ reads p n StepType (VText type) /\ reads p n StepMode (VText "Current").
Definition exp_places (p : steps) (a b : nat) (n : nat) (r : place) : Prop :=
  limited_charge p n /\ r = Limit "Voltage" \/ (current_step p a b "Charge" n \/ current_step p a b "Dischrge" n) /\ r = StepValue.
(** every step is a dictionary with an [Ends] element, and each of several end
    conditions has a step, a type and an operator *)
Definition usual_end (e : val) : Prop := exists d, e = VDict d /\ sget d "Step" <> None /\ sget d "EndType" <> None /\ sget d "Oper" <> None.
Definition usual_step (s : val) : Prop :=
  exists d, s = VDict d /\ (sget d "Ends" = Some VNone \/ exists d2 e, sget d "Ends" = Some (VDict d2) /\ sget d2 "EndEntry" = Some e /\ forall l, e = VList l -> Forall usual_end l).
(** [v] is a text HH:MM:SS that denotes [x] seconds, to the nearest second *)
Definition lasts (x : Q) (v : val) : Prop := exists t s, v = VText t /\ clock_time t s /\ nearest x s.
Definition lasts_whole (x : Q) (v : val) : Prop := exists t s, v = VText t /\ clock_time t s /\ inject_Z s <= x /\ x < inject_Z s + 1.
Definition under_a_day (x : Q) : Prop := 0 <= x /\ x < 86399 + (1 # 2).

(** Model of the parameterisation of procedure templates, beep/protocol/maccor.py
    (class Procedure). *)
From Verif Require Import Py Model_Text.

(** What xmltodict.parse yields, with the numbers the code writes into it.
    Simplification: floats are exact rationals; parameters are present and not NaN.
    (for [get1], beep/protocol/maccor.py:799-821 insert_initialrest_regcyclev3) *)
Inductive val := VNone | VText (s : string) | VNum (q : Q) | VDict (d : list (string * val)) | VList (l : list val).
(** d["key"], l[n].  Simplification: a character of a text, which has no fields either, is no value.
    (for [place], beep/protocol/maccor.py:799-821 insert_initialrest_regcyclev3) *)
Inductive key := K (s : string) | I (n : nat).
(** for [get], beep/protocol/maccor.py:799-821 insert_initialrest_regcyclev3 *)
Definition place := list key.
(** for [get], beep/protocol/maccor.py:799-821 insert_initialrest_regcyclev3 *)
Definition get1 (k : key) (v : val) : result val :=
  match k, v with
  | K s, VDict d => match sget d s with Some v => Ok v | None => Err KeyError end
  | I n, VList l => match nth_error l n with Some v => Ok v | None => Err IndexError end
  | I n, VDict _ => Err KeyError      (* a single EndEntry is no list *)
  | _, _ => Err TypeError
  end.
(** for [step_get], beep/protocol/maccor.py:799-821 insert_initialrest_regcyclev3 *)
Fixpoint get (p : place) (v : val) : result val :=
  match p with [] => Ok v | k :: r => let! w := get1 k v in get r w end.
(** for [put], beep/protocol/maccor.py:799-821 insert_initialrest_regcyclev3 *)
Fixpoint set_nth {A} (l : list A) (n : nat) (x : A) : list A :=
  match l, n with [], _ => [] | _ :: r, O => x :: r | y :: r, S n => y :: set_nth r n x end.
(** v[p] = w, in place.  Simplification: the last key of every assignment in the code is a text.
    (for [step_put], beep/protocol/maccor.py:799-821 insert_initialrest_regcyclev3) *)
Fixpoint put (p : place) (w v : val) : result val :=
  match p with
  | [] => Ok w
  | k :: r =>
      match r, k, v with
      | [], K s, VDict d => Ok (VDict (sset d s w))
      | [], _, _ => Err TypeError
      | _, _, _ =>
          let! x := get1 k v in
          let! x' := put r w x in
          match k, v with
          | K s, VDict d => Ok (VDict (sset d s x'))
          | I n, VList l => Ok (VList (set_nth l n x'))
          | _, _ => Err TypeError     (* not reached: get1 has failed *)
          end
      end
  end.

(** self["MaccorTestProcedure"]["ProcSteps"]["TestStep"].  Simplification: a list,
    that is, at least two steps; the header is not modelled, no helper touches it.
    (for [step_get], beep/protocol/maccor.py:799-821 insert_initialrest_regcyclev3) *)
Definition steps := list val.
(** for [exec], beep/protocol/maccor.py:799-821 insert_initialrest_regcyclev3 *)
Definition step_get (p : steps) (n : nat) (q : place) : result val :=
  match nth_error p n with Some s => get q s | None => Err IndexError end.
(** for [exec], beep/protocol/maccor.py:799-821 insert_initialrest_regcyclev3 *)
Definition step_put (p : steps) (n : nat) (q : place) (w : val) : result steps :=
  match nth_error p n with Some s => let! s' := put q w s in Ok (set_nth p n s') | None => Err IndexError end.

(** The statements of the insert_ helpers, one for each line of the code:
    [assert steps[n][p] ...], [assert] on two places, [steps[n][p] = v]; with [i_if],
    under [if steps[n]["StepType"] == ...]. (for [instr], beep/protocol/maccor.py:799-821 insert_initialrest_regcyclev3) *)
Inductive act :=
| Is (p : place) (f : val -> result bool)
| Rel (p : place) (m : nat) (q : place) (f : val -> val -> result bool)
| Put (p : place) (v : result val).
(** for [exec], beep/protocol/maccor.py:799-821 insert_initialrest_regcyclev3 *)
Record instr := { i_step : nat; i_if : option string; i_act : act }.
(** for [exec], beep/protocol/maccor.py:799-821 insert_initialrest_regcyclev3 *)
Definition text_is (t : string) (v : val) : bool := match v with VText s => String.eqb s t | _ => false end.
(** for [exec], beep/protocol/maccor.py:799-821 insert_initialrest_regcyclev3 *)
Definition asserted (r : result bool) (p : steps) : steps * option exn :=
  match r with Ok true => (p, None) | Ok false => (p, Some AssertionError) | Err e => (p, Some e) end.
(** for [run], beep/protocol/maccor.py:799-821 insert_initialrest_regcyclev3 *)
Definition exec (i : instr) (p : steps) : steps * option exn :=
  let n := i_step i in
  let go :=
    match i_act i with
    | Is q f => asserted (let! v := step_get p n q in f v) p
    | Rel q m r f => asserted (let! v := step_get p n q in let! w := step_get p m r in f v w) p
    | Put q v => match v with
                 | Err e => (p, Some e)
                 | Ok w => match step_put p n q w with Ok p' => (p', None) | Err e => (p, Some e) end
                 end
    end in
  match i_if i with
  | None => go
  | Some t => match step_get p n [K "StepType"] with
              | Err e => (p, Some e)
              | Ok v => if text_is t v then go else (p, None)
              end
  end.
(** An exception leaves the assignments made before it in place.
    (for [insert_initialrest_regcyclev3], beep/protocol/maccor.py:799-821 insert_initialrest_regcyclev3) *)
Fixpoint run (prog : list instr) (p : steps) : steps * option exn :=
  match prog with
  | [] => (p, None)
  | i :: r => match exec i p with (p', None) => run r p' | x => x end
  end.
(** for [at_step], beep/protocol/maccor.py:799-821 insert_initialrest_regcyclev3 *)
Definition shift (n : nat) (i : instr) : instr :=
  {| i_step := n + i_step i; i_if := i_if i;
     i_act := match i_act i with Rel q m r f => Rel q (n + m) r f | a => a end |}.
(** for [insert_initialrest_regcyclev3], beep/protocol/maccor.py:799-821 insert_initialrest_regcyclev3 *)
Definition at_step (n : nat) (prog : list instr) : list instr := map (shift n) prog.

(** for [resistance], beep/protocol/maccor.py:342-362 *)
Definition a_is (n : nat) (q : place) (t : string) : instr := {| i_step := n; i_if := None; i_act := Is q (fun v => Ok (text_is t v)) |}.
(** for [resistance], beep/protocol/maccor.py:342-362 *)
Definition a_put (n : nat) (q : place) (v : result val) : instr := {| i_step := n; i_if := None; i_act := Put q v |}.
(** for [resistance], beep/protocol/maccor.py:342-362 *)
Definition StepType : place := [K "StepType"].
(** for [resistance], beep/protocol/maccor.py:342-362 *)
Definition StepMode : place := [K "StepMode"].
(** for [resistance], beep/protocol/maccor.py:342-362 *)
Definition StepValue : place := [K "StepValue"].
(** for [storage], beep/protocol/maccor.py:502-527, 912-939 *)
Definition Limit (s : string) : place := [K "Limits"; K s].
(** ["Ends"]["EndEntry"][k][f], ["Ends"]["EndEntry"][f] (for [charge_first], beep/protocol/maccor.py:377-399, 836-858) *)
Definition EndField (k : nat) (f : string) : place := [K "Ends"; K "EndEntry"; I k; K f].
(** for [discharge_v2], beep/protocol/maccor.py:436-487 *)
Definition OnlyEnd (f : string) : place := [K "Ends"; K "EndEntry"; K f].

(** float(round(x, d)); the nearest multiple of 10^-d, ties to even (for [resistance], beep/protocol/maccor.py:342-362) *)
Definition rounded (d : Z) (x : Q) : result val := Ok (VNum (inject_Z (round_even (x * inject_Z (10 ^ d))) / inject_Z (10 ^ d))).
(** for [hms], beep/protocol/maccor.py:377-399, 836-858 *)
Definition two (z : Z) : string := zfill 2 (str_int z).
(** time.strftime("%H:%M:%S", time.gmtime(s)): the time of day [s] seconds after midnight
    (for [seconds], beep/protocol/maccor.py:377-399, 836-858) *)
Definition hms (s : Z) : string :=
  let t := (s mod 86400)%Z in (two (t / 3600) ++ ":" ++ two (t / 60 mod 60) ++ ":" ++ two (t mod 60))%string.
(** int(round(x)), then strftime (for [seconds_over], beep/protocol/maccor.py:377-399, 836-858) *)
Definition seconds (x : Q) : result val := Ok (VText (hms (round_even x))).
(** gmtime(float(x)) rounds down (for [hppc_v2], beep/protocol/maccor.py:1069-1191) *)
Definition seconds_down (x : Q) : result val := Ok (VText (hms (Qfloor x))).
(** a / b; the parameters are numpy floats, b = 0 gives an infinity and int(round(inf)) fails
    (for [charge_first], beep/protocol/maccor.py:377-399, 836-858) *)
Definition seconds_over (a b c : Q) : result val := if Qeq_bool b 0 then Err (OtherError "OverflowError") else seconds (a / b - c).

(** The parameters the helpers read. (for [resistance], beep/protocol/maccor.py:342-362) *)
Record reg_param := {
  charge_constant_current_1 : Q; charge_percent_limit_1 : Q; charge_constant_current_2 : Q; charge_cutoff_voltage : Q;
  charge_constant_voltage_time : Q; charge_rest_time : Q; discharge_constant_current : Q; discharge_cutoff_voltage : Q;
  discharge_rest_time : Q; capacity_nominal : Q; diagnostic_start_cycle : Q; diagnostic_interval : Q }.
(** for [reset_v2], beep/protocol/maccor.py:1029-1067 *)
Record diag_param := {
  reset_cycle_current : Q; reset_cycle_cutoff_current : Q; diagnostic_charge_cutoff_voltage : Q; diagnostic_discharge_cutoff_voltage : Q;
  diagnostic_cutoff_current : Q; HPPC_baseline_constant_current : Q; HPPC_rest_time : Q; HPPC_pulse_current_1 : Q; HPPC_pulse_duration_1 : Q;
  HPPC_pulse_rest_time : Q; HPPC_pulse_current_2 : Q; HPPC_pulse_duration_2 : Q; HPPC_pulse_cutoff_voltage : Q; HPPC_interval : Q;
  RPT_charge_constant_current : Q; RPT_discharge_constant_current_1 : Q; RPT_discharge_constant_current_2 : Q; RPT_discharge_constant_current_3 : Q }.

(** beep/protocol/maccor.py:342-362 insert_resistance_regcyclev2 *)
Definition resistance (r : reg_param) : list instr :=
  [a_is 0 StepType "Charge"; a_is 0 StepMode "Current"; a_put 0 StepValue (rounded 3 (1 * capacity_nominal r))].
(** beep/protocol/maccor.py:377-399, 836-858: the first of four steps of a charge *)
Definition charge_first (r : reg_param) : list instr :=
  [a_is 0 StepType "Charge"; a_is 0 StepMode "Current";
   a_put 0 StepValue (rounded 3 (charge_constant_current_1 r * capacity_nominal r));
   a_is 0 (EndField 0 "EndType") "StepTime";
   a_put 0 (EndField 0 "Value") (seconds_over (3600 * (charge_percent_limit_1 r / 100)) (charge_constant_current_1 r) 0)].
(** beep/protocol/maccor.py:401-432, 864-895 *)
Definition charge_rest (r : reg_param) : list instr :=
  [a_is 1 StepType "Charge"; a_is 1 StepMode "Current";
   a_put 1 StepValue (rounded 3 (charge_constant_current_2 r * capacity_nominal r));
   a_is 1 (EndField 0 "EndType") "Voltage";
   a_put 1 (EndField 0 "Value") (rounded 3 (charge_cutoff_voltage r));
   a_is 2 StepType "Charge"; a_is 2 StepMode "Voltage";
   a_put 2 StepValue (Ok (VNum (charge_cutoff_voltage r)));
   a_is 2 (EndField 0 "EndType") "StepTime";
   a_put 2 (EndField 0 "Value") (seconds (60 * charge_constant_voltage_time r));
   a_is 3 StepType "Rest";
   a_is 3 (EndField 0 "EndType") "StepTime";
   a_put 3 (EndField 0 "Value") (seconds (60 * charge_rest_time r))].
(** beep/protocol/maccor.py:364-434 insert_charge_regcyclev2 *)
Definition charge_v2 (r : reg_param) : list instr := charge_first r ++ charge_rest r.
(** beep/protocol/maccor.py:859-862: the text "4.4" of a template is not the number 4.4 *)
Definition not_4_4 (v : val) : result bool := Ok (match v with VNum q => negb (Qeq_bool q (44 # 10)) | _ => true end).
(** beep/protocol/maccor.py:823-897 insert_charge_regcyclev3 *)
Definition charge_v3 (r : reg_param) : list instr :=
  charge_first r ++
  [{| i_step := 0; i_if := None; i_act := Is (EndField 1 "Value") not_4_4 |};
   a_put 0 (EndField 1 "Value") (rounded 3 (charge_cutoff_voltage r))] ++ charge_rest r.
(** steps[n]["StepType"][0:4] == "Loop"; slicing None fails (for [discharge_v2], beep/protocol/maccor.py:436-487) *)
Definition starts_loop (v : val) : result bool :=
  match v with VText s => Ok (prefix "Loop" s) | VList _ => Ok false | _ => Err TypeError end.
(** for [discharge_v2], beep/protocol/maccor.py:436-487 *)
Definition if_loop (name : string) (a : act) : instr := {| i_step := 3; i_if := Some name; i_act := a |}.
(** beep/protocol/maccor.py:436-487 insert_discharge_regcyclev2 *)
Definition discharge_v2 (r : reg_param) : list instr :=
  [a_is 0 StepType "Dischrge"; a_is 0 StepMode "Current";
   a_put 0 StepValue (rounded 3 (discharge_constant_current r * capacity_nominal r));
   a_is 0 (EndField 0 "EndType") "Voltage";
   a_put 0 (EndField 0 "Value") (rounded 3 (discharge_cutoff_voltage r));
   a_is 1 StepType "Rest";
   a_is 1 (EndField 0 "EndType") "StepTime";
   a_put 1 (EndField 0 "Value") (seconds (60 * discharge_rest_time r));
   {| i_step := 3; i_if := None; i_act := Is StepType starts_loop |};
   if_loop "Loop 1" (Is (OnlyEnd "EndType") (fun v => Ok (text_is "Loop Cnt" v)));
   if_loop "Loop 1" (Put (OnlyEnd "Value") (Ok (VNum (diagnostic_start_cycle r))));
   if_loop "Loop 2" (Is (OnlyEnd "EndType") (fun v => Ok (text_is "Loop Cnt" v)));
   if_loop "Loop 2" (Put (OnlyEnd "Value") (Ok (VNum (diagnostic_interval r))))].
(** beep/protocol/maccor.py:502-527, 912-939: the two steps of the storage conditions; [e] is the place of the end *)
Definition storage (e : string -> place) (r : reg_param) : list instr :=
  [a_is 0 StepType "Dischrge"; a_is 0 StepMode "Current";
   a_put 0 StepValue (rounded 3 ((1 # 2) * capacity_nominal r));
   a_put 0 (Limit "Voltage") (rounded 3 (discharge_cutoff_voltage r));
   a_is 0 (e "EndType"%string) "Current";
   a_put 0 (e "Value"%string) (rounded 3 ((5 # 100) * capacity_nominal r));
   a_is 1 StepType "Charge"; a_is 1 StepMode "Current";
   a_put 1 StepValue (rounded 3 ((1 # 2) * capacity_nominal r));
   a_is 1 (EndField 0 "EndType") "StepTime";
   a_put 1 (EndField 0 "Value") (seconds (60 * 12))].
(** beep/protocol/maccor.py:489-529 insert_storage_regcyclev2 *)
Definition storage_v2 : reg_param -> list instr := storage OnlyEnd.
(** beep/protocol/maccor.py:899-941 insert_storage_regcyclev3 *)
Definition storage_v3 : reg_param -> list instr := storage (EndField 0).
(** beep/protocol/maccor.py:799-821 insert_initialrest_regcyclev3; [%] of a non-negative modulus *)
Definition initial_rest (index : Z) : list instr :=
  [a_is 0 StepType "Rest"; a_is 0 (EndField 0 "EndType") "StepTime";
   a_put 0 (EndField 0 "Value") (seconds (inject_Z (3 * 3600 + 720 * (index mod 96))))].

(** beep/protocol/maccor.py:1029-1067 insert_reset_cyclev2 *)
Definition reset_v2 (cap : Q) (d : diag_param) : list instr :=
  [a_is 0 StepType "Charge"; a_is 0 StepMode "Current";
   a_put 0 StepValue (rounded 4 (cap * reset_cycle_current d));
   a_put 0 (Limit "Voltage") (rounded 3 (diagnostic_charge_cutoff_voltage d));
   a_is 0 (EndField 0 "EndType") "Current";
   a_put 0 (EndField 0 "Value") (rounded 4 (cap * reset_cycle_cutoff_current d));
   a_is 1 StepType "Dischrge"; a_is 1 StepMode "Current";
   a_put 1 StepValue (rounded 4 (cap * reset_cycle_current d));
   a_is 1 (EndField 0 "EndType") "Voltage";
   a_put 1 (EndField 0 "Value") (rounded 3 (diagnostic_discharge_cutoff_voltage d))].
(** beep/protocol/maccor.py:1069-1191 insert_hppc_cyclev2 *)
Definition hppc_v2 (cap : Q) (d : diag_param) : list instr :=
  [a_is 0 StepType "Charge"; a_is 0 StepMode "Current";
   a_put 0 StepValue (rounded 3 (cap * HPPC_baseline_constant_current d));
   a_put 0 (Limit "Voltage") (rounded 3 (diagnostic_charge_cutoff_voltage d));
   a_is 0 (EndField 0 "EndType") "Current";
   a_put 0 (EndField 0 "Value") (rounded 3 (cap * diagnostic_cutoff_current d));
   a_is 2 StepType "Rest"; a_is 2 (EndField 0 "EndType") "StepTime";
   a_put 2 (EndField 0 "Value") (seconds (60 * HPPC_rest_time d));
   a_is 3 StepType "Dischrge"; a_is 3 StepMode "Current";
   a_put 3 StepValue (rounded 3 (cap * HPPC_pulse_current_1 d));
   a_is 3 (EndField 0 "EndType") "StepTime";
   a_put 3 (EndField 0 "Value") (seconds_down (HPPC_pulse_duration_1 d));
   a_is 3 (EndField 1 "EndType") "Voltage";
   a_put 3 (EndField 1 "Value") (rounded 3 (diagnostic_discharge_cutoff_voltage d));
   a_is 4 StepType "Rest"; a_is 4 (EndField 0 "EndType") "StepTime";
   a_put 4 (EndField 0 "Value") (seconds (HPPC_pulse_rest_time d));
   a_is 5 StepType "Charge"; a_is 5 StepMode "Current";
   a_put 5 StepValue (rounded 3 (cap * HPPC_pulse_current_2 d));
   a_is 5 (EndField 0 "EndType") "StepTime";
   a_put 5 (EndField 0 "Value") (seconds_down (HPPC_pulse_duration_2 d));
   a_is 5 (EndField 1 "EndType") "Voltage";
   a_put 5 (EndField 1 "Value") (rounded 3 (HPPC_pulse_cutoff_voltage d));
   a_is 6 StepType "Dischrge"; a_is 6 StepMode "Current";
   a_put 6 StepValue (rounded 3 (cap * HPPC_baseline_constant_current d));
   a_is 6 (EndField 0 "EndType") "StepTime";
   a_put 6 (EndField 0 "Value") (seconds_over (3600 * (HPPC_interval d / 100)) (HPPC_baseline_constant_current d) 1);
   a_is 6 (EndField 1 "EndType") "Voltage";
   a_put 6 (EndField 1 "Value") (rounded 3 (diagnostic_discharge_cutoff_voltage d));
   a_is 8 StepType "Dischrge"; a_is 8 StepMode "Voltage";
   a_put 8 StepValue (rounded 3 (diagnostic_discharge_cutoff_voltage d));
   a_put 8 (Limit "Current") (rounded 3 (cap * HPPC_baseline_constant_current d));
   a_is 8 (EndField 0 "EndType") "Current";
   a_put 8 (EndField 0 "Value") (rounded 3 (cap * diagnostic_cutoff_current d))].
(** one charge and the discharge after it, of the three of a rate performance test
    (for [rpt_v2], beep/protocol/maccor.py:1193-1300) *)
Definition rpt_part (n : nat) (cap : Q) (d : diag_param) (rate : Q) : list instr :=
  [a_is n StepType "Charge"; a_is n StepMode "Current";
   a_put n StepValue (rounded 3 (cap * RPT_charge_constant_current d));
   a_put n (Limit "Voltage") (rounded 3 (diagnostic_charge_cutoff_voltage d));
   a_is n (EndField 0 "EndType") "Current";
   a_put n (EndField 0 "Value") (rounded 3 (cap * diagnostic_cutoff_current d));
   a_is (n + 1) StepType "Dischrge"; a_is (n + 1) StepMode "Current";
   a_put (n + 1) StepValue (rounded 3 (cap * rate));
   a_is (n + 1) (EndField 0 "EndType") "Voltage";
   a_put (n + 1) (EndField 0 "Value") (rounded 3 (diagnostic_discharge_cutoff_voltage d))].
(** beep/protocol/maccor.py:1193-1300 insert_rpt_cyclev2 *)
Definition rpt_v2 (cap : Q) (d : diag_param) : list instr :=
  rpt_part 0 cap d (RPT_discharge_constant_current_1 d) ++ rpt_part 3 cap d (RPT_discharge_constant_current_2 d) ++ rpt_part 6 cap d (RPT_discharge_constant_current_3 d).

(** The insert_ methods: the statements above, from step [n] on.
    (beep/protocol/maccor.py:799-821 insert_initialrest_regcyclev3) *)
Definition insert_initialrest_regcyclev3 (n : nat) (index : Z) : steps -> steps * option exn := run (at_step n (initial_rest index)).
(** beep/protocol/maccor.py:342-362 insert_resistance_regcyclev2 *)
Definition insert_resistance_regcyclev2 (n : nat) (r : reg_param) : steps -> steps * option exn := run (at_step n (resistance r)).
(** beep/protocol/maccor.py:364-434 insert_charge_regcyclev2 *)
Definition insert_charge_regcyclev2 (n : nat) (r : reg_param) : steps -> steps * option exn := run (at_step n (charge_v2 r)).
(** beep/protocol/maccor.py:823-897 insert_charge_regcyclev3 *)
Definition insert_charge_regcyclev3 (n : nat) (r : reg_param) : steps -> steps * option exn := run (at_step n (charge_v3 r)).
(** beep/protocol/maccor.py:436-487 insert_discharge_regcyclev2 *)
Definition insert_discharge_regcyclev2 (n : nat) (r : reg_param) : steps -> steps * option exn := run (at_step n (discharge_v2 r)).
(** beep/protocol/maccor.py:489-528 insert_storage_regcyclev2 *)
Definition insert_storage_regcyclev2 (n : nat) (r : reg_param) : steps -> steps * option exn := run (at_step n (storage_v2 r)).
(** beep/protocol/maccor.py:899-939 insert_storage_regcyclev3 *)
Definition insert_storage_regcyclev3 (n : nat) (r : reg_param) : steps -> steps * option exn := run (at_step n (storage_v3 r)).
(** beep/protocol/maccor.py:1029-1067 insert_reset_cyclev2 *)
Definition insert_reset_cyclev2 (n : nat) (cap : Q) (d : diag_param) : steps -> steps * option exn := run (at_step n (reset_v2 cap d)).
(** beep/protocol/maccor.py:1069-1191 insert_hppc_cyclev2 *)
Definition insert_hppc_cyclev2 (n : nat) (cap : Q) (d : diag_param) : steps -> steps * option exn := run (at_step n (hppc_v2 cap d)).
(** beep/protocol/maccor.py:1193-1300 insert_rpt_cyclev2 *)
Definition insert_rpt_cyclev2 (n : nat) (cap : Q) (d : diag_param) : steps -> steps * option exn := run (at_step n (rpt_v2 cap d)).

(** [assert a > b] before anything else (for [from_regcyclev2], beep/protocol/maccor.py:236-287 from_regcyclev2) *)
Definition demand (b : bool) (p : steps) (k : steps * option exn) : steps * option exn := if b then k else (p, Some AssertionError).
(** beep/protocol/maccor.py:236-287 from_regcyclev2, after loading the template *)
Definition regcycle_v2 (r : reg_param) : list instr :=
  at_step 1 (resistance r) ++ at_step 28 (charge_v2 r) ++ at_step 32 (discharge_v2 r) ++
  at_step 60 (charge_v2 r) ++ at_step 64 (discharge_v2 r) ++ at_step 69 (storage_v2 r).
(** beep/protocol/maccor.py:236-287 from_regcyclev2 *)
Definition from_regcyclev2 (r : reg_param) (template : steps) : steps * option exn :=
  demand (Qlt_bool (discharge_cutoff_voltage r) (charge_cutoff_voltage r)) template (run (regcycle_v2 r) template).
(** [==] on the values written into end entries; other values do not occur there
    (for [same_upper], beep/protocol/maccor.py:586-606, 677-697) *)
Definition py_eq (v w : val) : bool :=
  match v, w with
  | VNone, VNone => true | VText a, VText b => String.eqb a b | VNum a, VNum b => Qeq_bool a b | _, _ => false
  end.
(** beep/protocol/maccor.py:586-606, 677-697 *)
Definition same_upper (n : nat) : instr :=
  {| i_step := n; i_if := None; i_act := Rel (EndField 1 "Value") (n + 1) (EndField 0 "Value") (fun v w => Ok (py_eq v w)) |}.
(** beep/protocol/maccor.py:531-608 generate_procedure_regcyclev3 *)
Definition regcycle_v3 (index : Z) (r : reg_param) : list instr :=
  at_step 0 (initial_rest index) ++ at_step 1 (resistance r) ++ at_step 28 (charge_v3 r) ++ at_step 32 (discharge_v2 r) ++
  at_step 60 (charge_v3 r) ++ at_step 64 (discharge_v2 r) ++ at_step 93 (storage_v3 r) ++ [same_upper 28; same_upper 60].
(** beep/protocol/maccor.py:531-608 generate_procedure_regcyclev3 *)
Definition generate_procedure_regcyclev3 (index : Z) (r : reg_param) (template : steps) : steps * option exn :=
  demand (Qlt_bool (discharge_cutoff_voltage r) (charge_cutoff_voltage r)) template (run (regcycle_v3 index r) template).
(** beep/protocol/maccor.py:942-977 add_procedure_diagcyclev2 *)
Definition diagcycle_v2 (cap : Q) (d : diag_param) : list instr :=
  at_step 4 (reset_v2 cap d) ++ at_step 8 (hppc_v2 cap d) ++ at_step 18 (rpt_v2 cap d) ++
  at_step 37 (reset_v2 cap d) ++ at_step 40 (hppc_v2 cap d) ++ at_step 50 (rpt_v2 cap d).
(** beep/protocol/maccor.py:942-977 add_procedure_diagcyclev2 *)
Definition add_procedure_diagcyclev2 (cap : Q) (d : diag_param) (p : steps) : steps * option exn := run (diagcycle_v2 cap d) p.
(** beep/protocol/maccor.py:980-1027 generate_procedure_diagcyclev3 *)
Definition diagcycle_v3 (cap : Q) (d : diag_param) : list instr :=
  diagcycle_v2 cap d ++ at_step 70 (reset_v2 cap d) ++ at_step 74 (hppc_v2 cap d) ++ at_step 84 (rpt_v2 cap d).
(** beep/protocol/maccor.py:980-1027 generate_procedure_diagcyclev3 *)
Definition generate_procedure_diagcyclev3 (cap : Q) (d : diag_param) (p : steps) : steps * option exn := run (diagcycle_v3 cap d) p.

(** beep/protocol/maccor.py:290-340 insert_maccor_waveform: pydash's set puts a new step at the end, after
    [None]s, when there is no step [n] *)
Definition make_step (p : steps) (n : nat) : steps :=
  if (n <? length p)%nat then p else p ++ repeat VNone (n - length p) ++ [VDict []].
(** os.path.split(t)[1], POSIX (for [wave_name], beep/protocol/maccor.py:290-340 insert_maccor_waveform) *)
Definition basename (t : string) : string := last (str_split "/" t) ""%string.
(** for [insert_maccor_waveform], beep/protocol/maccor.py:290-340 insert_maccor_waveform *)
Definition wave_fields : list instr :=
  [a_put 0 StepType (Ok (VText "FastWave")); a_put 0 StepMode (Ok (VText "")); a_put 0 [K "Ends"] (Ok VNone); a_put 0 [K "Reports"] (Ok VNone);
   a_put 0 [K "Range"] (Ok (VText "")); a_put 0 [K "Option1"] (Ok (VText "")); a_put 0 [K "Option2"] (Ok (VText "")); a_put 0 [K "Option3"] (Ok (VText ""));
   a_is 0 StepType "FastWave"].
(** for [insert_maccor_waveform], beep/protocol/maccor.py:290-340 insert_maccor_waveform *)
Definition wave_name (filename : string) : string := basename (hd ""%string (str_split "." filename)).
(** beep/protocol/maccor.py:290-340 insert_maccor_waveform *)
Definition insert_maccor_waveform (n : nat) (filename : string) (p : steps) : steps * option exn :=
  match run (at_step n wave_fields) (make_step p n) with
  | (p', None) =>
      if String.eqb (lower (last (str_split "." filename) ""%string)) "mwf" && (String.length (wave_name filename) <? 25)%nat
      then run [a_put n StepValue (Ok (VText (wave_name filename)))] p'
      else (p', Some AssertionError)
  | x => x
  end.
(** the rest of a method after one of its statements
    (for [generate_procedure_drivingv1], beep/protocol/maccor.py:611-698) *)
Definition next (x : steps * option exn) (k : steps -> steps * option exn) : steps * option exn :=
  match x with (p, None) => k p | _ => x end.
(** beep/protocol/maccor.py:611-698 generate_procedure_drivingv1 *)
Definition generate_procedure_drivingv1 (index : Z) (r : reg_param) (wave : string) (template : steps) : steps * option exn :=
  demand (Qlt_bool (discharge_cutoff_voltage r) (charge_cutoff_voltage r)) template
  (demand (Qle_bool (charge_constant_current_1 r) (charge_constant_current_2 r)) template
  (next (run (at_step 0 (initial_rest index) ++ at_step 1 (resistance r) ++ at_step 28 (charge_v3 r)) template) (fun p =>
   next (insert_maccor_waveform 32 wave p) (fun p =>
   next (run (at_step 60 (charge_v3 r)) p) (fun p =>
   next (insert_maccor_waveform 64 wave p) (fun p =>
   run (at_step 93 (storage_v3 r) ++ [same_upper 28; same_upper 60]) p)))))).

(** The largest limit in the file of the waveform; pandas' max of an empty column is NaN,
    which is not below anything. (for [below_upper], beep/protocol/maccor.py:700-797) *)
Definition limit_below (limits : list Q) (v : val) : result bool :=
  match v with
  | VNum q => Ok (match limits with [] => false | _ => forallb (fun l => Qlt_bool l q) limits end)
  | _ => Err TypeError
  end.
(** for [generate_procedure_chargingv1], beep/protocol/maccor.py:700-797 *)
Definition below_upper (n : nat) (limits : list Q) : instr :=
  {| i_step := n; i_if := None; i_act := Is (EndField 0 "Value") (limit_below limits) |}.
(** beep/protocol/maccor.py:751-754: the caller's parameters are changed *)
Definition charging_params (c4 soc_limit : Q) (r : reg_param) : reg_param :=
  {| charge_constant_current_1 := 1; charge_percent_limit_1 := soc_limit; charge_constant_current_2 := c4; charge_cutoff_voltage := charge_cutoff_voltage r;
     charge_constant_voltage_time := charge_constant_voltage_time r; charge_rest_time := charge_rest_time r; discharge_constant_current := discharge_constant_current r;
     discharge_cutoff_voltage := discharge_cutoff_voltage r; discharge_rest_time := discharge_rest_time r; capacity_nominal := capacity_nominal r;
     diagnostic_start_cycle := diagnostic_start_cycle r; diagnostic_interval := diagnostic_interval r |}.
(** beep/protocol/maccor.py:700-797 generate_procedure_chargingv1; [limits] is column 4 of the waveform file *)
Definition generate_procedure_chargingv1 (index : Z) (r0 : reg_param) (c4 soc_limit : Q) (wave : string) (limits : list Q) (template : steps) : steps * option exn :=
  let r := charging_params c4 soc_limit r0 in
  demand (Qlt_bool (discharge_cutoff_voltage r0) (charge_cutoff_voltage r0)) template
  (next (run (at_step 0 (initial_rest index) ++ at_step 1 (resistance r0) ++ at_step 28 (charge_v3 r)) template) (fun p =>
   next (insert_maccor_waveform 28 wave p) (fun p =>
   next (run (at_step 32 (discharge_v2 r) ++ at_step 60 (charge_v3 r)) p) (fun p =>
   next (insert_maccor_waveform 60 wave p) (fun p =>
   run (at_step 64 (discharge_v2 r) ++ at_step 93 (storage_v3 r) ++ [below_upper 29 limits; below_upper 61 limits]) p))))).

(** beep/protocol/maccor.py:1302-1331 set_skip_to_end_diagnostic *)
Definition skip_end (max_v min_v : val) (step_key : string) (new_key : option string) (e : val) : result val :=
  let renamed e := match new_key with
                   | Some k => if String.eqb k "" then Ok e else put [K "Step"] (VText k) e
                   | None => Ok e
                   end in
  let! s := get [K "Step"] e in
  if text_is step_key s then
    let! t := get [K "EndType"] e in
    if text_is "Voltage" t then
      let! o := get [K "Oper"] e in
      if text_is ">=" o then let! e := put [K "Value"] max_v e in renamed e
      else if text_is "<=" o then let! e := put [K "Value"] min_v e in renamed e
      else Ok e
    else Ok e
  else Ok e.
(** beep/protocol/maccor.py:1302-1331 set_skip_to_end_diagnostic *)
Definition skip_step (max_v min_v : val) (step_key : string) (new_key : option string) (s : val) : result val :=
  let! ends := get [K "Ends"] s in
  match ends with
  | VNone => Ok s
  | _ =>
      let! entries := get [K "EndEntry"] ends in
      match entries with
      | VList es => let! es' := mapM (skip_end max_v min_v step_key new_key) es in put [K "Ends"; K "EndEntry"] (VList es') s
      | _ => Ok s
      end
  end.
(** Simplification: on an exception the entries already changed are not given.
    (beep/protocol/maccor.py:1302-1331 set_skip_to_end_diagnostic) *)
Definition set_skip_to_end_diagnostic (max_v min_v : val) (step_key : string) (new_key : option string) (p : steps) : result steps :=
  mapM (skip_step max_v min_v step_key new_key) p.

(** beep/protocol/maccor.py:163-179 modify_step_value *)
Fixpoint modify_from (i : nat) (num : nat) (type : val) (v : val) (p : steps) : result steps :=
  match p with
  | [] => Ok []
  | s :: r =>
      let! s' := (if (i =? num)%nat then let! t := get StepType s in if py_eq t type then put StepValue v s else Ok s else Ok s) in
      let! r' := modify_from (S i) num type v r in
      Ok (s' :: r')
  end.
(** beep/protocol/maccor.py:163-180 modify_step_value *)
Definition modify_step_value (num : nat) (type : string) (v : val) (p : steps) : result steps := modify_from 0 num (VText type) v p.

(** beep/protocol/maccor.py:183-232 from_exp, after loading the template *)
Fixpoint last_of_type (t : string) (i : nat) (p : steps) (acc : option nat) : result (option nat) :=
  match p with
  | [] => Ok acc
  | s :: r => let! v := get StepType s in last_of_type t (S i) r (if text_is t v then Some i else acc)
  end.
(** for [exp_step], beep/protocol/maccor.py:183-232 from_exp *)
Definition has_voltage_limit (l : val) : result bool :=
  match l with
  | VNone => Ok false
  | VDict d => Ok (smem d "Voltage")
  | VText t => Ok (contains "Voltage" t)
  | VList _ => Ok false        (* repeated Limits elements do not occur *)
  | VNum _ => Err TypeError
  end.
(** for [exp_steps], beep/protocol/maccor.py:183-232 from_exp *)
Definition exp_step (cutoff charge discharge : val) (a b i : nat) (s : val) : result val :=
  let inside := (a <? i)%nat && (i <? b)%nat in
  let! t := get StepType s in
  if text_is "Charge" t then
    let! l := get [K "Limits"] s in
    let! h := has_voltage_limit l in
    let! s := (if h then put [K "Limits"; K "Voltage"] cutoff s else Ok s) in
    let! m := get StepMode s in
    if text_is "Current" m && inside then put StepValue charge s else Ok s
  else if text_is "Dischrge" t then
    let! m := get StepMode s in
    if text_is "Current" m && inside then put StepValue discharge s else Ok s
  else Ok s.
(** for [from_exp], beep/protocol/maccor.py:183-232 from_exp *)
Fixpoint exp_steps (cutoff charge discharge : val) (a b i : nat) (p : steps) : result steps :=
  match p with
  | [] => Ok []
  | s :: r => let! s' := exp_step cutoff charge discharge a b i s in
              let! r' := exp_steps cutoff charge discharge a b (S i) r in Ok (s' :: r')
  end.
(** beep/protocol/maccor.py:183-232 from_exp *)
Definition from_exp (cutoff charge discharge : val) (template : steps) : result steps :=
  let! a := last_of_type "Do 1" 0 template None in
  let! b := last_of_type "Loop 1" 0 template None in
  match a, b with
  | Some a, Some b => exp_steps cutoff charge discharge a b 0 template
  | _, _ => Err UnboundLocalError
  end.

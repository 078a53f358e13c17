(** C41, C42, C43, C72, C73: Maccor procedures made from templates. *)
From Verif Require Import Py Num Model_Text Spec_Numeral Model_Procedure Spec_Procedure.
From Verif Require Import Proofs_Procedure Proofs_Procedure_Docs Proofs_Procedure_Gen Proofs_Procedure_Whole Proofs_Procedure_Templates Proofs_Procedure_Skip.
From Verif Require Import Template_V2 Template_V3 Template_V4 Template_V5 Template_Driving Template_EXP.
From Coq Require Import Lqa.

(** ** C42: the helpers do what is documented, and nothing else *)
Theorem C42_initial_rest : forall n index, documented always rest_expects (rest_writes index) n (insert_initialrest_regcyclev3 n index).
Proof. exact doc_rest. Qed.
Theorem C42_resistance : forall n r, documented always resistance_expects (resistance_writes r) n (insert_resistance_regcyclev2 n r).
Proof. exact doc_resistance. Qed.
Theorem C42_charge_v2 : forall n r, documented always charge_expects (charge_writes_v2 r) n (insert_charge_regcyclev2 n r).
Proof. exact doc_charge_v2. Qed.
Theorem C42_charge_v3 : forall n r, documented always charge_expects_v3 (charge_writes_v3 r) n (insert_charge_regcyclev3 n r).
Proof. exact doc_charge_v3. Qed.
(** The count of the loop three steps on is the number of cycles before the first
    diagnostic for "Loop 1" and between diagnostics for "Loop 2". *)
Theorem C42_discharge_and_loop : forall n r x t,
  t = "Loop 1"%string /\ x = diagnostic_start_cycle r \/ t = "Loop 2"%string /\ x = diagnostic_interval r ->
  documented (fun p => reads p (n + 3) StepType (VText t)) (discharge_expects ++ loop_expects) (discharge_writes r ++ loop_writes x) n (insert_discharge_regcyclev2 n r).
Proof. exact doc_loop. Qed.
Theorem C42_discharge_other_loop : forall n r,
  documented (fun p => ~ reads p (n + 3) StepType (VText "Loop 1") /\ ~ reads p (n + 3) StepType (VText "Loop 2")) discharge_expects (discharge_writes r) n (insert_discharge_regcyclev2 n r).
Proof. exact doc_no_loop. Qed.
Theorem C42_storage_v2 : forall n r, documented always (storage_expects OnlyEnd) (storage_writes OnlyEnd r) n (insert_storage_regcyclev2 n r).
Proof. exact doc_storage_v2. Qed.
Theorem C42_storage_v3 : forall n r, documented always (storage_expects first_end) (storage_writes first_end r) n (insert_storage_regcyclev3 n r).
Proof. exact doc_storage_v3. Qed.
Theorem C42_reset_cycle : forall n cap d, documented always reset_expects (reset_writes cap d) n (insert_reset_cyclev2 n cap d).
Proof. exact doc_reset. Qed.
Theorem C42_hppc_cycle : forall n cap d, documented always hppc_expects (hppc_writes cap d) n (insert_hppc_cyclev2 n cap d).
Proof. exact doc_hppc. Qed.
Theorem C42_rpt_cycle : forall n cap d, documented always rpt_expects (rpt_writes cap d) n (insert_rpt_cyclev2 n cap d).
Proof. exact doc_rpt. Qed.
(** the waveform step replaces whatever step is there *)
Theorem C42_waveform_partial : forall n file name, wave_file file name ->
  documented (fun p => (n < length p)%nat) [] (wave_writes name) n (insert_maccor_waveform n file).
Proof. exact doc_wave. Qed.
(** *** the generators: helpers at their offsets, once each *)
Theorem C42_regular_cycles_v2 : forall r, discharge_cutoff_voltage r < charge_cutoff_voltage r ->
  documented two_loops regcycle_v2_expects (regcycle_v2_writes r) 0 (from_regcyclev2 r).
Proof. exact doc_v2. Qed.
Theorem C42_regular_cycles_v3 : forall index r, discharge_cutoff_voltage r < charge_cutoff_voltage r ->
  documented two_loops regcycle_v3_expects (regcycle_v3_writes index r) 0 (generate_procedure_regcyclev3 index r).
Proof. exact doc_v3. Qed.
Theorem C42_diagnostics_v2 : forall cap d,
  documented always (diagnostic_expects two_diagnostics) (diagnostic_writes cap d two_diagnostics) 0 (add_procedure_diagcyclev2 cap d).
Proof. exact doc_diag_v2. Qed.
Theorem C42_diagnostics_v3 : forall cap d,
  documented always (diagnostic_expects three_diagnostics) (diagnostic_writes cap d three_diagnostics) 0 (generate_procedure_diagcyclev3 cap d).
Proof. exact doc_diag_v3. Qed.
Theorem C42_driving : forall index r file name, discharge_cutoff_voltage r < charge_cutoff_voltage r -> charge_constant_current_1 r <= charge_constant_current_2 r ->
  wave_file file name ->
  documented (fun p => (64 < length p)%nat) driving_expects (driving_writes index r name) 0 (generate_procedure_drivingv1 index r file).
Proof. exact doc_driving. Qed.
(** *** the shipped templates are completely parameterised, for all parameters *)
Theorem C42_shipped_v2 : forall r cap d,
  discharge_cutoff_voltage r < charge_cutoff_voltage r -> ~ charge_constant_current_1 r == 0 -> ~ HPPC_baseline_constant_current d == 0 ->
  exists p, next (from_regcyclev2 r template_v2) (add_procedure_diagcyclev2 cap d) = (p, None) /\
    parameterised (regcycle_v2_writes r ++ diagnostic_writes cap d two_diagnostics) template_v2 p.
Proof. exact whole_v2. Qed.
Theorem C42_shipped_v3 : forall index r cap d t, t = template_v3 \/ t = template_v4 \/ t = template_v5 ->
  discharge_cutoff_voltage r < charge_cutoff_voltage r -> ~ charge_constant_current_1 r == 0 -> ~ HPPC_baseline_constant_current d == 0 ->
  exists p, next (generate_procedure_regcyclev3 index r t) (generate_procedure_diagcyclev3 cap d) = (p, None) /\
    parameterised (regcycle_v3_writes index r ++ diagnostic_writes cap d three_diagnostics) t p.
Proof. exact whole_v3. Qed.
Theorem C42_shipped_driving : forall index r cap d file name,
  discharge_cutoff_voltage r < charge_cutoff_voltage r -> charge_constant_current_1 r <= charge_constant_current_2 r ->
  wave_file file name -> ~ charge_constant_current_1 r == 0 -> ~ HPPC_baseline_constant_current d == 0 ->
  exists p, next (generate_procedure_drivingv1 index r file template_driving) (generate_procedure_diagcyclev3 cap d) = (p, None) /\
    parameterised (driving_writes index r name ++ diagnostic_writes cap d three_diagnostics) template_driving p.
Proof. exact whole_driving. Qed.
Theorem C42_shipped_charging : forall index r c4 soc file name limits cap d t, t = template_v4 \/ t = template_v5 ->
  discharge_cutoff_voltage r < charge_cutoff_voltage r -> wave_file file name -> limits <> [] ->
  (forall l x, In l limits -> closest 3 (charge_cutoff_voltage r) (VNum x) -> l < x) -> ~ HPPC_baseline_constant_current d == 0 ->
  exists p, next (generate_procedure_chargingv1 index r c4 soc file limits t) (generate_procedure_diagcyclev3 cap d) = (p, None) /\
    parameterised (charging_writes index r c4 name ++ diagnostic_writes cap d three_diagnostics) t p.
Proof. exact whole_charging. Qed.
(** *** cutoff voltages the wrong way round are refused before anything is written *)
Theorem C42_inverted_cutoffs_refused : forall index r c4 soc file limits t, ~ discharge_cutoff_voltage r < charge_cutoff_voltage r ->
  from_regcyclev2 r t = (t, Some AssertionError) /\
  generate_procedure_regcyclev3 index r t = (t, Some AssertionError) /\
  generate_procedure_drivingv1 index r file t = (t, Some AssertionError) /\
  generate_procedure_chargingv1 index r c4 soc file limits t = (t, Some AssertionError).
Proof.
  intros index r c4 soc file limits t H.
  assert (X : Qlt_bool (discharge_cutoff_voltage r) (charge_cutoff_voltage r) = false).
  { destruct (Qlt_bool (discharge_cutoff_voltage r) (charge_cutoff_voltage r)) eqn:E; [|reflexivity]. apply Qlt_bool_iff in E. contradiction. }
  unfold from_regcyclev2, generate_procedure_regcyclev3, generate_procedure_drivingv1, generate_procedure_chargingv1, demand. rewrite X. auto.
Qed.

(** A regular parameter set and a diagnostic one. *)
Definition sample_r : reg_param :=
  {| charge_constant_current_1 := 1; charge_percent_limit_1 := 30; charge_constant_current_2 := 2; charge_cutoff_voltage := 42 # 10;
     charge_constant_voltage_time := 30; charge_rest_time := 5; discharge_constant_current := 1;
     discharge_cutoff_voltage := 27 # 10; discharge_rest_time := 15; capacity_nominal := 484 # 100;
     diagnostic_start_cycle := 30; diagnostic_interval := 100 |}.
Definition sample_d : diag_param :=
  {| reset_cycle_current := 1 # 20; reset_cycle_cutoff_current := 1 # 100; diagnostic_charge_cutoff_voltage := 42 # 10; diagnostic_discharge_cutoff_voltage := 27 # 10;
     diagnostic_cutoff_current := 1 # 20; HPPC_baseline_constant_current := 1 # 2; HPPC_rest_time := 60; HPPC_pulse_current_1 := 2; HPPC_pulse_duration_1 := 10;
     HPPC_pulse_rest_time := 40; HPPC_pulse_current_2 := 3 # 2; HPPC_pulse_duration_2 := 10; HPPC_pulse_cutoff_voltage := 42 # 10; HPPC_interval := 10;
     RPT_charge_constant_current := 1; RPT_discharge_constant_current_1 := 1 # 5; RPT_discharge_constant_current_2 := 1; RPT_discharge_constant_current_3 := 2 |}.
Example sample_wave : wave_file "waves/US06.MWF" "US06".
Proof.
  exists "waves/"%string, "MWF"%string. split; [reflexivity|]. split; [reflexivity|]. split; [apply Nat.ltb_lt; reflexivity|].
  assert (F : forall c s, existsb (Ascii.eqb c) (list_ascii_of_string s) = false -> free_of c s).
  { intros c s E I. apply Bool.not_true_iff_false in E. apply E, existsb_exists. exists c. split; [exact I | apply Ascii.eqb_refl]. }
  split; [apply F; reflexivity|]. split; [apply F; reflexivity|]. right. exists "waves"%string. split; [reflexivity | apply F; reflexivity].
Qed.
Example sample_cutoffs : discharge_cutoff_voltage sample_r < charge_cutoff_voltage sample_r /\ ~ charge_constant_current_1 sample_r == 0 /\
  ~ HPPC_baseline_constant_current sample_d == 0 /\ charge_constant_current_1 sample_r <= charge_constant_current_2 sample_r.
Proof. cbn. split; [reflexivity|]. split; [discriminate|]. split; [discriminate|]. discriminate. Qed.
Example sample_limits : forall l x, In l [41 # 10] -> closest 3 (charge_cutoff_voltage sample_r) (VNum x) -> l < x.
Proof.
  intros l x [<-|[]] (y & z & [= <-] & E & A). cbn [charge_cutoff_voltage sample_r] in A. change (inject_Z (10 ^ 3)) with (1000 # 1) in *.
  apply Qabs_Qle_condition in A as (A1 & A2). lra.
Qed.
(** what the driving template ends up with: the first charge rate, the waveform and the initial rest *)
Example sample_driving :
  let p := fst (generate_procedure_drivingv1 5 sample_r "waves/US06.MWF" template_driving) in
  step_get p 28 StepValue = Ok (VNum (4840 # 1000)) /\ step_get p 32 StepValue = Ok (VText "US06") /\ step_get p 0 (EndField 0 "Value") = Ok (VText "04:00:00").
Proof. vm_compute. auto. Qed.
(** a helper at the wrong offset fails and leaves the step as it is *)
Example sample_misplaced : exists e, snd (insert_charge_regcyclev3 27 sample_r template_v3) = Some e /\
  nth_error (fst (insert_charge_regcyclev3 27 sample_r template_v3)) 27 = nth_error template_v3 27.
Proof. eexists. vm_compute. auto. Qed.

(** *** Findings *)
Definition step_with (p : steps) (n : nat) (q : place) (v : val) : steps := match step_put p n q v with Ok p' => p' | Err _ => p end.
(** Finding (maccor.py:403-405): version 3 of the charge writes the voltage of the second end of its
    first step after checking that the value is not 4.4.  The type of that end is never
    checked, so the limit of another kind of end can be overwritten by a voltage, ... *)
Theorem C42_second_end_checked_refuted :
  ~ (forall n r p p', insert_charge_regcyclev3 n r p = (p', None) -> reads p n (second_end "EndType") (VText "Voltage")).
Proof.
  intros H. set (p := step_with template_v3 28 (second_end "EndType") (VText "StepTime")).
  specialize (H 28%nat sample_r p (fst (insert_charge_regcyclev3 28 sample_r p)) ltac:(vm_compute; reflexivity)). apply reads_get in H. vm_compute in H. discriminate.
Qed.
(** ... and values read from a file are texts, which are never equal to the number 4.4. *)
Theorem C42_protected_limit_refuted :
  ~ (forall n r p p', insert_charge_regcyclev3 n r p = (p', None) -> ~ reads p n (second_end "Value") (VText "4.4")).
Proof.
  intros H. set (p := step_with template_v3 28 (second_end "Value") (VText "4.4")).
  apply (H 28%nat sample_r p (fst (insert_charge_regcyclev3 28 sample_r p))); [|apply reads_get]; vm_compute; reflexivity.
Qed.
(** Finding (maccor.py:290-340): the waveform helper checks the file name after it has
    overwritten the step, ... *)
Theorem C42_failed_waveform_writes_refuted :
  ~ (forall n file p p' e, insert_maccor_waveform n file p = (p', Some e) -> nth_error p' n = nth_error p n).
Proof.
  intros H. specialize (H 32%nat "US06.csv"%string template_v3 (fst (insert_maccor_waveform 32 "US06.csv" template_v3)) AssertionError).
  apply (f_equal (fun o => match o with Some v => get StepType v | None => Err KeyError end)) in H; [revert H; vm_compute; discriminate | vm_compute; reflexivity].
Qed.
(** ... takes the name up to the first dot of the whole path, ... *)
Theorem C42_waveform_name_refuted :
  ~ (forall n dir name p p', (n < length p)%nat -> free_of "." name -> free_of "/" name -> (String.length name < 25)%nat ->
       insert_maccor_waveform n (dir ++ "/" ++ name ++ ".MWF") p = (p', None) -> reads p' n StepValue (VText name)).
Proof.
  intros H. specialize (H 32%nat "x.1"%string "US06"%string template_driving (fst (insert_maccor_waveform 32 "x.1/US06.MWF" template_driving))).
  apply reads_get in H; [revert H; vm_compute; discriminate | apply Nat.ltb_lt; vm_compute; reflexivity | | | apply Nat.ltb_lt; vm_compute; reflexivity | vm_compute; reflexivity];
    (intros I; vm_compute in I; repeat (destruct I as [I|I]; [discriminate|]); exact I).
Qed.
(** ... and adds steps to a procedure that is too short instead of failing. *)
Theorem C42_waveform_needs_its_step_refuted :
  ~ (forall n file p p', insert_maccor_waveform n file p = (p', None) -> length p' = length p).
Proof.
  intros H. specialize (H 120%nat "US06.MWF"%string template_driving (fst (insert_maccor_waveform 120 "US06.MWF" template_driving))).
  assert (X : length (fst (insert_maccor_waveform 120 "US06.MWF" template_driving)) = length template_driving) by (apply H; vm_compute; reflexivity).
  vm_compute in X. discriminate.
Qed.

(** ** C41: durations *)
Theorem C41_initial_rest : forall n index p p', insert_initialrest_regcyclev3 n index p = (p', None) ->
  exists t, reads p' n (first_end "Value") (VText t) /\ clock_time t (3 * 3600 + 12 * 60 * (index mod 96)).
Proof.
  intros n index p p' H. destruct (doc_value _ _ _ _ _ _ _ _ (doc_rest n index) Logic.I H (or_introl eq_refl)) as (v & R & t & -> & C).
  cbn [w_step w_place sets] in R. rewrite Nat.add_0_r in R. exists t. split; [exact R|]. pose proof (Z.mod_pos_bound index 96). rewrite Z.mod_small in C by lia. exact C.
Qed.
Theorem C41_charge_durations_partial : forall n r p p', insert_charge_regcyclev3 n r p = (p', None) \/ insert_charge_regcyclev2 n r p = (p', None) ->
  let charging := 3600 * (charge_percent_limit_1 r / 100) / charge_constant_current_1 r in
  (under_a_day charging -> exists v, reads p' n (first_end "Value") v /\ lasts charging v) /\
  (under_a_day (60 * charge_constant_voltage_time r) -> exists v, reads p' (n + 2) (first_end "Value") v /\ lasts (60 * charge_constant_voltage_time r) v) /\
  (under_a_day (60 * charge_rest_time r) -> exists v, reads p' (n + 3) (first_end "Value") v /\ lasts (60 * charge_rest_time r) v).
Proof.
  intros n r p p' H charging.
  assert (X : forall w, In w (charge_writes_v2 r) -> exists v, reads p' (n + w_step w) (w_place w) v /\ w_is w v).
  { intros w I. destruct H as [H|H]; [eapply (doc_value _ _ _ _ _ _ _ _ (doc_charge_v3 n r)) | eapply (doc_value _ _ _ _ _ _ _ _ (doc_charge_v2 n r))];
      try exact Logic.I; try exact H; [right; exact I | exact I]. }
  split; [|split]; intros U.
  - destruct (X (sets_if (~ charge_constant_current_1 r == 0) 0 (first_end "Value") (about charging))) as (v & R & A); [right; left; reflexivity|].
    cbn in R, A. rewrite Nat.add_0_r in R. exists v. split; [exact R | apply about_lasts; assumption].
  - destruct (X (sets 2 (first_end "Value") (about (60 * charge_constant_voltage_time r)))) as (v & R & A); [do 5 right; left; reflexivity|].
    exists v. split; [exact R | apply about_lasts; assumption].
  - destruct (X (sets 3 (first_end "Value") (about (60 * charge_rest_time r)))) as (v & R & A); [do 6 right; left; reflexivity|].
    exists v. split; [exact R | apply about_lasts; assumption].
Qed.
Theorem C41_discharge_rest_partial : forall n r p p' t, t = "Loop 1"%string \/ t = "Loop 2"%string -> reads p (n + 3) StepType (VText t) ->
  insert_discharge_regcyclev2 n r p = (p', None) -> under_a_day (60 * discharge_rest_time r) ->
  exists v, reads p' (n + 1) (first_end "Value") v /\ lasts (60 * discharge_rest_time r) v.
Proof.
  intros n r p p' t T L H U.
  assert (exists x, t = "Loop 1"%string /\ x = diagnostic_start_cycle r \/ t = "Loop 2"%string /\ x = diagnostic_interval r) as (x & TX).
  { destruct T as [->| ->]; eexists; [left | right]; auto. }
  destruct (doc_value _ _ _ _ _ p p' (sets 1 (first_end "Value") (about (60 * discharge_rest_time r))) (doc_loop n r x t TX) L H) as (v & R & A); [right; right; left; reflexivity|].
  exists v. split; [exact R | apply about_lasts; assumption].
Qed.
(** Pulse durations are cut to whole seconds instead of rounded. *)
Theorem C41_hppc_durations_partial : forall n cap d p p', insert_hppc_cyclev2 n cap d p = (p', None) ->
  (under_a_day (60 * HPPC_rest_time d) -> exists v, reads p' (n + 2) (first_end "Value") v /\ lasts (60 * HPPC_rest_time d) v) /\
  (0 <= HPPC_pulse_duration_1 d < 86400 -> exists v, reads p' (n + 3) (first_end "Value") v /\ lasts_whole (HPPC_pulse_duration_1 d) v) /\
  (under_a_day (HPPC_pulse_rest_time d) -> exists v, reads p' (n + 4) (first_end "Value") v /\ lasts (HPPC_pulse_rest_time d) v) /\
  (0 <= HPPC_pulse_duration_2 d < 86400 -> exists v, reads p' (n + 5) (first_end "Value") v /\ lasts_whole (HPPC_pulse_duration_2 d) v) /\
  (let interval := 3600 * (HPPC_interval d / 100) / HPPC_baseline_constant_current d - 1 in
   under_a_day interval -> exists v, reads p' (n + 6) (first_end "Value") v /\ lasts interval v).
Proof.
  intros n cap d p p' H. pose proof (fun w => doc_value _ _ _ _ _ p p' w (doc_hppc n cap d) Logic.I H) as X.
  split; [|split; [|split; [|split]]].
  - intros U. destruct (X (sets 2 (first_end "Value") (about (60 * HPPC_rest_time d)))) as (v & R & A); [do 3 right; left; reflexivity|]. exists v. split; [exact R | apply about_lasts; assumption].
  - intros (U1 & U2). destruct (X (sets 3 (first_end "Value") (whole (HPPC_pulse_duration_1 d)))) as (v & R & A); [do 5 right; left; reflexivity|]. exists v. split; [exact R | apply whole_lasts; assumption].
  - intros U. destruct (X (sets 4 (first_end "Value") (about (HPPC_pulse_rest_time d)))) as (v & R & A); [do 7 right; left; reflexivity|]. exists v. split; [exact R | apply about_lasts; assumption].
  - intros (U1 & U2). destruct (X (sets 5 (first_end "Value") (whole (HPPC_pulse_duration_2 d)))) as (v & R & A); [do 9 right; left; reflexivity|]. exists v. split; [exact R | apply whole_lasts; assumption].
  - intros interval U. destruct (X (sets_if (~ HPPC_baseline_constant_current d == 0) 6 (first_end "Value") (about interval))) as (v & R & A); [do 12 right; left; reflexivity|].
    exists v. split; [exact R | apply about_lasts; assumption].
Qed.
Example sample_durations : under_a_day (60 * charge_constant_voltage_time sample_r) /\ snd (insert_charge_regcyclev3 28 sample_r template_v3) = None /\
  snd (insert_hppc_cyclev2 8 3 sample_d template_v3) = None /\
  step_get (fst (insert_charge_regcyclev3 28 sample_r template_v3)) 30 (first_end "Value") = Ok (VText "00:30:00").
Proof. split; [split; [discriminate | reflexivity]|]. vm_compute. auto. Qed.
(** Finding: durations are written as times of day, so whole days are lost; a hold of 24 h is written 00:00:00. *)
Definition day_long : reg_param :=
  {| charge_constant_current_1 := 1; charge_percent_limit_1 := 30; charge_constant_current_2 := 2; charge_cutoff_voltage := 42 # 10;
     charge_constant_voltage_time := 1440; charge_rest_time := 5; discharge_constant_current := 1;
     discharge_cutoff_voltage := 27 # 10; discharge_rest_time := 15; capacity_nominal := 484 # 100;
     diagnostic_start_cycle := 30; diagnostic_interval := 100 |}.
Example day_long_hold : let (p, e) := insert_charge_regcyclev3 28 day_long template_v3 in e = None /\ step_get p 30 (first_end "Value") = Ok (VText "00:00:00").
Proof. vm_compute. auto. Qed.
Theorem C41_long_durations_refuted :
  ~ (forall n r p p', insert_charge_regcyclev3 n r p = (p', None) -> 0 <= 60 * charge_constant_voltage_time r ->
     exists v, reads p' (n + 2) (first_end "Value") v /\ lasts (60 * charge_constant_voltage_time r) v).
Proof.
  intros H. destruct (H 28%nat day_long template_v3 (fst (insert_charge_regcyclev3 28 day_long template_v3))) as (v & _ & t & s & _ & C & N); [vm_compute; reflexivity | discriminate|].
  destruct C as (h & m & x & hz & mz & sz & _ & _ & _ & _ & (B1 & B2 & B3) & ->). unfold nearest in N. apply Qabs_Qle_condition in N as (N & _). cbn [charge_constant_voltage_time day_long] in N.
  assert (X : inject_Z (hz * 3600 + mz * 60 + sz) <= inject_Z 86399) by (rewrite <- Zle_Qle; lia). change (inject_Z 86399) with (86399 # 1) in X. lra.
Qed.

(** ** C43: limits that skip to the ending diagnostic *)
(** Missing: a step with a single end condition. *)
Theorem C43_limits_reach_listed_ends_partial : forall max_v min_v key new_key p p', set_skip_to_end_diagnostic max_v min_v key new_key p = Ok p' ->
  changes_where (skip_places p key new_key) p p' /\
  forall n k,
    (jumps p key ">=" n k -> reads p' n (EndField k "Value") max_v) /\ (jumps p key "<=" n k -> reads p' n (EndField k "Value") min_v) /\
    forall oper t, oper = ">="%string \/ oper = "<="%string -> jumps p key oper n k -> renames new_key t -> reads p' n (EndField k "Step") (VText t).
Proof.
  intros max_v min_v key new_key p p' H. split; [eapply skip_frame; exact H|]. intros n k. split; [|split].
  - intros J. destruct (skip_done _ _ _ _ _ _ _ _ _ max_v H J) as (A & _); auto.
  - intros J. destruct (skip_done _ _ _ _ _ _ _ _ _ min_v H J) as (A & _); auto.
  - intros oper t [->| ->] J R; [destruct (skip_done _ _ _ _ _ _ _ _ _ max_v H J) as (_ & B) | destruct (skip_done _ _ _ _ _ _ _ _ _ min_v H J) as (_ & B)]; auto.
Qed.
Theorem C43_usual_procedures_accepted : forall max_v min_v key new_key p, Forall usual_step p -> exists p', set_skip_to_end_diagnostic max_v min_v key new_key p = Ok p'.
Proof. exact skip_succeeds. Qed.
(** Finding (maccor.py:1321): a step with one end condition has no list of them and is passed over. *)
Definition single_end : steps :=
  [VDict [("StepType", VText "Charge"); ("Ends", VDict [("EndEntry", VDict [("EndType", VText "Voltage"); ("Oper", VText ">="); ("Step", VText "070"); ("Value", VText "4.2")])])]]%string.
Theorem C43_limits_reach_every_end_refuted :
  ~ (forall max_v min_v key new_key p p', set_skip_to_end_diagnostic max_v min_v key new_key p = Ok p' ->
     forall n, reads p n (OnlyEnd "Step") (VText key) -> reads p n (OnlyEnd "EndType") (VText "Voltage") -> reads p n (OnlyEnd "Oper") (VText ">=") ->
       reads p' n (OnlyEnd "Value") max_v).
Proof.
  intros H. specialize (H (VNum 4) (VNum 2) "070"%string None single_end single_end eq_refl 0%nat).
  rewrite !reads_get in H. specialize (H eq_refl eq_refl eq_refl). discriminate.
Qed.
Example sample_skip : exists p', set_skip_to_end_diagnostic (VNum 4) (VNum 2) "070" (Some "095"%string) template_v3 = Ok p' /\
  step_get template_v3 28 (EndField 2 "Step") = Ok (VText "070") /\ step_get p' 28 (EndField 2 "Value") = Ok (VNum 4) /\ step_get p' 28 (EndField 2 "Step") = Ok (VText "095").
Proof. eexists. split; [vm_compute; reflexivity|]. vm_compute. auto. Qed.

(** ** C72: the EXP template *)
Theorem C72_rates_inside_the_loop : forall cutoff charge discharge p p', from_exp cutoff charge discharge p = Ok p' ->
  exists a b, last_step p "Do 1" a /\ last_step p "Loop 1" b /\ changes_where (exp_places p a b) p p' /\
    forall n, (limited_charge p n -> reads p' n (Limit "Voltage") cutoff) /\
              (current_step p a b "Charge" n -> reads p' n StepValue charge) /\ (current_step p a b "Dischrge" n -> reads p' n StepValue discharge).
Proof. exact from_exp_spec. Qed.
Theorem C72_without_a_loop_fails : forall cutoff charge discharge p t, t = "Do 1"%string \/ t = "Loop 1"%string -> (forall n, ~ reads p n StepType (VText t)) ->
  exists e, from_exp cutoff charge discharge p = Err e.
Proof. exact from_exp_no_loop. Qed.
Theorem C72_shipped_template : forall cutoff charge discharge, exists p', from_exp cutoff charge discharge template_exp = Ok p' /\
  reads p' 5 (Limit "Voltage") cutoff /\ reads p' 5 StepValue charge /\ reads p' 6 StepValue discharge.
Proof. intros. eexists. split; [vm_compute; reflexivity|]. rewrite !reads_get. vm_compute. auto. Qed.
Example sample_exp : last_step template_exp "Do 1" 4 /\ last_step template_exp "Loop 1" 8 /\ limited_charge template_exp 5 /\ current_step template_exp 4 8 "Charge" 5.
Proof.
  assert (L : forall t n, last_of_type t 0 template_exp None = Ok (Some n) -> last_step template_exp t n) by (intros; apply last_step_found; assumption).
  split; [apply L; vm_compute; reflexivity|]. split; [apply L; vm_compute; reflexivity|]. split.
  - split; [|eexists]; apply reads_get; vm_compute; reflexivity.
  - split; [lia|]. rewrite !reads_get. vm_compute. auto.
Qed.

(** ** C73: one step value *)
Theorem C73_only_that_step_and_type : forall num type v p p', modify_step_value num type v p = Ok p' ->
  changes_where (fun n r => n = num /\ reads p n StepType (VText type) /\ r = StepValue) p p' /\ (reads p num StepType (VText type) -> reads p' num StepValue v).
Proof. exact modify_frame. Qed.
Example sample_modify : exists p', modify_step_value 28 "Charge" (VNum 3) template_v3 = Ok p' /\ step_get p' 28 StepValue = Ok (VNum 3).
Proof. eexists. split; vm_compute; reflexivity. Qed.

Print Assumptions C42_initial_rest.
Print Assumptions C42_resistance.
Print Assumptions C42_charge_v2.
Print Assumptions C42_charge_v3.
Print Assumptions C42_discharge_and_loop.
Print Assumptions C42_discharge_other_loop.
Print Assumptions C42_storage_v2.
Print Assumptions C42_storage_v3.
Print Assumptions C42_reset_cycle.
Print Assumptions C42_hppc_cycle.
Print Assumptions C42_rpt_cycle.
Print Assumptions C42_waveform_partial.
Print Assumptions C42_regular_cycles_v2.
Print Assumptions C42_regular_cycles_v3.
Print Assumptions C42_diagnostics_v2.
Print Assumptions C42_diagnostics_v3.
Print Assumptions C42_driving.
Print Assumptions C42_shipped_v2.
Print Assumptions C42_shipped_v3.
Print Assumptions C42_shipped_driving.
Print Assumptions C42_shipped_charging.
Print Assumptions C42_inverted_cutoffs_refused.
Print Assumptions C42_second_end_checked_refuted.
Print Assumptions C42_protected_limit_refuted.
Print Assumptions C42_failed_waveform_writes_refuted.
Print Assumptions C42_waveform_name_refuted.
Print Assumptions C42_waveform_needs_its_step_refuted.
Print Assumptions C41_initial_rest.
Print Assumptions C41_charge_durations_partial.
Print Assumptions C41_discharge_rest_partial.
Print Assumptions C41_hppc_durations_partial.
Print Assumptions C41_long_durations_refuted.
Print Assumptions C43_limits_reach_listed_ends_partial.
Print Assumptions C43_usual_procedures_accepted.
Print Assumptions C43_limits_reach_every_end_refuted.
Print Assumptions C72_rates_inside_the_loop.
Print Assumptions C72_without_a_loop_fails.
Print Assumptions C72_shipped_template.
Print Assumptions C73_only_that_step_and_type.

(** C40, C69, C70, C71: Maccor procedures as Arbin schedules. *)
From Verif Require Import Py Model_Text Model_Units Model_Arbin Model_M2A Spec_Numeral Spec_Arbin Spec_M2A Proofs_Arbin_Set Proofs_M2A Proofs_M2A_Sdu Proofs_M2A_Ends.

(** ** C40: loops *)
(** Missing: loops whose Do step is the first or the second step of the procedure; see the refutations. *)
Theorem C40_loops_jump_past_their_do_partial show steps cr v t c temp s names s' sts j d st lname dname cname :
  distinct s -> steps_are s names -> plain_names names -> create_sdu show steps cr (v, t, c) temp s = Ok (s', sts) ->
  In (lname, dname, cname) loop_names -> nth_error steps j = Some st -> a_mode st = None -> a_type st = lname -> opens steps d j dname -> (2 <= d)%nat ->
  exists e count goto, a_ends st = Single e /\ sget e "Value" = Some count /\ names_step s' (S d) goto /\ limit_is s' j 0 "1" "1" goto cname "<" count.
Proof. intros D SA PN H. exact (conv_loop show steps cr v t c temp s s' names sts D SA PN H j d st lname dname cname). Qed.
Theorem C40_every_limit_is_counted show steps cr v t c temp s names s' sts j st :
  distinct s -> steps_are s names -> plain_names names -> create_sdu show steps cr (v, t, c) temp s = Ok (s', sts) -> nth_error steps j = Some st ->
  exists txt ks, step_has s' j ["m_uLimitNum"]%string txt /\ integer txt (Z.of_nat (length ks)) /\ NoDup ks /\
    forall l, In l ks <-> exists sub, limit_section s' (step_key j) l sub.
Proof. intros D SA PN H. exact (conv_count show steps cr v t c temp s s' names sts D SA PN H j st). Qed.
Theorem C40_limits_are_consecutive_partial show steps cr v t c temp s names s' sts j st :
  distinct s -> steps_are s names -> plain_names names -> create_sdu show steps cr (v, t, c) temp s = Ok (s', sts) -> nth_error steps j = Some st ->
  (exists es, a_ends st = Several es) \/ loops st \/ a_reports st = Absent ->
  exists txt n, step_has s' j ["m_uLimitNum"]%string txt /\ integer txt (Z.of_nat n) /\
    forall l, (exists sub, limit_section s' (step_key j) l sub) <-> exists k, (k < n)%nat /\ l = limit_name k.
Proof. intros D SA PN H. exact (conv_consecutive show steps cr v t c temp s s' names sts D SA PN H j st). Qed.

(** A schedule to fill and a procedure. *)
Definition shell : node :=
  Dict [("Version", Dict [("Assembly", Leaf "7.0")]);
        ("Schedule", Dict [("m_uStepNum", Leaf "2"); ("m_szCreator", Leaf "someone"); ("Step0", Dict [("m_szLabel", Leaf "old")]); ("Step9", Dict [("m_szLabel", Leaf "older")]);
                           ("UserDefineSafety0", Dict [("m_szName", Leaf "hot")])])]%string.
Definition shell_names : list string := ["m_uStepNum"; "m_szCreator"; "Step0"; "Step9"; "UserDefineSafety0"]%string.
Lemma shell_distinct : distinct shell.
Proof. unfold shell. repeat first [apply distinct_leaf | apply distinct_dict | apply NoDup_nil | apply Forall_nil | apply Forall_cons; cbn [snd] | apply NoDup_cons; [cbn; intuition discriminate|] ]. Qed.
Lemma shell_steps : steps_are shell shell_names.
Proof. unfold steps_are, shell. do 2 eexists. split; [reflexivity|]. split; [right; left; reflexivity|reflexivity]. Qed.
Lemma shell_plain : plain_names shell_names.
Proof. unfold plain_names, shell_names. repeat (constructor; [apply literal_avoids; reflexivity|]). constructor. Qed.
Definition plain_step (ty : string) (ends : entries) : astep :=
  {| a_note := "None"; a_type := ty; a_mode := None; a_value := None; a_limits := None; a_ends := ends; a_reports := Absent |}.
Definition an_end (ty oper step value : string) : list (string * string) := [("EndType", ty); ("SpecialType", " "); ("Oper", oper); ("Step", step); ("Value", value)]%string.
Definition a_report (ty value : string) : list (string * string) := [("ReportType", ty); ("Value", value)]%string.
Definition the_charge : astep :=
  {| a_note := "charge"; a_type := "Charge"; a_mode := Some "Current"%string; a_value := Some "1.1"%string; a_limits := Some [("Voltage", "4.2")]%string;
     a_ends := Several [an_end "StepTime" " = " "005" "01:30:00.5"; an_end "Current" "<= " "006" "0.05"]; a_reports := Single (a_report "StepTime" "::.25") |}.
Definition the_discharge : astep :=
  {| a_note := "discharge"; a_type := "Dischrge"; a_mode := Some "Voltage"%string; a_value := Some "2.7"%string; a_limits := None;
     a_ends := Several [an_end "Current" "<= " "006" "0.1"]; a_reports := Several [a_report "Voltage" "0.01"; a_report "Current" "0.02"] |}.
Definition procedure : list astep :=
  [plain_step "Rest" (Single (an_end "StepTime" " = " "002" "00:10:00")); plain_step "AdvCycle" Absent; plain_step "Do 1" Absent; the_charge; the_discharge;
   plain_step "Loop 1" (Single (an_end "Loop Cnt" " = " "007" "10")); plain_step "End" Absent].
Definition convert (p : list astep) : result (node * list astep) := create_sdu fmt3 p "Range1" ("2.5^4.5", "-100^100", "-30^30")%string false shell.
Definition got (p : list astep) (path : list string) : option node := match convert p with Ok (n, _) => get_keys ("Schedule"%string :: path) n | Err _ => None end.
Example C40_procedure_converts : (exists s' sts, convert procedure = Ok (s', sts)) /\ opens procedure 2 5 "Do 1".
Proof.
  split; [do 2 eexists; vm_compute; reflexivity|]. split; [lia|]. split; [eexists; split; reflexivity|].
  intros j J (st & N & T). do 6 (destruct j as [|j]; [try lia; injection N as <-; discriminate T|]). lia.
Qed.
Example C40_loop_limit : got procedure ["Step5"; "Limit0"; "m_szGotoStep"]%string = Some (Leaf "4-charge"%string) /\ got procedure ["Step3"; "m_szLabel"]%string = Some (Leaf "4-charge"%string) /\
  got procedure ["Step5"; "Limit0"; "Equation0_szLeft"]%string = Some (Leaf "TC_Counter1"%string) /\ got procedure ["Step5"; "Limit0"; "Equation0_szRight"]%string = Some (Leaf "10"%string).
Proof. vm_compute. repeat split. Qed.
Example C40_limits_of_the_charge : got procedure ["Step3"; "m_uLimitNum"]%string = Some (Leaf "3"%string) /\ (exists es, a_ends the_charge = Several es).
Proof. vm_compute. split; [reflexivity|eauto]. Qed.

(** Finding: the search for the Do step of a loop stops before the second step
    (128-134), and what an earlier loop found is used instead.  Here the outer loop is opened
    by the second step, but leads to the step after the inner Do, so the inner counter is
    never reset. *)
Definition nested : list astep :=
  [plain_step "Rest" (Single (an_end "StepTime" " = " "002" "00:10:00")); plain_step "Do 2" Absent; plain_step "Do 1" Absent; the_charge;
   plain_step "Loop 1" (Single (an_end "Loop Cnt" " = " "006" "10")); plain_step "Loop 2" (Single (an_end "Loop Cnt" " = " "007" "3")); plain_step "End" Absent].
Theorem C40_second_step_refuted : exists s' sts, convert nested = Ok (s', sts) /\ opens nested 1 5 "Do 2" /\
  step_has s' 5 ["Limit0"; "m_szGotoStep"]%string "4-charge" /\ step_has s' 3 ["m_szLabel"]%string "4-charge" /\ ~ step_has s' 2 ["m_szLabel"]%string "4-charge".
Proof.
  assert (OP : opens nested 1 5 "Do 2").
  { split; [lia|]. split; [eexists; split; reflexivity|]. intros j J (st & N & T). do 6 (destruct j as [|j]; [try lia; injection N as <-; discriminate T|]). lia. }
  destruct (convert nested) as [[s' sts]|] eqn:E; [|vm_compute in E; discriminate]. exists s', sts. split; [reflexivity|]. split; [exact OP|].
  pose proof E as E'. unfold convert in E'. pose proof (conv_distinct _ _ _ _ _ _ _ _ _ _ _ shell_distinct shell_steps shell_plain E') as D'. clear E'. unfold step_has. rewrite !(holds_get _ _ _ D').
  assert (X : forall p, get_keys ("Schedule"%string :: p) s' = got nested p) by (intro p; unfold got; rewrite E; reflexivity). rewrite !X. vm_compute. repeat split; discriminate.
Qed.
(** Finding: without an earlier loop the same search fails. *)
Theorem C40_do_at_the_start_refuted : exists p, opens p 1 3 "Do 1" /\ convert p = Err (OtherError "UnboundLocalError").
Proof.
  exists [plain_step "Rest" (Single (an_end "StepTime" " = " "002" "00:10:00")); plain_step "Do 1" Absent; the_charge; plain_step "Loop 1" (Single (an_end "Loop Cnt" " = " "005" "10")); plain_step "End" Absent].
  split; [|vm_compute; reflexivity]. split; [lia|]. split; [eexists; split; reflexivity|]. intros j J (st & N & T). do 4 (destruct j as [|j]; [try lia; injection N as <-; discriminate T|]). lia.
Qed.
(** Finding: with a single end condition the number of its fields is taken for the
    number of end conditions (366), so the limits are Limit0 and Limit5 of "2". *)
Definition logged_rest (reports : entries) : astep :=
  {| a_note := "rest"; a_type := "Rest"; a_mode := None; a_value := None; a_limits := None; a_ends := Single (an_end "StepTime" " = " "002" "00:10:00"); a_reports := reports |}.
Theorem C40_single_end_refuted : let p := [logged_rest (Single (a_report "Voltage" "0.01")); plain_step "End" Absent] in
  got p ["Step0"; "m_uLimitNum"]%string = Some (Leaf "2"%string) /\ got p ["Step0"; "Limit1"]%string = None /\ got p ["Step0"; "Limit5"; "Equation0_szLeft"]%string = Some (Leaf "DV_Voltage"%string).
Proof. vm_compute. repeat split. Qed.
(** Finding: with a single end condition, several reports are dropped (371). *)
Theorem C69_reports_dropped_refuted : let p := [logged_rest (Several [a_report "Voltage" "0.01"; a_report "StepTime" "00:00:30"]); plain_step "End" Absent] in
  got p ["Step0"; "m_uLimitNum"]%string = Some (Leaf "1"%string) /\ forall k, (1 <= k)%nat -> (exists s' sts, convert p = Ok (s', sts)) /\ got p ["Step0"%string; limit_name k] = None.
Proof.
  split; [vm_compute; reflexivity|]. intros k K. split; [do 2 eexists; vm_compute; reflexivity|].
  set (p := [logged_rest _; _]). assert (X : exists d, got p ["Step0"]%string = Some (Dict d) /\ Forall (fun kv => String.prefix "Limit" (fst kv) = true -> fst kv = limit_name 0) d).
  { eexists. split; [vm_compute; reflexivity|]. repeat (apply Forall_cons; [cbn [fst]; (discriminate || reflexivity || intros _; reflexivity)|]). apply Forall_nil. }
  destruct X as (d & G & F). unfold got in *. destruct (convert p) as [[n sts]|]; [|discriminate]. change ["Schedule"; "Step0"; limit_name k]%string with (["Schedule"; "Step0"]%string ++ [limit_name k]).
  change ("Schedule"%string :: ["Step0"%string; limit_name k]) with (["Schedule"; "Step0"]%string ++ [limit_name k]). rewrite get_app, G. cbn [get_keys]. destruct (sget d (limit_name k)) as [x|] eqn:E; [|reflexivity]. exfalso.
  assert (I : In (limit_name k, x) d) by (clear -E; unfold sget in E; induction d as [|[a w] d IH]; [discriminate|]; cbn [d_get] in E; destruct (String.eqb_spec (limit_name k) a) as [<-|]; [injection E as ->; left; reflexivity|right; auto]).
  rewrite Forall_forall in F. specialize (F _ I). cbn [fst] in F. assert (P : String.prefix "Limit" (limit_name k) = true) by (apply Proofs_Diagnostic.prefix_iff; eexists; reflexivity). apply F in P. apply limit_key_inj in P. lia.
Qed.
(** Finding: the conversion changes the procedure (292-309), so that it cannot be converted again. *)
Theorem C40_second_conversion_refuted : exists s' sts, convert procedure = Ok (s', sts) /\ convert sts = Err TypeError.
Proof. do 2 eexists. split; vm_compute; reflexivity. Qed.

(** ** C69: limits say what end conditions and reports say *)
(** Missing: a current at or above which a discharge ends; reports beside a single end condition. *)
Theorem C69_ends_become_limits_partial show steps cr v t c temp s names s' sts j st k e :
  distinct s -> steps_are s names -> plain_names names -> create_sdu show steps cr (v, t, c) temp s = Ok (s', sts) ->
  nth_error steps j = Some st -> end_at st k e -> sget e "EndType" <> Some "Loop Addendum"%string ->
  exists step goto left sign right, limit_is s' j k "1" "1" goto left sign right /\ says show s' j (a_type st) e left sign right /\
    sget e "Step" = Some step /\ forall n, integer step n -> (1 <= n)%Z -> leads_to s' j goto (Z.to_nat (n - 1)).
Proof. intros D SA PN H. exact (conv_ends show steps cr v t c temp s s' names sts D SA PN H j st k e). Qed.
Theorem C69_reports_become_limits_partial show steps cr v t c temp s names s' sts j st k r :
  distinct s -> steps_are s names -> plain_names names -> create_sdu show steps cr (v, t, c) temp s = Ok (s', sts) ->
  nth_error steps j = Some st -> report_at st k r -> In (sget r "ReportType") [Some "Voltage"; Some "Current"; Some "StepTime"]%string ->
  exists left sign right, limit_is s' j k "0" "1" "Next Step" left sign right /\ reports_same show r left sign right.
Proof. intros D SA PN H. exact (conv_reports show steps cr v t c temp s s' names sts D SA PN H j st k r). Qed.
Example C69_charge_ends : end_at the_charge 1 (an_end "Current" "<= " "006" "0.05") /\ end_at (plain_step "Loop 1" (Single (an_end "Loop Cnt" " = " "007" "10"))) 1 (an_end "Loop Cnt" " = " "007" "10") /\
  report_at the_discharge 2 (a_report "Current" "0.02") /\ integer "006" 6.
Proof.
  split; [left; eexists; split; reflexivity|]. split; [right; split; [reflexivity|]; left; split; [split; [reflexivity|left; reflexivity]|reflexivity]|].
  split; [eexists; split; [reflexivity|]; right; do 2 eexists; split; [reflexivity|]; split; [|instantiate (1 := 1%nat); reflexivity]; reflexivity|].
  apply Proofs_Numeral.integer_iff. reflexivity.
Qed.
Ltac digs := repeat split; try reflexivity; repeat constructor.
Example C69_times : duration_text "01:30:00.5" (54005 # 10) /\ duration_text "::.25" (1 # 4).
Proof.
  split; right.
  - exists "01:30:00"%string, "5"%string, 5400%Z, (1 # 2). split; [reflexivity|]. split; [left; exists "01"%string, "30"%string, "00"%string, 1%Z, 30%Z, 0%Z; split; [reflexivity|]|].
    + split; [exists [0; 1]%nat; digs|]. split; [exists [3; 0]%nat; digs|]. split; [exists [0; 0]%nat; digs|reflexivity].
    + split; [exists [5]%nat; digs|reflexivity].
  - exists "::"%string, "25"%string, 0%Z, (1 # 4). split; [reflexivity|]. split; [right; exists ""%string, []; digs|]. split; [exists [2; 5]%nat; digs|reflexivity].
Qed.
(** Finding: a discharge that ends at a current of 2 A or more ends at -2 A or more (447-449): at any smaller current. *)
Definition pulse : astep :=
  {| a_note := "pulse"; a_type := "Dischrge"; a_mode := Some "Voltage"%string; a_value := Some "2.7"%string; a_limits := None; a_ends := Several [an_end "Current" ">= " "002" "2"]; a_reports := Absent |}.
Theorem C69_discharge_at_or_above_refuted : let p := [pulse; plain_step "End" Absent] in
  got p ["Step0"; "Limit0"; "Equation0_szCompareSign"]%string = Some (Leaf ">="%string) /\ got p ["Step0"; "Limit0"; "Equation0_szRight"]%string = Some (Leaf "-2"%string) /\
  ~ compares ">=" (1 # 2) 2 /\ compares ">=" (- (1 # 2)) (- (2)).
Proof.
  split; [vm_compute; reflexivity|]. split; [vm_compute; reflexivity|]. unfold compares. split.
  - intros [[_ H]|[[H _]|[[H _]|[[H _]|[H _]]]]]; try discriminate H. vm_compute in H. apply H. reflexivity.
  - left. split; [reflexivity|]. vm_compute. discriminate.
Qed.
(** Finding: a rest of a day cannot be converted. *)
Theorem C69_a_day_refuted : convert [plain_step "Rest" (Single (an_end "StepTime" " = " "002" "24:00:00")); plain_step "End" Absent] = Err ValueError.
Proof. vm_compute. reflexivity. Qed.

(** ** C70: the rest of the schedule *)
Theorem C70_other_settings_stay show steps cr v t c temp s names s' sts :
  distinct s -> steps_are s names -> plain_names names -> create_sdu show steps cr (v, t, c) temp s = Ok (s', sts) ->
  (forall k p w, k <> "Schedule"%string -> (holds s' (k :: p) w <-> holds s (k :: p) w)) /\
  (forall k p w, ~ step_named k -> ~ In k scope_keys -> (temp = true -> k <> "m_AuxSafetyEnabled"%string) -> (holds s' ("Schedule" :: k :: p)%string w <-> holds s ("Schedule" :: k :: p)%string w)) /\
  (forall k p w, step_named k -> holds s' ("Schedule" :: k :: p)%string w -> exists j, (j < length steps)%nat /\ k = step_key j) /\
  (exists txt, holds s' ["Schedule"; "m_uStepNum"]%string txt /\ integer txt (Z.of_nat (length steps))) /\
  holds s' ["Schedule"; "m_VoltageSafetyScope"]%string v /\ holds s' ["Schedule"; "m_AuxTempSafetyScope"]%string t /\ holds s' ["Schedule"; "m_CurrentSafetyScope"]%string c.
Proof. intros D SA PN H. exact (conv_frame show steps cr v t c temp s s' names sts D SA PN H). Qed.
Theorem C70_steps_are_labelled show steps cr v t c temp s names s' sts j st :
  distinct s -> steps_are s names -> plain_names names -> create_sdu show steps cr (v, t, c) temp s = Ok (s', sts) -> nth_error steps j = Some st ->
  exists n, integer n (Z.of_nat j + 1) /\ names_step s' j (n ++ "-" ++ a_note st) /\ step_has s' j ["m_szCurrentRange"]%string cr.
Proof.
  intros D SA PN H N. exists (str_int (Z.of_nat j + 1)). split; [apply Proofs_Numeral.integer_iff; apply Proofs_Text.parse_str_int|].
  split; [exact (conv_label show steps cr v t c temp s s' names sts D SA PN H j st N)|exact (conv_range show steps cr v t c temp s s' names sts D SA PN H j st N)].
Qed.
Example C70_old_steps_go : got procedure ["Step9"]%string = None /\ got procedure ["UserDefineSafety0"; "m_szName"]%string = Some (Leaf "hot"%string) /\ got procedure ["m_szCreator"]%string = Some (Leaf "someone"%string) /\
  got procedure ["Step0"; "m_szLabel"]%string = Some (Leaf "1-None"%string) /\ got procedure ["m_uStepNum"]%string = Some (Leaf "7"%string).
Proof. vm_compute. repeat split. Qed.

(** ** C71: control *)
(** Missing: currents relative to the capacity together with a voltage limit. *)
Theorem C71_steps_control_the_same_partial show steps cr v t c temp s names s' sts j st ctrl x y :
  distinct s -> steps_are s names -> plain_names names -> create_sdu show steps cr (v, t, c) temp s = Ok (s', sts) -> nth_error steps j = Some st -> controls st ctrl x y ->
  step_has s' j ["m_szStepCtrlType"]%string ctrl /\ step_has s' j ["m_szCtrlValue"]%string x /\ step_has s' j ["m_szExtCtrlValue1"]%string y.
Proof. intros D SA PN H. exact (conv_controls show steps cr v t c temp s s' names sts D SA PN H j st ctrl x y). Qed.
Example C71_controls : controls the_charge "CCCV" "1.1" "4.2" /\ controls the_discharge "Voltage(V)" "2.7" "" /\ controls (plain_step "Do 1" Absent) "Set Variable(s)" "65536" "0" /\
  controls (plain_step "Loop 1" (Single [])) "Set Variable(s)" "0" "2".
Proof.
  split; [eapply (amps_up_to_volts the_charge "1.1" "1.1" _ "4.2"); try reflexivity; left; split; reflexivity|].
  split; [apply (in_volts the_discharge "2.7" "-2.7"); try reflexivity; right; split; reflexivity|].
  split; [apply (resets (plain_step "Do 1" Absent) 1 "Do 1"); try reflexivity; left; reflexivity|apply (counts (plain_step "Loop 1" (Single [])) 1 "Loop 1"); try reflexivity; left; reflexivity].
Qed.
(** Finding: half the capacity per hour with a voltage limit becomes half an ampere (234-241), as if the step said so. *)
Definition half (value : string) (ty : string) : astep :=
  {| a_note := "half"; a_type := ty; a_mode := Some "Current"%string; a_value := Some value; a_limits := Some [("Voltage", "4.2")]%string; a_ends := Several [an_end "Voltage" ">= " "002" "4.2"]; a_reports := Absent |}.
Theorem C71_c_rate_refuted : got [half "0.5C" "Charge"; plain_step "End" Absent] ["Step0"]%string = got [half "0.5" "Charge"; plain_step "End" Absent] ["Step0"]%string /\
  got [half "0.5C" "Charge"; plain_step "End" Absent] ["Step0"; "m_szStepCtrlType"]%string = Some (Leaf "CCCV"%string) /\ got [half "0.5C" "Charge"; plain_step "End" Absent] ["Step0"; "m_szCtrlValue"]%string = Some (Leaf "0.5"%string).
Proof. vm_compute. repeat split. Qed.
(** Finding: on discharge the voltage limit is lost as well (242-245). *)
Theorem C71_c_rate_limit_refuted : got [half "0.5C" "Dischrge"; plain_step "End" Absent] ["Step0"; "m_szExtCtrlValue1"]%string = Some (Leaf ""%string) /\
  got [half "0.5" "Dischrge"; plain_step "End" Absent] ["Step0"; "m_szExtCtrlValue1"]%string = Some (Leaf "4.2"%string).
Proof. vm_compute. split; reflexivity. Qed.

Print Assumptions C40_loops_jump_past_their_do_partial.
Print Assumptions C40_every_limit_is_counted.
Print Assumptions C40_limits_are_consecutive_partial.
Print Assumptions C40_second_step_refuted.
Print Assumptions C40_do_at_the_start_refuted.
Print Assumptions C40_single_end_refuted.
Print Assumptions C40_second_conversion_refuted.
Print Assumptions C69_ends_become_limits_partial.
Print Assumptions C69_reports_become_limits_partial.
Print Assumptions C69_reports_dropped_refuted.
Print Assumptions C69_discharge_at_or_above_refuted.
Print Assumptions C69_a_day_refuted.
Print Assumptions C70_other_settings_stay.
Print Assumptions C70_steps_are_labelled.
Print Assumptions C71_steps_control_the_same_partial.
Print Assumptions C71_c_rate_refuted.
Print Assumptions C71_c_rate_limit_refuted.

(** C45: protocol files from a table of parameters. *)
From Verif Require Import Py Num Model_Text Model_Procedure Template_V2 Template_V3 Template_V4 Template_V5 Template_Driving Template_EXP
  Spec_Procedure Proofs_Procedure_Templates Model_Waveform Model_Generate Spec_Generate Proofs_Generate Proofs_Datapath.

(** C45: each row of the table is either reported as generated, with the file named after its
    project and number, or as failed with the reason; both in the order of the table; the
    result is "success" exactly if every row could be generated; the message counts both. *)
Theorem C45_every_row_reported : forall templates formation with_diag diags profiles waves out names_file l w w' rep,
  generate_protocol_files_from_csv templates formation with_diag diags profiles waves out names_file l w = (w', Ok rep) ->
  exists names, reported templates out l (made_files rep) (failures rep) names /\
    sget (files w') (out ++ "/names/" ++ names_file) = Some (CNames names) /\
    (res rep = "success"%string <-> Forall (supported templates) l) /\ (res rep = "error"%string <-> exists r, In r l /\ ~ supported templates r) /\
    comment rep = ("Generated " ++ str_int (Z.of_nat (length (made_files rep))) ++ " of " ++ str_int (Z.of_nat (length l)) ++ " protocols")%string /\
    (length (made_files rep) + length (failures rep) = length l)%nat /\
    (error rep = ""%string <-> Forall (supported templates) l).
Proof.
  intros templates formation wd diags profiles waves out nf l w w' rep H. unfold generate_protocol_files_from_csv in H.
  destruct (do_rows _ _ _ _ _ _ _ 0 l w) as [w1 x] eqn:D. destruct (rows_spec _ _ _ _ _ _ _ l _ _ _ _ D) as (_ & _ & R). destruct x as [os|]; [|discriminate].
  destruct (R os eq_refl) as (_ & RP). exists (names os). assert (W : w' = write w1 (under out "names" nf) (CNames (names os))) by congruence.
  match type of H with (_, Ok ?y) = _ => assert (E : rep = y) by congruence; rewrite E; clear E H end. cbn [made_files failures res comment error].
  assert (L : (length (made os) + length (failed os) = length l)%nat) by (clear - RP; induction RP; cbn [length] in *; lia).
  assert (B : failed os = [] <-> Forall (supported templates) l).
  { clear - RP. induction RP; split; intros X; [constructor | reflexivity | constructor; [assumption | apply IHRP; exact X] | apply IHRP; exact (Forall_inv_tail X) | discriminate | apply Forall_inv in X; contradiction]. }
  assert (B2 : failed os <> [] <-> exists r, In r l /\ ~ supported templates r).
  { clear - RP. induction RP; split; intros X.
    - congruence.
    - destruct X as (r & [] & _).
    - apply IHRP in X as (r' & I & N). exists r'. split; [right; exact I | exact N].
    - destruct X as (r' & [<-|I] & N); [contradiction|]. apply IHRP. exists r'. auto.
    - exists r. split; [left; reflexivity | assumption].
    - discriminate. }
  split; [exact RP|]. split; [subst w'; cbn [write files]; rewrite sget_sset; change (out ++ "/names/" ++ nf)%string with (under out "names" nf); rewrite String.eqb_refl; reflexivity|].
  rewrite L. destruct (failed os) as [|b bs].
  - split; [split; [intros _; apply B; reflexivity | reflexivity]|]. split; [split; [discriminate | intros X; apply B2 in X; congruence]|]. split; [reflexivity|]. split; [reflexivity|]. split; [intros _; apply B; reflexivity | reflexivity].
  - split; [split; [discriminate | intros X; apply B in X; discriminate]|]. split; [split; [intros _; apply B2; discriminate | reflexivity]|]. split; [reflexivity|]. split; [reflexivity|].
    split; [discriminate | intros X; apply B in X; discriminate].
Qed.
(** C45: with distinct runs, the file of each row is the one that row asks for, whatever the other rows. *)
Theorem C45_each_row_gets_its_file : forall templates formation with_diag diags profiles waves out names_file l w w' rep,
  generate_protocol_files_from_csv templates formation with_diag diags profiles waves out names_file l w = (w', Ok rep) -> distinct_runs l ->
  forall k r f, nth_error l k = Some r -> supported templates r -> file_for out r f ->
  In f (made_files rep) /\ exists c, asks_for templates formation with_diag diags waves out (Z.of_nat k) r c /\ sget (files w') f = Some c.
Proof.
  intros templates formation wd diags profiles waves out nf l w w' rep H DR k r f K S F. unfold generate_protocol_files_from_csv in H.
  destruct (do_rows _ _ _ _ _ _ _ 0 l w) as [w1 x] eqn:D. destruct (rows_spec _ _ _ _ _ _ _ l _ _ _ _ D) as (_ & _ & R). destruct x as [os|]; [|discriminate].
  destruct (R os eq_refl) as (_ & RP). assert (W : w' = write w1 (under out "names" nf) (CNames (names os))) by congruence. apply file_path in F as ->.
  assert (M : made_files rep = made os) by (match type of H with (_, Ok ?y) = _ => assert (E : rep = y) by congruence; rewrite E; reflexivity end). split.
  - rewrite M. clear - RP K S. revert k K. induction RP as [|r0 l f0 s ok bad ns S0 F0 N0 RP IH|r0 l c e ok bad ns S0 RE RP IH]; intros k K; [destruct k; discriminate| |].
    + destruct k as [|k]; [injection K as ->; apply file_path in F0 as ->; left; reflexivity | right; exact (IH k K)].
    + destruct k as [|k]; [injection K as ->; contradiction | exact (IH k K)].
  - destruct (rows_contents _ _ _ _ _ _ _ l _ _ _ _ D DR k r K S) as (c & A & B). exists c. split; [exact A|]. subst w'. cbn [write files]. rewrite sget_sset.
    pose proof (path_no_names out nf r) as N. apply String.eqb_neq in N. rewrite N. exact B.
Qed.
(** C45: nothing else is written, not even if the generation fails. *)
Theorem C45_other_files_untouched : forall templates formation with_diag diags profiles waves out names_file l w w' x path,
  generate_protocol_files_from_csv templates formation with_diag diags profiles waves out names_file l w = (w', x) ->
  path <> (out ++ "/names/" ++ names_file)%string -> (forall r, In r l -> ~ file_for out r path) -> (forall r, In r l -> ~ wave_file_of out r path) ->
  sget (files w') path = sget (files w) path.
Proof.
  intros templates formation wd diags profiles waves out nf l w w' x path H N F WF. unfold generate_protocol_files_from_csv in H.
  destruct (do_rows _ _ _ _ _ _ _ 0 l w) as [w1 y] eqn:D. destruct (rows_spec _ _ _ _ _ _ _ l _ _ _ _ D) as (FR & _ & _).
  assert (E : sget (files w1) path = sget (files w) path).
  { apply FR; [intros r I E; subst; exact (F r I (path_file out r)) | intros r wp I Wp _ E; subst; exact (WF r I Wp)]. }
  rewrite <- E. destruct y as [os|e].
  - assert (W : w' = write w1 (under out "names" nf) (CNames (names os))) by congruence. subst w'. cbn [write files]. rewrite sget_sset. change (out ++ "/names/" ++ nf)%string with (under out "names" nf) in N.
    apply String.eqb_neq in N. rewrite N. reflexivity.
  - assert (w1 = w') as -> by congruence. reflexivity.
Qed.
(** C45: distinct runs have distinct files. *)
Theorem C45_file_names_distinct : forall out r r' f, file_for out r f -> file_for out r' f -> project_name r = project_name r' /\ seq_num r = seq_num r'.
Proof. intros out r r' f F F'. apply file_path in F, F'. apply (path_inj out). congruence. Qed.
(** C45: a row that needs a waveform finds its own in the waveform file, provided no other row
    uses the same file name. *)
Theorem C45_waveforms_partial : forall templates formation with_diag diags profiles waves out names_file l w w' rep,
  generate_protocol_files_from_csv templates formation with_diag diags profiles waves out names_file l w = (w', Ok rep) ->
  forall k r path, nth_error l k = Some r -> has_steps templates r 96 -> wave_file_of out r path -> own_wave templates out l k r ->
  exists segs, wave_for profiles waves (config w) r segs /\ sget (files w') path = Some (CWave segs).
Proof.
  intros templates formation wd diags profiles waves out nf l w w' rep H k r path K S Wp O. unfold generate_protocol_files_from_csv in H.
  destruct (do_rows _ _ _ _ _ _ _ 0 l w) as [w1 x] eqn:D. destruct x as [os|]; [|discriminate].
  assert (W : w' = write w1 (under out "names" nf) (CNames (names os))) by congruence. destruct (rows_waves _ _ _ _ _ _ _ l _ _ _ _ D k r path K S Wp O) as (segs & A & B).
  exists segs. split; [exact A|]. subst w'. cbn [write files]. rewrite sget_sset. pose proof (wave_no_names out nf r path Wp) as N. apply String.eqb_neq in N. rewrite N. exact B.
Qed.

(** ** The shipped templates *)
Definition shipped (name : string) : option steps :=
  if String.eqb name "EXP.000" then Some template_exp else if String.eqb name "diagnosticV2.000" then Some template_v2
  else if String.eqb name "diagnosticV3.000" then Some template_v3 else if String.eqb name "diagnosticV4.000" then Some template_v4
  else if String.eqb name "diagnosticV5.000" then Some template_v5 else if String.eqb name "drivingV1.000" then Some template_driving else None.
(** A row for one of the diagnostic templates with usable values. *)
Definition usable (with_diag : bool) (diags : list (string * diag_param)) (r : row) (d : diag_param) (t : steps) : Prop :=
  (template r = "diagnosticV2.000"%string /\ t = template_v2 \/
   ~ rapid r /\ ~ drive r /\ (template r = "diagnosticV3.000"%string /\ t = template_v3 \/ template r = "diagnosticV4.000"%string /\ t = template_v4 \/ template r = "diagnosticV5.000"%string /\ t = template_v5)) /\
  discharge_cutoff_voltage (reg r) < charge_cutoff_voltage (reg r) /\ ~ charge_constant_current_1 (reg r) == 0 /\
  diagnostics_of with_diag diags r d /\ ~ HPPC_baseline_constant_current d == 0.
(** the template with all documented places filled in from the row *)
Definition filled_in (i : Z) (r : row) (d : diag_param) (t p : steps) : Prop :=
  let cap := capacity_nominal (reg r) in
  (template r = "diagnosticV2.000"%string -> parameterised (regcycle_v2_writes (reg r) ++ diagnostic_writes cap d two_diagnostics) t p) /\
  (template r <> "diagnosticV2.000"%string -> parameterised (regcycle_v3_writes i (reg r) ++ diagnostic_writes cap d three_diagnostics) t p).
Lemma filter_only k d l l' : ~ In k (map fst l) -> ~ In k (map fst l') -> filter (fun x : string * diag_param => String.eqb (fst x) k) (l ++ (k, d) :: l') = [(k, d)].
Proof.
  intros A B. assert (N : forall m, ~ In k (map fst m) -> filter (fun x : string * diag_param => String.eqb (fst x) k) m = []).
  { induction m as [|[a b] m IH]; intros H; [reflexivity|]. cbn [filter fst]. destruct (String.eqb_spec a k) as [->|]; [exfalso; apply H; left; reflexivity | apply IH; intros X; apply H; right; exact X]. }
  induction l as [|[a b] l IH]; cbn [app filter fst].
  - rewrite String.eqb_refl, (N l' B). reflexivity.
  - destruct (String.eqb_spec a k) as [->|]; [exfalso; apply A; left; reflexivity | apply IH; intros X; apply A; right; exact X].
Qed.
Lemma diagnostics_found wd diags r d : diagnostics_of wd diags r d -> diagnostic_params wd diags r = Ok d.
Proof. intros (-> & l & l' & -> & A & B). unfold diagnostic_params. rewrite filter_only by assumption. reflexivity. Qed.
Lemma next_split x k p : next x k = (p, None) -> exists p0, x = (p0, None) /\ k p0 = (p, None).
Proof. destruct x as [p0 [e|]]; cbn [next]; [discriminate | intros H; exists p0; auto]. Qed.
Lemma lengths : length template_v2 = 72%nat /\ length template_v3 = 96%nat /\ length template_v4 = 96%nat /\ length template_v5 = 96%nat.
Proof. vm_compute. auto. Qed.
Lemma usable_row wd diags profiles waves formation out i r d t w : usable wd diags r d t ->
  exists p, do_row shipped formation wd diags profiles waves out i r w = (write w (path_of out r) (CProcedure p), Made (path_of out r)) /\ filled_in i r d t p.
Proof.
  intros (T & V & C & D & Hb). destruct lengths as (L2 & L3 & L4 & L5). pose proof (diagnostics_found _ _ _ _ D) as DF. destruct T as [(T & ->)|(NR & ND & T)].
  - destruct (whole_v2 (reg r) (capacity_nominal (reg r)) d V C Hb) as (p & N & P). apply next_split in N as (p0 & N1 & N2). exists p. split; [|split; [intros _; exact P | intros X; contradiction]].
    unfold do_row, path_of, with_diag, load. rewrite T. change (contains ".000" "diagnosticV2.000") with true. change (shipped "diagnosticV2.000") with (Some template_v2).
    cbv iota beta. rewrite L2. change (Nat.eqb 72 23) with false. change (Nat.eqb 72 72) with true. cbn [andb bind]. rewrite N1. cbn [done bind]. rewrite DF. cbn [bind]. rewrite N2. reflexivity.
  - assert (X : shipped (template r) = Some t /\ length t = 96%nat /\ usual_template t /\ contains ".000" (template r) = true /\ template r <> "diagnosticV2.000"%string /\ template r <> "formationV1.mps"%string).
    { destruct T as [(T & ->)|[(T & ->)|(T & ->)]]; rewrite T; (split; [reflexivity|]; split; [assumption|]; split; [unfold usual_template; auto|]; split; [reflexivity|]; split; discriminate). }
    destruct X as (S & L & U & C0 & N2 & NF). destruct (whole_v3 i (reg r) (capacity_nominal (reg r)) d t U V C Hb) as (p & N & P). apply next_split in N as (p0 & N1 & N3).
    exists p. split; [|split; [intros X; contradiction | intros _; exact P]].
    unfold do_row, path_of. rewrite C0, S. cbv iota beta zeta. rewrite L. change (Nat.eqb 96 23) with false. change (Nat.eqb 96 72) with false. change (Nat.eqb 96 96) with true. cbn [andb].
    unfold long_procedure. destruct (String.eqb_spec (project_name r) "RapidC") as [E|_]; [contradiction|]. destruct (String.eqb_spec (project_name r) "Drive") as [E|_]; [contradiction|].
    unfold with_diag. rewrite N1. cbn [done bind]. rewrite DF. cbn [bind]. rewrite N3. cbn [done bind]. apply String.eqb_neq in NF. rewrite NF. reflexivity.
Qed.
(** C45: a table of usable rows for the shipped diagnostic templates is generated completely,
    and each file is its template with every documented place filled in from its own row. *)
Theorem C45_shipped_templates : forall formation with_diag diags profiles waves out names_file l w,
  (forall r, In r l -> exists d t, usable with_diag diags r d t) -> distinct_runs l ->
  exists w' rep, generate_protocol_files_from_csv shipped formation with_diag diags profiles waves out names_file l w = (w', Ok rep) /\
    res rep = "success"%string /\ length (made_files rep) = length l /\
    forall k r f d t, nth_error l k = Some r -> file_for out r f -> usable with_diag diags r d t ->
      exists p, sget (files w') f = Some (CProcedure p) /\ filled_in (Z.of_nat k) r d t p.
Proof.
  intros formation wd diags profiles waves out nf l w Us DR.
  assert (DRS : forall i w, exists w' os, do_rows shipped formation wd diags profiles waves out i l w = (w', Ok os) /\ failed os = [] /\
    (forall k r d t, nth_error l k = Some r -> usable wd diags r d t -> exists p, sget (files w') (path_of out r) = Some (CProcedure p) /\ filled_in (i + Z.of_nat k) r d t p) /\
    (forall path, (forall r, In r l -> path <> path_of out r) -> sget (files w') path = sget (files w) path)).
  { clear w. induction l as [|r l IH]; intros i w.
    - exists w, []. split; [reflexivity|]. split; [reflexivity|]. split; [intros [|k]; discriminate | reflexivity].
    - inversion DR as [|? ? NI DR']; subst. destruct (Us r (or_introl eq_refl)) as (d0 & t0 & U0). destruct (usable_row wd diags profiles waves formation out i r d0 t0 w U0) as (p0 & R0 & _).
      destruct (IH (fun r' I => Us r' (or_intror I)) DR' (i + 1)%Z (write w (path_of out r) (CProcedure p0))) as (w' & os & D & F & K & FR).
      exists w', ((r, Made (path_of out r)) :: os). cbn [do_rows]. rewrite R0, D. cbn [bind]. split; [reflexivity|]. split; [exact F|]. split.
      + intros [|k] r1 d t E U1; cbn [nth_error] in E.
        * injection E as <-. destruct (usable_row wd diags profiles waves formation out i r d t w U1) as (p & R1 & P). exists p. split; [|rewrite Z.add_0_r; exact P].
          rewrite FR.
          -- cbn [write files]. rewrite sget_sset, String.eqb_refl. rewrite R0 in R1. injection R1 as R1. apply (f_equal (fun x => sget x (path_of out r))) in R1. rewrite !sget_sset, String.eqb_refl in R1. exact R1.
          -- intros r' I E. apply path_inj in E as (E1 & E2). apply NI, in_map_iff. exists r'. split; [congruence | exact I].
        * destruct (K k r1 d t E U1) as (p & A & B). exists p. split; [exact A|]. replace (i + Z.of_nat (S k))%Z with (i + 1 + Z.of_nat k)%Z by lia. exact B.
      + intros path P. rewrite FR; [|intros r' I; apply P; right; exact I]. cbn [write files]. rewrite sget_sset. specialize (P r (or_introl eq_refl)). apply String.eqb_neq in P. rewrite P. reflexivity. }
  destruct (DRS 0%Z w) as (w1 & os & D & F & K & _). pose proof (rows_spec _ _ _ _ _ _ _ l _ _ _ _ D) as (_ & _ & RS). destruct (RS os eq_refl) as (_ & RP).
  assert (LM : length (made os) = length l) by (rewrite F in RP; clear - RP; remember [] as b; induction RP; try discriminate; cbn [length]; auto).
  unfold generate_protocol_files_from_csv. rewrite D, F. eexists _, _. split; [reflexivity|]. split; [reflexivity|]. split; [exact LM|].
  intros k r f d t E FF U1. apply file_path in FF as ->. destruct (K k r d t E U1) as (p & A & B). exists p. split; [|exact B]. cbn [write files]. rewrite sget_sset.
  pose proof (path_no_names out nf r) as N. apply String.eqb_neq in N. rewrite N. exact A.
Qed.

(** ** Findings *)
Definition sample_reg : reg_param :=
  {| charge_constant_current_1 := 1; charge_percent_limit_1 := 30; charge_constant_current_2 := 2; charge_cutoff_voltage := 42 # 10;
     charge_constant_voltage_time := 30; charge_rest_time := 5; discharge_constant_current := 1;
     discharge_cutoff_voltage := 27 # 10; discharge_rest_time := 15; capacity_nominal := 484 # 100;
     diagnostic_start_cycle := 30; diagnostic_interval := 100 |}.
Definition inverted_reg : reg_param :=
  {| charge_constant_current_1 := 1; charge_percent_limit_1 := 30; charge_constant_current_2 := 2; charge_cutoff_voltage := 27 # 10;
     charge_constant_voltage_time := 30; charge_rest_time := 5; discharge_constant_current := 1;
     discharge_cutoff_voltage := 42 # 10; discharge_rest_time := 15; capacity_nominal := 484 # 100;
     diagnostic_start_cycle := 30; diagnostic_interval := 100 |}.
Definition sample_diag : diag_param :=
  {| reset_cycle_current := 1 # 20; reset_cycle_cutoff_current := 1 # 100; diagnostic_charge_cutoff_voltage := 42 # 10; diagnostic_discharge_cutoff_voltage := 27 # 10;
     diagnostic_cutoff_current := 1 # 20; HPPC_baseline_constant_current := 1 # 2; HPPC_rest_time := 60; HPPC_pulse_current_1 := 2; HPPC_pulse_duration_1 := 10;
     HPPC_pulse_rest_time := 40; HPPC_pulse_current_2 := 3 # 2; HPPC_pulse_duration_2 := 10; HPPC_pulse_cutoff_voltage := 42 # 10; HPPC_interval := 10;
     RPT_charge_constant_current := 1; RPT_discharge_constant_current_1 := 1 # 5; RPT_discharge_constant_current_2 := 1; RPT_discharge_constant_current_3 := 2 |}.
Definition a_row (project : string) (n : nat) (t : string) (g : reg_param) (limit : Q) : row :=
  {| project_name := project; seq_num := n; template := t; cutoff_voltage := VNum (36 # 10); charge_rate := VNum 1; discharge_rate := VNum 2; reg := g;
     diagnostic_parameter_set := "Tesla21700"; charge_type_1 := "step"; charge_current_param_4 := 1; charge_fast_soc_limit := 8 # 10;
     discharge_profile := "US06"; row_power := 40; row_scaling := 5 # 10; row_limit := limit; row_repeats := 1 |}.
Definition diags1 : list (string * diag_param) := [("Tesla21700"%string, sample_diag)].
Definition defaults : mwf_config :=
  {| control_mode := "P"; value_scale := 1; charge_limit_mode := "V"; charge_limit_value := 42 # 10; discharge_limit_mode := "V"; discharge_limit_value := 27 # 10;
     charge_end_mode := "V"; charge_end_operation := ">="; charge_end_mode_value := 425 # 100; discharge_end_mode := "V"; discharge_end_operation := "<="; discharge_end_mode_value := 25 # 10;
     report_mode := "T"; report_value := 3; range := "A" |}.
Definition start : world := {| files := []; config := defaults |}.
Definition sample_run (l : list row) : world * result report :=
  generate_protocol_files_from_csv shipped (fun _ => Ok "BT-LAB SETTING FILE"%string) true diags1 (fun _ => Ok [(0, 1); (1, - (2))]) (fun _ => Err NotImplementedError) "out" "p_names.csv" l start.
(** Finding (C45): a row that cannot be generated (here with the cutoff voltages the wrong way
    round) ends the generation without a report; the files of the rows before it have been
    written, but no list of names. *)
Theorem C45_failing_row_reported_refuted : exists w',
  sample_run [a_row "Pred" 1 "diagnosticV3.000" sample_reg 4; a_row "Pred" 2 "diagnosticV3.000" inverted_reg 4; a_row "Pred" 3 "diagnosticV3.000" sample_reg 4] = (w', Err AssertionError) /\
  map fst (files w') = ["out/procedures/Pred_000001.000"]%string.
Proof. eexists. split; [vm_compute; reflexivity | reflexivity]. Qed.
(** Finding (C45): two rows with the same project and number are both reported as generated,
    but there is one file, that of the last. *)
Theorem C45_duplicates_refuted : exists w' rep,
  sample_run [a_row "Pred" 1 "EXP.000" sample_reg 4; a_row "Pred" 1 "diagnosticV3.000" sample_reg 4] = (w', Ok rep) /\
  res rep = "success"%string /\ comment rep = "Generated 2 of 2 protocols"%string /\ made_files rep = ["out/procedures/Pred_000001.000"; "out/procedures/Pred_000001.000"]%string /\
  map fst (files w') = ["out/procedures/Pred_000001.000"; "out/names/p_names.csv"]%string /\
  exists p, sget (files w') "out/procedures/Pred_000001.000" = Some (CProcedure p) /\ length p = 96%nat.
Proof. eexists _, _. split; [vm_compute; reflexivity|]. split; [reflexivity|]. split; [reflexivity|]. split; [reflexivity|]. split; [reflexivity|]. eexists. split; reflexivity. Qed.
(** Finding (C45): every template of 72 steps, diagnosticV1.000 for instance, gives the
    procedure of diagnosticV2.000: the template named in the row is not used. *)
Theorem C45_named_template_used_refuted : forall templates formation with_diag diags profiles waves out i r w name,
  has_steps templates r 72 -> has ".000" name -> (exists t, templates name = Some t /\ length t = 72%nat) ->
  let r' := {| project_name := project_name r; seq_num := seq_num r; template := name; cutoff_voltage := cutoff_voltage r; charge_rate := charge_rate r; discharge_rate := discharge_rate r; reg := reg r;
               diagnostic_parameter_set := diagnostic_parameter_set r; charge_type_1 := charge_type_1 r; charge_current_param_4 := charge_current_param_4 r; charge_fast_soc_limit := charge_fast_soc_limit r;
               discharge_profile := discharge_profile r; row_power := row_power r; row_scaling := row_scaling r; row_limit := row_limit r; row_repeats := row_repeats r |} in
  do_row templates formation with_diag diags profiles waves out i r' w = do_row templates formation with_diag diags profiles waves out i r w.
Proof.
  intros templates formation wd diags profiles waves out i r w name (C & t & T & L) C' (t' & T' & L') r'. unfold do_row, r'. cbn [template]. apply has_iff in C, C'. rewrite C, C', T, T'. cbv iota beta zeta. rewrite L, L'. reflexivity.
Qed.
(** Finding (C45): the waveform file of a driving protocol is named after profile, repetitions
    and whole watts only, so rows with different voltage limits share one file: the first
    procedure is left with the limits of the second row. *)
Theorem C45_waveforms_refuted : exists w' rep segs,
  let r1 := a_row "Drive" 1 "drivingV1.000" sample_reg (41 # 10) in
  sample_run [r1; a_row "Drive" 2 "drivingV1.000" sample_reg 3] = (w', Ok rep) /\ res rep = "success"%string /\
  wave_file_of "out" r1 "out/mwf_files/US06_x1_20W.MWF" /\ sget (files w') "out/mwf_files/US06_x1_20W.MWF" = Some (CWave segs) /\
  row_limit r1 = 41 # 10 /\ Forall (fun s => sg_state s = "C"%string -> sg_limit_value s = 3) segs /\ exists s, In s segs /\ sg_state s = "C"%string.
Proof.
  eexists _, _, _. cbv zeta. split; [vm_compute; reflexivity|]. split; [reflexivity|]. split; [right; split; vm_compute; reflexivity|]. split; [reflexivity|]. split; [reflexivity|].
  split; [repeat constructor; cbn; congruence|]. eexists. split; [left; reflexivity | reflexivity].
Qed.
(** cases *)
Example table_case : exists w' rep, sample_run [a_row "Pred" 1 "diagnosticV3.000" sample_reg 4; a_row "Form" 2 "formationV1.mps" sample_reg 4; a_row "Pred" 3 "old.sdu" sample_reg 4; a_row "Pred" 4 "none.000" sample_reg 4] = (w', Ok rep) /\
  made_files rep = ["out/procedures/Pred_000001.000"; "out/settings/Form_000002.mps"]%string /\
  failures rep = [("Schedule file generation is not yet implemented", "Not Implemented"); ("Unable to find template: none.000", "Not Found")]%string /\ res rep = "error"%string /\ comment rep = "Generated 2 of 4 protocols"%string.
Proof. eexists _, _. split; [vm_compute; reflexivity|]. repeat split. Qed.
Example usable_case : usable true diags1 (a_row "Pred" 1 "diagnosticV4.000" sample_reg 4) sample_diag template_v4 /\ distinct_runs [a_row "Pred" 1 "diagnosticV4.000" sample_reg 4; a_row "Pred" 2 "diagnosticV2.000" sample_reg 4].
Proof.
  split.
  - split; [right; split; [discriminate|]; split; [discriminate|]; right; left; split; reflexivity|]. split; [reflexivity|]. split; [discriminate|]. split; [|discriminate].
    split; [reflexivity|]. exists [], []. split; [reflexivity|]. split; intros [].
  - repeat constructor; cbn; intuition discriminate.
Qed.

Print Assumptions C45_every_row_reported.
Print Assumptions C45_each_row_gets_its_file.
Print Assumptions C45_other_files_untouched.
Print Assumptions C45_file_names_distinct.
Print Assumptions C45_waveforms_partial.
Print Assumptions C45_shipped_templates.
Print Assumptions C45_failing_row_reported_refuted.
Print Assumptions C45_duplicates_refuted.
Print Assumptions C45_named_template_used_refuted.
Print Assumptions C45_waveforms_refuted.

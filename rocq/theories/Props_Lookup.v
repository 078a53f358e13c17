(** C90-C93: the parameters of a run, its charging protocol, its diagnostics and their steps. *)
From Coq Require Import Qabs Lqa.
From Verif Require Import Py Num Model_Text Model_Cmd Model_Diagnostic Model_Summary Model_Features Proofs_Text Proofs_Generate Proofs_Frames Proofs_Structure Proofs_Strings.
From Verif Require Import Proofs_M2A.
From Verif Require Model_Generate.
From Verif Require Import Model_Lookup Spec_Lookup Proofs_Lookup.

(** ** C90: the parameters of a run are those of the row of its number in the file of its project *)
Theorem C90_row_of_the_run : forall p n k dir t r path,
  plain p -> plain n -> parse_int n = Some k -> run_file p n path -> only_file dir p t ->
  NoDup (map p_seq (p_rows t)) -> In r (p_rows t) -> p_seq r = k ->
  get_protocol_parameters dir path = Ok (Some ([r], t)).
Proof.
  intros p n k dir t r path P N K R O ND I <-. rewrite (lookup_only p n (p_seq r) dir t path) by assumption.
  rewrite filter_one by assumption. reflexivity.
Qed.
(** None when the project has no file or its file no row of that number. *)
Theorem C90_nothing_found : forall p n k dir path,
  plain p -> plain n -> parse_int n = Some k -> run_file p n path ->
  Forall (fun e => ~ begins p (fst e)) dir \/ (exists t, only_file dir p t /\ forall r, In r (p_rows t) -> p_seq r <> k) ->
  get_protocol_parameters dir path = Ok None.
Proof.
  intros p n k dir path P N K R [F|(t & O & H)].
  - unfold get_protocol_parameters. destruct (run_sequence p n path P N R) as (rest & ->). cbn [hd]. rewrite (glob_none dir p P F). reflexivity.
  - rewrite (lookup_only p n k dir t path) by assumption. rewrite filter_zero by exact H. reflexivity.
Qed.
(** Neither the directory of the file nor what follows the number matters. *)
Theorem C90_place_and_ending : forall p n dir path path', plain p -> plain n -> run_file p n path -> run_file p n path' ->
  get_protocol_parameters dir path = get_protocol_parameters dir path'.
Proof.
  intros p n dir path path' P N R R'. unfold get_protocol_parameters.
  destruct (run_sequence p n path P N R) as (rest & ->). destruct (run_sequence p n path' P N R') as (rest' & ->). reflexivity.
Qed.
(** The files generated from a table are found again: whatever the cycler appends to the name of the
    generated file and wherever the data are put, the row the file was generated from is found. *)
Theorem C90_generated_files : forall g tail dir t r place,
  plain (Model_Generate.project_name g) -> ending tail -> only_file dir (Model_Generate.project_name g) t ->
  NoDup (map p_seq (p_rows t)) -> In r (p_rows t) -> p_seq r = Z.of_nat (Model_Generate.seq_num g) ->
  get_protocol_parameters dir (place ++ "/" ++ Model_Generate.filename_prefix g ++ tail) = Ok (Some ([r], t)).
Proof.
  intros g tail dir t r place P T O ND I E. pose proof (zfill_digits 6 (Z.of_nat (Model_Generate.seq_num g)) ltac:(lia)) as (ds & Z & F).
  apply (C90_row_of_the_run (Model_Generate.project_name g) (zfill 6 (str_int (Z.of_nat (Model_Generate.seq_num g)))) (Z.of_nat (Model_Generate.seq_num g))); try assumption.
  - split; [|rewrite Z; repeat split; apply digits_separate; try exact F; cbn; tauto].
    intros EZ. pose proof (parse_zfill 6 (Z.of_nat (Model_Generate.seq_num g)) ltac:(lia)) as PZ. rewrite EZ in PZ. discriminate.
  - apply parse_zfill. lia.
  - exists tail. split; [exact T|]. right. exists place. unfold Model_Generate.filename_prefix. rewrite !app_assoc_s. reflexivity.
Qed.
(** Finding (C90): a project whose name begins the name of another project's file is not found at
    all: the lookup ends with an AssertionError for every run of the project. *)
Theorem C90_shared_beginning_refuted : forall p n path dir a b e1 c e2,
  plain p -> plain n -> run_file p n path -> dir = a ++ e1 :: b ++ e2 :: c -> begins p (fst e1) -> begins p (fst e2) ->
  get_protocol_parameters dir path = Err AssertionError.
Proof.
  intros p n path dir a b e1 c e2 P N R -> B1 B2. unfold get_protocol_parameters. destruct (run_sequence p n path P N R) as (rest & ->). cbn [hd].
  unfold glob. rewrite filter_app. cbn [filter]. rewrite (proj2 (matches_begins _ _ P) B1), filter_app. cbn [filter]. rewrite (proj2 (matches_begins _ _ P) B2).
  set (f := fun e : string * option ptable => matches p (fst e)). clearbody f. destruct e1 as [f1 c1], e2 as [f2 c2].
  destruct (filter f a) as [|[x1 x2] xs]; [|destruct xs; reflexivity]. cbn [app]. destruct (filter f b) as [|[y1 y2] ys]; reflexivity.
Qed.
Definition row_of (k : Z) (v : Q) : prow := {| p_seq := k; p_cells := [Number v] |}.
Definition table_of (rows : list prow) : ptable := {| p_columns := ["capacity_nominal"%string]; p_rows := rows |}.
(** Finding (C90): "single row" is not checked: every row of that number is returned. *)
Theorem C90_single_row_refuted : exists t, well_formed t /\
  get_protocol_parameters [("Form_parameters.csv"%string, Some t)] "Form_000003.csv" = Ok (Some ([row_of 3 1; row_of 3 2], t)).
Proof.
  exists (table_of [row_of 3 1; row_of 4 1; row_of 3 2]). split; [|reflexivity]. split; [repeat constructor; intros []|]. split; [intros [H|[]]; discriminate | repeat constructor].
Qed.
Definition some_row : Model_Generate.row :=
  {| Model_Generate.project_name := "New_Cell"; Model_Generate.seq_num := 7; Model_Generate.template := "diagnosticV3.000";
     Model_Generate.cutoff_voltage := Model_Procedure.VNum 4; Model_Generate.charge_rate := Model_Procedure.VNum 1; Model_Generate.discharge_rate := Model_Procedure.VNum 1;
     Model_Generate.reg := Model_Procedure.Build_reg_param 1 1 1 4 1 1 1 3 1 1 30 100; Model_Generate.diagnostic_parameter_set := "A";
     Model_Generate.charge_type_1 := ""; Model_Generate.charge_current_param_4 := 1; Model_Generate.charge_fast_soc_limit := 1;
     Model_Generate.discharge_profile := ""; Model_Generate.row_power := 1; Model_Generate.row_scaling := 1; Model_Generate.row_limit := 1; Model_Generate.row_repeats := 1 |}.
(** Finding (C90): project names with an underscore are accepted when files are generated, but their
    runs are not found, although the file is there. *)
Theorem C90_project_name_refuted : exists g t, Model_Generate.project_name g = "New_Cell"%string /\ In (row_of 7 1) (p_rows t) /\ Model_Generate.seq_num g = 7%nat /\
  only_file [("New_Cell_parameters.csv"%string, Some t)] (Model_Generate.project_name g) t /\
  get_protocol_parameters [("New_Cell_parameters.csv"%string, Some t)] (Model_Generate.filename_prefix g) = Err ValueError.
Proof.
  exists some_row, (table_of [row_of 7 1]).
  split; [reflexivity|]. split; [left; reflexivity|]. split; [reflexivity|]. split; [|vm_compute; reflexivity].
  exists [], "New_Cell_parameters.csv"%string, []. split; [reflexivity|]. split; [exists "_parameters.csv"%string; reflexivity | constructor].
Qed.
(** C90: the voltages of a diagnostic parameter set are those of its first row; 2.7 and 4.2 without a file. *)
Theorem C90_diagnostic_voltages : forall p dir t set a r b lo hi,
  plain p -> well_formed t -> column t "diagnostic_parameter_set" -> only_file dir p t -> p_rows t = a ++ r :: b ->
  holds t "diagnostic_parameter_set" r (Text set) -> Forall (fun x => ~ holds t "diagnostic_parameter_set" x (Text set)) a ->
  holds t "diagnostic_discharge_cutoff_voltage" r lo -> holds t "diagnostic_charge_cutoff_voltage" r hi ->
  get_diagnostic_parameters dir set p = Ok (lo, hi).
Proof.
  intros p dir t set a r b lo hi P W C O E H NA L U. unfold get_diagnostic_parameters. destruct (glob_only dir p t P O) as (f & ->). cbn [read_csv bind].
  destruct (mapM_total (value t "diagnostic_parameter_set") (p_rows t)) as (vs & M); [intros x I; apply value_total; assumption|]. rewrite M. cbn [bind].
  assert (I : In r (p_rows t)) by (rewrite E; apply in_or_app; right; left; reflexivity).
  assert (G : forall l vs, mapM (value t "diagnostic_parameter_set") l = Ok vs -> incl l (p_rows t) -> forall a, l = a ++ r :: b -> Forall (fun x => ~ holds t "diagnostic_parameter_set" x (Text set)) a ->
    exists rest, map fst (filter (fun q => match snd q with Text s => String.eqb s set | _ => false end) (combine l vs)) = r :: rest).
  { clear M vs E NA a. intros l vs M. apply mapM_ok in M. induction M as [|x v l vs V M IH]; intros S a E NA; [destruct a; discriminate|].
    destruct a as [|x' a]; injection E as -> E.
    - apply value_holds in H; [|exact W|exact I]. rewrite H in V. injection V as <-. cbn [combine filter snd]. rewrite String.eqb_refl. cbn [map fst]. eauto.
    - inversion NA as [|? ? N1 N2]; subst. cbn [combine filter snd]. destruct v; try (apply (IH (fun z Z => S z (or_intror Z)) a eq_refl N2)).
      destruct (String.eqb_spec s set) as [->|NE]; [|apply (IH (fun z Z => S z (or_intror Z)) a eq_refl N2)].
      destruct N1. apply value_holds; [exact W | apply S; left; reflexivity | exact V]. }
  destruct (G _ _ M (incl_refl _) a E NA) as (rest & ->). cbn [first_value].
  apply value_holds in L; [|assumption..]. apply value_holds in U; [|assumption..]. rewrite L. cbn [bind]. rewrite U. reflexivity.
Qed.
Theorem C90_default_voltages : forall p dir set, plain p -> Forall (fun e => ~ begins p (fst e)) dir -> get_diagnostic_parameters dir set p = Ok (Number (27 # 10), Number (42 # 10)).
Proof. intros p dir set P F. unfold get_diagnostic_parameters. rewrite (glob_none dir p P F). reflexivity. Qed.

(** ** C91: the charging protocol features of a run *)
Definition source (paths : list (string * string)) (path : string) : Prop :=
  sget paths "raw" = Some path \/ sget paths "raw" = None /\ sget paths "structured" = Some path.
Theorem C91_charging_protocol : forall p n k dir t r paths path quantities,
  plain p -> plain n -> parse_int n = Some k -> source paths path -> run_file p n path -> only_file dir p t -> well_formed t ->
  NoDup (map p_seq (p_rows t)) -> In r (p_rows t) -> p_seq r = k -> Forall (column t) quantities ->
  exists values, charging_features dir quantities paths = Ok [values] /\ Forall2 (fun c v => holds t c r v) quantities values.
Proof.
  intros p n k dir t r paths path quantities P N K S R O W ND I E C.
  destruct (mapM_total (fun c => value t c r) quantities) as (vs & M).
  { intros c J. apply value_total; [exact W | exact I | exact (proj1 (Forall_forall _ _) C c J)]. }
  exists vs. split.
  - unfold charging_features. assert (X : (match sget paths "raw" with Some p => Ok p | None => match sget paths "structured" with Some p => Ok p | None => Err KeyError end end) = Ok path)
      by (destruct S as [->|(-> & ->)]; reflexivity).
    rewrite X. cbn [bind]. rewrite (C90_row_of_the_run p n k dir t r path) by assumption. cbn [bind].
    assert (F : forallb (has_column t) quantities = true) by (apply forallb_forall; intros c J; apply has_column_iff; exact (proj1 (Forall_forall _ _) C c J)).
    rewrite F. cbn [mapM]. rewrite M. reflexivity.
  - apply mapM_ok in M. clear C. induction M; constructor; [apply value_holds; assumption | assumption].
Qed.
(** A quantity that is not a column is an error, not an empty feature. *)
Theorem C91_unknown_quantity : forall p n k dir t r paths path quantities c,
  plain p -> plain n -> parse_int n = Some k -> source paths path -> run_file p n path -> only_file dir p t ->
  NoDup (map p_seq (p_rows t)) -> In r (p_rows t) -> p_seq r = k -> In c quantities -> ~ column t c ->
  charging_features dir quantities paths = Err KeyError.
Proof.
  intros p n k dir t r paths path quantities c P N K S R O ND I E J NC. unfold charging_features.
  assert (X : (match sget paths "raw" with Some p => Ok p | None => match sget paths "structured" with Some p => Ok p | None => Err KeyError end end) = Ok path)
    by (destruct S as [->|(-> & ->)]; reflexivity).
  rewrite X. cbn [bind]. rewrite (C90_row_of_the_run p n k dir t r path) by assumption. cbn [bind].
  destruct (forallb (has_column t) quantities) eqn:F; [|reflexivity]. rewrite forallb_forall in F. specialize (F c J). apply has_column_iff in F. contradiction.
Qed.
(** The features accept a run exactly when one of the two files is named, the run has the diagnostic
    data, and its diagnostic summary has at least one row. *)
Theorem C91_accepted : forall paths has_both summary,
  charging_validate paths has_both summary = true <->
  (In "raw"%string (map fst paths) \/ In "structured"%string (map fst paths)) /\ has_both = true /\ exists n, summary = Some n /\ (0 < n)%nat.
Proof.
  intros paths b s. unfold charging_validate, check_diagnostic_validation. rewrite <- !smem_iff.
  destruct (smem paths "raw"), (smem paths "structured"), b, s as [[|n]|]; cbn; split; intros H; try discriminate;
    try (destruct H as ([H|H] & ? & n' & E & L); try discriminate; injection E as <-; inversion L);
    try (split; [auto|split; [reflexivity|exists (S n); split; [reflexivity|apply Nat.lt_0_succ]]]); reflexivity.
Qed.
(** Finding (C91): a run reported as valid may have no parameters; then the features end in a
    TypeError, whatever the directory. *)
Theorem C91_valid_refuted : forall dir quantities p n k path rows,
  plain p -> plain n -> parse_int n = Some k -> run_file p n path -> Forall (fun e => ~ begins p (fst e)) dir ->
  let paths := [("raw"%string, path)] in
  charging_validate paths true (Some (S rows)) = true /\ charging_features dir quantities paths = Err TypeError.
Proof.
  intros dir quantities p n k path rows P N K R F paths. split; [reflexivity|]. unfold charging_features, paths. cbn [sget d_get String.eqb Ascii.eqb Bool.eqb bind].
  rewrite (C90_nothing_found p n k) by (try assumption; left; assumption). reflexivity.
Qed.

(** ** C92: structuring parameters of a run *)
Theorem C92_from_the_parameters : forall p n k dir t r path raw v res nom full out,
  plain p -> plain n -> parse_int n = Some k -> run_file p n path -> only_file dir p t -> well_formed t ->
  NoDup (map p_seq (p_rows t)) -> In r (p_rows t) -> p_seq r = k ->
  determine_structuring_parameters (Some dir) path raw v res nom full = Ok out ->
  sp_resolution out = res /\ sp_full out = full /\
  (column t "capacity_nominal" -> exists c, holds t "capacity_nominal" r c /\ sp_nominal out = cell_num c) /\ (~ column t "capacity_nominal" -> sp_nominal out = nom) /\
  (column t "discharge_cutoff_voltage" /\ column t "charge_cutoff_voltage" ->
     exists lo hi, sp_v_range out = Some (lo, hi) /\ lowest t "discharge_cutoff_voltage" lo /\ highest t "charge_cutoff_voltage" hi) /\
  (~ (column t "discharge_cutoff_voltage" /\ column t "charge_cutoff_voltage") -> sp_v_range out = v) /\
  (sp_diag out <> None <-> column t "diagnostic_start_cycle" /\ column t "diagnostic_interval" /\ holds t "diagnostic_type" r (Text "HPPC+RPT")) /\
  (forall d, sp_diag out = Some d -> av_types d = ["reset"; "hppc"; "rpt_0.2C"; "rpt_1C"; "rpt_2C"]%string /\ av_length d = 5%nat /\ holds t "diagnostic_parameter_set" r (av_set d) /\
     NoDup (av_starts d) /\ exists start, holds t "diagnostic_start_cycle" r (Number start) /\ forall c, In c (av_starts d) <-> diagnostic_start raw (Qfloor start) c).
Proof.
  intros p n k dir t r path raw v res nom full out P N K R O W ND I E. unfold determine_structuring_parameters.
  rewrite (C90_row_of_the_run p n k dir t r path) by assumption. cbn [bind first_value].
  destruct (if has_column t "capacity_nominal" then _ else _) as [nom'|] eqn:HN; [|discriminate]. cbn [bind].
  destruct (if has_column t "discharge_cutoff_voltage" && _ then _ else _) as [v'|] eqn:HV; [|discriminate]. cbn [bind].
  destruct (if has_column t "diagnostic_type" && _ && _ then _ else _) as [diag|] eqn:HD; [|discriminate]. cbn [bind]. intros [= <-]. cbn [sp_resolution sp_full sp_nominal sp_v_range sp_diag].
  split; [reflexivity|]. split; [reflexivity|]. split; [|split]; [| |split; [|split; [|split]]].
  - intros C. apply has_column_iff in C. rewrite C in HN. destruct (value t "capacity_nominal" r) as [c|] eqn:V; [|discriminate]. injection HN as <-. exists c. split; [apply value_holds; assumption | reflexivity].
  - intros C. destruct (has_column t "capacity_nominal") eqn:B; [apply has_column_iff in B; contradiction|]. injection HN as <-. reflexivity.
  - intros (C1 & C2). apply has_column_iff in C1, C2. rewrite C1, C2 in HV. cbn [andb] in HV.
    destruct (mapM (value t "discharge_cutoff_voltage") (p_rows t)) as [lo|] eqn:ML; [|discriminate]. cbn [bind] in HV.
    destruct (mapM (value t "charge_cutoff_voltage") (p_rows t)) as [hi|] eqn:MH; [|discriminate]. cbn [bind] in HV. injection HV as <-.
    exists (col_min (map cell_num lo)), (col_max (map cell_num hi)). split; [reflexivity|]. split; [apply col_lowest; assumption | apply col_highest; assumption].
  - intros C. destruct (has_column t "discharge_cutoff_voltage" && has_column t "charge_cutoff_voltage") eqn:B; [|injection HV as <-; reflexivity].
    apply andb_true_iff in B as (B1 & B2). apply has_column_iff in B1, B2. tauto.
  - destruct (has_column t "diagnostic_type" && has_column t "diagnostic_start_cycle" && has_column t "diagnostic_interval") eqn:B.
    + apply andb_true_iff in B as (B & B3). apply andb_true_iff in B as (B1 & B2). apply has_column_iff in B1, B2, B3.
      destruct (value t "diagnostic_type" r) as [ty|] eqn:V; [|discriminate]. cbn [bind] in HD. apply value_holds in V; [|assumption..].
      assert (X : ty <> Text "HPPC+RPT" -> ~ holds t "diagnostic_type" r (Text "HPPC+RPT")) by (intros NE H; apply NE; exact (holds_det _ _ _ _ _ W I V H)).
      destruct ty as [q| |b|b|s]; try (injection HD as <-; split; [congruence | intros (_ & _ & H); destruct (X ltac:(discriminate) H)]).
      destruct (String.eqb_spec s "HPPC+RPT") as [->|NE]; [|injection HD as <-; split; [congruence | intros (_ & _ & H); destruct (X ltac:(congruence) H)]].
      destruct (value t "diagnostic_start_cycle" r) as [c|]; [|discriminate]. cbn [bind] in HD. destruct (whole c); [|discriminate]. cbn [bind] in HD.
      destruct (value t "diagnostic_parameter_set" r); [|discriminate]. cbn [bind] in HD. injection HD as <-. split; [auto | discriminate].
    + injection HD as <-. split; [congruence|]. intros (A & A2 & A3). exfalso.
      assert (A1 : column t "diagnostic_type") by (destruct A3 as [(A3 & _)|(i & A3 & _)]; [discriminate | right; exact (nth_error_In _ _ A3)]).
      apply has_column_iff in A, A1, A2. rewrite A, A1, A2 in B. discriminate.
  - intros d ->. destruct (has_column t "diagnostic_type" && has_column t "diagnostic_start_cycle" && has_column t "diagnostic_interval"); [|discriminate].
    destruct (value t "diagnostic_type" r) as [[q| |b|b|s]|]; try discriminate. cbn [bind] in HD. destruct (String.eqb s "HPPC+RPT"); [|discriminate].
    destruct (value t "diagnostic_start_cycle" r) as [c|] eqn:VC; [|discriminate]. cbn [bind] in HD. destruct (whole c) as [st|] eqn:WC; [|discriminate]. cbn [bind] in HD.
    destruct (value t "diagnostic_parameter_set" r) as [sv|] eqn:VS; [|discriminate]. cbn [bind] in HD. injection HD as <-. cbn [av_types av_length av_set av_starts].
    split; [reflexivity|]. split; [reflexivity|]. split; [apply value_holds; assumption|]. split; [apply nodup_filter, Proofs_Diagnostic.uniq_nodup|].
    destruct c as [q| |b|b|s']; try discriminate. cbn [whole] in WC. destruct (Qeq_bool _ q); [|discriminate]. injection WC as <-.
    exists q. split; [apply value_holds; assumption|]. intros c. apply starts_iff.
Qed.
(** Without parameters the arguments are kept and no diagnostics are assumed. *)
Theorem C92_without_parameters : forall p n k dir path raw v res nom full,
  plain p -> plain n -> parse_int n = Some k -> run_file p n path ->
  Forall (fun e => ~ begins p (fst e)) dir \/ (exists t, only_file dir p t /\ forall r, In r (p_rows t) -> p_seq r <> k) ->
  determine_structuring_parameters (Some dir) path raw v res nom full =
    Ok {| sp_v_range := v; sp_resolution := res; sp_nominal := nom; sp_full := full; sp_diag := None |}.
Proof. intros. unfold determine_structuring_parameters. rewrite (C90_nothing_found p n k) by assumption. reflexivity. Qed.
Definition with_diagnostics : ptable :=
  {| p_columns := ["capacity_nominal"; "discharge_cutoff_voltage"; "charge_cutoff_voltage"; "diagnostic_type"; "diagnostic_start_cycle"; "diagnostic_interval"; "diagnostic_parameter_set"]%string;
     p_rows := [ {| p_seq := 240; p_cells := [Number 5; Number 3; Number 4; Text "HPPC+RPT"; Number 1; Number 100; Text "Tesla21700"] |};
                 {| p_seq := 241; p_cells := [Number 6; Number (27 # 10); Number (42 # 10); Text "HPPC+RPT"; Number 1; Number 100; Text "Tesla21700"] |} ] |}.
(** cycles 1-5 a diagnostic, 6 a regular cycle, 7-11 the second diagnostic, 12 regular, 13-17 the last diagnostic with other step numbers *)
Definition a_run : list rawrow :=
  flat_map (fun cs => map (fun s => {| w_cycle := fst cs; w_step := s |}) (snd cs))
    [(1, [1; 2]); (2, [3; 4; 5]); (3, [6]); (4, [7]); (5, [8]); (6, [20; 21; 22]); (7, [31; 32]); (8, [33; 34; 35]); (9, [36]); (10, [37]); (11, [38]);
     (12, [20; 21; 22]); (13, [41; 42]); (14, [43; 44; 45]); (15, [46]); (16, [47]); (17, [48])]%Z.
(** Finding (C92): a voltage range and a nominal capacity given by the caller are silently replaced. *)
Theorem C92_arguments_refuted : exists out, determine_structuring_parameters (Some [("PreDiag_parameters.csv"%string, Some with_diagnostics)]) "PreDiag_000240_00021F.092" a_run
    (Some (Some (28 # 10), Some 4)) 500 (Some (11 # 10)) (8 # 10) = Ok out /\ sp_v_range out = Some (Some (27 # 10), Some (42 # 10)) /\ sp_nominal out = Some 5.
Proof. eexists. split; [vm_compute; reflexivity|]. split; reflexivity. Qed.
(** Finding (C92): the last diagnostic is missed when the run ends before its five cycles are over. *)
Theorem C92_interrupted_refuted : let raw := filter (fun r => Z.leb (w_cycle r) 16) a_run in
  In 13%Z (diagnostic_starts a_run 1) /\ (forall c s, (c <= 16)%Z -> (recorded raw c s <-> recorded a_run c s)) /\ ~ In 13%Z (diagnostic_starts raw 1).
Proof.
  split; [vm_compute; tauto|]. split; [|vm_compute; intuition discriminate].
  intros c s H. unfold recorded. rewrite filter_In. cbn [w_cycle]. rewrite Z.leb_le. tauto.
Qed.

(** ** C93: annotated steps of a diagnostic cycle *)
Section C93.
  Context (p n : string) (k : Z) (dir : directory) (t : ptable) (r : prow) (protocol : string) (nominal : Q).
  Context (P : plain p) (N : plain n) (K : parse_int n = Some k) (R : run_protocol p n protocol) (O : only_file dir p t) (W : well_formed t)
          (ND : NoDup (map p_seq (p_rows t))) (I : In r (p_rows t)) (E : p_seq r = k) (NOM : holds t "capacity_nominal" r (Number nominal)) (NZ : ~ nominal == 0).
  Lemma nominal_found : exists rows, get_protocol_parameters dir (protocol_name protocol) = Ok (Some (rows, t)) /\ nominal_of (Some (rows, t)) = Ok (Some nominal).
  Proof.
    exists [r]. split.
    - rewrite (lookup_protocol p n k dir t protocol) by assumption. rewrite <- E, filter_one by assumption. reflexivity.
    - cbn [nominal_of first_value]. apply value_holds in NOM; [|assumption..]. rewrite NOM. reflexivity.
  Qed.
  Lemma F2_in {A B} (Q1 Q2 : A -> B -> Prop) l l' : (forall x y, In x l -> (Q1 x y <-> Q2 x y)) -> (Forall2 Q1 l l' <-> Forall2 Q2 l l').
  Proof.
    intros H. split; intros F; induction F as [|x y l l' X F IH]; constructor;
      try (apply (H x y (or_introl eq_refl)); exact X); apply IH; intros a b J; apply H; right; exact J.
  Qed.
  (** The steps of an hppc cycle are annotated exactly when every step fits one of the seven kinds and
      no two steps the same; then each step has its kind. *)
  Theorem C93_hppc_steps : forall data pos cycle d, cycle_at data "hppc" pos cycle -> complete cycle ->
    (get_step_index dir protocol data "hppc" pos = Ok d <->
     exists labels, d = combine labels (steps_in cycle) /\ NoDup labels /\ Forall2 (hppc_annotation nominal cycle) (steps_in cycle) labels).
  Proof.
    intros data pos cycle d (c & PY & EC) C. unfold get_step_index. destruct nominal_found as (rows & -> & NF). cbn [bind]. rewrite PY. rewrite <- EC.
    change (String.eqb "hppc" "hppc") with true. cbv iota. fold (steps_in cycle).
    set (label := fun s => let! n0 := nominal_of (Some (rows, t)) in hppc_label (measure n0 cycle s)).
    assert (L : forall s y, In s (steps_in cycle) -> (label s = Ok (Some y) <-> hppc_annotation nominal cycle s y)).
    { intros s y J. unfold label. rewrite NF. cbn [bind]. apply hppc_label_iff; assumption. }
    pose proof (annotate_iff label (steps_in cycle) d) as A. split.
    - destruct (annotate label (steps_in cycle) []) as [d'|] eqn:AN; [|discriminate]. cbn [bind]. destruct (Nat.eqb_spec (length (steps_in cycle)) (length d')) as [LE|]; [|discriminate].
      intros [= ->]. destruct (proj1 A (conj eq_refl LE)) as (ks & ED & NK & F). exists ks. split; [exact ED|]. split; [exact NK|]. apply (F2_in _ _ _ _ L). exact F.
    - intros (ks & ED & NK & F). apply (F2_in _ _ _ _ L) in F. destruct (proj2 A) as (AN & LE); [exists ks; auto|]. rewrite AN. cbn [bind]. rewrite LE, Nat.eqb_refl. reflexivity.
  Qed.
  (** The other diagnostic cycles: one step charges, one discharges, and there is no third. *)
  Theorem C93_rpt_steps : forall type data pos cycle d, In type ["rpt_0.2C"; "rpt_1C"; "rpt_2C"; "reset"]%string -> cycle_at data type pos cycle -> complete cycle ->
    (get_step_index dir protocol data type pos = Ok d <->
     exists labels, d = combine labels (steps_in cycle) /\ NoDup labels /\ Forall2 (rpt_annotation nominal type cycle) (steps_in cycle) labels).
  Proof.
    intros type data pos cycle d T (c & PY & EC) C. unfold get_step_index. destruct nominal_found as (rows & -> & NF). cbn [bind]. rewrite PY. rewrite <- EC.
    assert (T1 : String.eqb type "hppc" = false) by (destruct T as [<-|[<-|[<-|[<-|[]]]]]; reflexivity). apply str_in_iff in T. rewrite T1, T. fold (steps_in cycle).
    set (label := fun s => let! n0 := nominal_of (Some (rows, t)) in rpt_label type (measure n0 cycle s)).
    assert (L : forall s y, In s (steps_in cycle) -> (label s = Ok (Some y) <-> rpt_annotation nominal type cycle s y)).
    { intros s y J. unfold label. rewrite NF. cbn [bind]. apply rpt_label_iff; assumption. }
    pose proof (annotate_iff label (steps_in cycle) d) as A. split.
    - destruct (annotate label (steps_in cycle) []) as [d'|] eqn:AN; [|discriminate]. cbn [bind]. destruct (Nat.eqb_spec (length (steps_in cycle)) (length d')) as [LE|]; [|discriminate].
      intros [= ->]. destruct (proj1 A (conj eq_refl LE)) as (ks & ED & NK & F). exists ks. split; [exact ED|]. split; [exact NK|]. apply (F2_in _ _ _ _ L). exact F.
    - intros (ks & ED & NK & F). apply (F2_in _ _ _ _ L) in F. destruct (proj2 A) as (AN & LE); [exists ks; auto|]. rewrite AN. cbn [bind]. rewrite LE, Nat.eqb_refl. reflexivity.
  Qed.
  (** Finding (C93): a cycle with a third step, a rest say, has no annotation. *)
  Theorem C93_three_steps_refuted : forall type data pos cycle, In type ["rpt_0.2C"; "rpt_1C"; "rpt_2C"; "reset"]%string -> cycle_at data type pos cycle -> complete cycle ->
    (3 <= length (steps_in cycle))%nat -> exists e, get_step_index dir protocol data type pos = Err e.
  Proof.
    intros type data pos cycle T CA C L. destruct (get_step_index dir protocol data type pos) as [d|e] eqn:G; [|eauto]. exfalso.
    apply (C93_rpt_steps type data pos cycle d T CA C) in G as (ks & _ & NK & F).
    assert (S : incl ks [(type ++ "_charge")%string; (type ++ "_discharge")%string]).
    { clear - F. induction F as [|s x l ks X F IH]; [intros z []|]. intros z [<-|Z]; [|exact (IH z Z)]. destruct X as (q & _ & [(_ & ->)|(_ & ->)]); [left | right; left]; reflexivity. }
    apply (NoDup_incl_length NK) in S. assert (LE : length (steps_in cycle) = length ks) by (clear - F; induction F; cbn; congruence). cbn in S. lia.
  Qed.
End C93.
(** A step has at most one kind. *)
Theorem C93_one_kind : forall nominal cycle s a b, ~ nominal == 0 -> complete cycle -> In s (steps_in cycle) ->
  hppc_annotation nominal cycle s a -> hppc_annotation nominal cycle s b -> a = b.
Proof. intros nominal cycle s a b NZ C I A B. apply hppc_label_iff in A; [|assumption..]. apply hppc_label_iff in B; [|assumption..]. congruence. Qed.
(** Finding (C93): without parameters the annotation ends in a TypeError. *)
Theorem C93_no_parameters_refuted : forall p n k dir protocol data pos cycle, plain p -> plain n -> parse_int n = Some k -> run_protocol p n protocol ->
  (exists t, only_file dir p t /\ forall r, In r (p_rows t) -> p_seq r <> k) -> cycle_at data "hppc" pos cycle -> steps_in cycle <> [] ->
  get_step_index dir protocol data "hppc" pos = Err TypeError.
Proof.
  intros p n k dir protocol data pos cycle P N K R (t & O & H) (c & PY & EC) NE. unfold get_step_index. rewrite (lookup_protocol p n k dir t protocol) by assumption.
  rewrite filter_zero by exact H. cbn [bind]. rewrite PY. rewrite <- EC. change (String.eqb "hppc" "hppc") with true. cbv iota. fold (steps_in cycle).
  destruct (steps_in cycle); [congruence | reflexivity].
Qed.

(** ** Cases *)
Example plain_case : plain "PreDiag" /\ plain "000240" /\ ending "_00021F.092" /\ parse_int "000240" = Some 240%Z /\
  run_file "PreDiag" "000240" "data/raw/PreDiag_000240_00021F.092" /\ run_protocol "PreDiag" "000240" "PreDiag\PreDiag_000240.000".
Proof.
  split; [repeat split; discriminate|]. split; [repeat split; discriminate|]. split; [split; [reflexivity|]; right; eexists; left; reflexivity|]. split; [reflexivity|]. split.
  - exists "_00021F.092"%string. split; [split; [reflexivity|]; right; eexists; left; reflexivity|]. right. exists "data/raw"%string. reflexivity.
  - right. exists "PreDiag"%string, "PreDiag_000240.000"%string. split; [reflexivity|]. split; [reflexivity|]. exists ".000"%string. split; [split; [reflexivity|]; right; eexists; right; reflexivity|]. left. reflexivity.
Qed.
(** The directory that is shipped: every project has one file. *)
Example shipped : let f (s : string) := (s, Some with_diagnostics) in
  let dir := [f "Drive_parameters - GP.csv"; f "Form_parameters - GP.csv"; f "Iris_parameters - GP.csv"; f "PreDiag_parameters - GP.csv"; f "PredictionDiagnostics_parameters - GP.csv";
              f "RapidC_parameters - GP.csv"; f "Talos_parameters - GP.csv"; ("intracell_info", None)]%string in
  only_file dir "PreDiag" with_diagnostics /\ well_formed with_diagnostics /\ NoDup (map p_seq (p_rows with_diagnostics)) /\
  exists r, get_protocol_parameters dir "data/raw/PreDiag_000240_00021F.092" = Ok (Some ([r], with_diagnostics)) /\ p_seq r = 240%Z.
Proof.
  cbv zeta. split; [|split; [|split]].
  - exists [("Drive_parameters - GP.csv", Some with_diagnostics); ("Form_parameters - GP.csv", Some with_diagnostics); ("Iris_parameters - GP.csv", Some with_diagnostics)]%string, "PreDiag_parameters - GP.csv"%string,
      [("PredictionDiagnostics_parameters - GP.csv", Some with_diagnostics); ("RapidC_parameters - GP.csv", Some with_diagnostics); ("Talos_parameters - GP.csv", Some with_diagnostics); ("intracell_info", None)]%string.
    split; [reflexivity|]. split; [eexists; reflexivity|]. repeat constructor; intros (x & X); discriminate.
  - split; [repeat constructor; cbn; intuition discriminate|]. split; [cbn; intuition discriminate | repeat constructor].
  - repeat constructor; cbn; intuition discriminate.
  - eexists. split; [vm_compute; reflexivity | reflexivity].
Qed.
Example starts_case : diagnostic_starts a_run 1 = [1; 7; 13]%Z /\ diagnostic_start a_run 1 13 /\ ~ diagnostic_start a_run 1 12.
Proof. split; [vm_compute; reflexivity|]. split; [apply starts_iff; vm_compute; tauto|]. rewrite <- starts_iff. vm_compute. intuition discriminate. Qed.
Definition series (s k : Z) (i : Q) (t0 t1 : Q) : list hrow :=
  [{| h_cycle := 2; h_type := "hppc"; h_step := s; h_counter := k; h_current := Some i; h_time := Some t0 |};
   {| h_cycle := 2; h_type := "hppc"; h_step := s; h_counter := k; h_current := Some i; h_time := Some t1 |}].
Definition an_hppc : list hrow :=
  series 11 1 2 0 5000 ++ series 12 2 0 5000 8600 ++ series 13 3 (-5) 8600 8630 ++ series 14 4 0 8630 8670 ++ series 15 5 4 8670 8680 ++ series 16 6 (-2) 8680 9700 ++
  series 12 7 0 9700 13300 ++ series 17 8 (-1) 13300 14000.
Example hppc_case : complete an_hppc /\ cycle_at an_hppc "hppc" 0 an_hppc /\
  get_step_index [("PreDiag_parameters.csv"%string, Some with_diagnostics)] "PreDiag\PreDiag_000240.000" an_hppc "hppc" 0 =
    Ok [("hppc_charge_to_soc", 11); ("hppc_long_rest", 12); ("hppc_discharge_pulse", 13); ("hppc_short_rest", 14); ("hppc_charge_pulse", 15);
        ("hppc_discharge_to_next_soc", 16); ("hppc_final_discharge", 17)]%string%Z.
Proof. split; [repeat constructor; discriminate|]. split; [exists 2%Z; split; vm_compute; reflexivity | vm_compute; reflexivity]. Qed.

Print Assumptions C90_row_of_the_run.
Print Assumptions C90_nothing_found.
Print Assumptions C90_place_and_ending.
Print Assumptions C90_generated_files.
Print Assumptions C90_shared_beginning_refuted.
Print Assumptions C90_single_row_refuted.
Print Assumptions C90_project_name_refuted.
Print Assumptions C90_diagnostic_voltages.
Print Assumptions C90_default_voltages.
Print Assumptions C91_charging_protocol.
Print Assumptions C91_unknown_quantity.
Print Assumptions C91_accepted.
Print Assumptions C91_valid_refuted.
Print Assumptions C92_from_the_parameters.
Print Assumptions C92_without_parameters.
Print Assumptions C92_arguments_refuted.
Print Assumptions C92_interrupted_refuted.
Print Assumptions C93_hppc_steps.
Print Assumptions C93_rpt_steps.
Print Assumptions C93_three_steps_refuted.
Print Assumptions C93_one_kind.
Print Assumptions C93_no_parameters_refuted.

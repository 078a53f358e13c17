(** C31 to C34, C62, C63: Maccor procedures converted to Biologic.  The vocabulary is
    in Spec_M2B. *)
From Verif Require Import Py Num Model_Text Model_Units Spec_Units Model_M2B Spec_M2B Proofs_M2B Proofs_M2B_Techniques
  Proofs_M2B_Filters Proofs_M2B_Total.

(** C31: the sequences of a technique are numbered 0, 1, 2, ... *)
Theorem C31_sequences_numbered_consecutively :
  forall blank steps offset e seqs nums, (0 <= offset)%Z -> convert_steps_to_seqs blank steps offset e = Ok (seqs, nums) ->
  length seqs = n_all steps /\ forall i d, nth_error seqs i = Some d -> int d "Ns" (Z.of_nat i).
Proof. exact numbered. Qed.
(** C31: every end condition of a step leads to the sequence of the step it names. *)
Theorem C31_gotos_follow_steps :
  forall blank steps offset e seqs nums k st, (0 <= offset)%Z -> convert_steps_to_seqs blank steps offset e = Ok (seqs, nums) ->
  nth_error steps k = Some st -> physical st ->
  exists d, nth_error seqs (first_seq steps (S k) - 1) = Some d /\
  forall j en, nth_error (the_ends st) j = Some en ->
  exists g s, parse_int (e_step en) = Some g /\ int d (lim_key j "seq") s /\ goto_target steps offset e k g s /\
    (g <> (offset + 1 + Z.of_nat k + 1)%Z -> txt d (lim_key j "action") "Goto sequence") /\
    (g = (offset + 1 + Z.of_nat k + 1)%Z -> sget d (lim_key j "action") = sget blank (lim_key j "action")) /\
    (forall m st', (m < k)%nat -> nth_error steps m = Some st' -> opens_loop st' \/ closes_loop st' -> (offset + 1 + Z.of_nat m < g)%Z).
Proof. exact gotos. Qed.
(** C31: a closing step becomes a loop to the first sequence after the opening step,
    repeated one time less than the body runs. *)
Theorem C31_loops_go_back_to_their_do :
  forall blank steps offset e seqs nums k st, (0 <= offset)%Z -> convert_steps_to_seqs blank steps offset e = Ok (seqs, nums) ->
  nth_error steps k = Some st -> closes_loop st ->
  exists d j st' en n, nth_error seqs (first_seq steps k) = Some d /\
    (j < k)%nat /\ nth_error steps j = Some st' /\ opens_loop st' /\
    (forall m st'', (j < m < k)%nat -> nth_error steps m = Some st'' -> ~ opens_loop st'' /\ ~ closes_loop st'') /\
    st_ends st = One en /\ parse_int (e_value en) = Some n /\
    txt d "ctrl_type" "Loop" /\ int d "ctrl_seq" (Z.of_nat (first_seq steps j)) /\ int d "ctrl_repeat" (Z.max (n - 1) 0).
Proof. exact loops. Qed.
(** C31: in a whole procedure the techniques stand for all steps but the End, in order,
    and the number by which end conditions name the End step is that of the last step. *)
Theorem C31_whole_procedure :
  forall blank c sm qm steps techs rs, convert blank c sm qm steps = Ok (techs, rs) ->
  exists kept segs last, apply_step_mappings c sm 1 steps = Ok (kept ++ [last]) /\ st_type last = "End"%string /\
    concat segs = kept /\ laid_out 1 0 segs (map (fun t => fst (fst t)) techs) /\
    forall tp seqs nums, In (tp, seqs, nums) techs -> exists raw,
      convert_steps_to_seqs blank (tp_steps tp) (tp_offset tp) (Z.of_nat (length kept) + 1) = Ok (raw, nums) /\
      seqs = apply_seq_mappings c (map (fun f => f (tp_num tp)) qm) 0 raw.
Proof. exact procedure_converted. Qed.
(** C31: a technique whose steps are well formed is converted. *)
Theorem C31_well_formed_steps_convert :
  forall blank steps offset e, (0 <= offset)%Z -> (offset + Z.of_nat (length steps) < e)%Z ->
  (forall k st, nth_error steps k = Some st -> step_ok steps offset e k st) ->
  exists seqs nums, convert_steps_to_seqs blank steps offset e = Ok (seqs, nums).
Proof. exact converts. Qed.

(** C62: what is applied, when it ends and what is recorded is the step's. *)
Theorem C62_sequences_do_what_the_steps_say_partial :
  forall blank steps offset e seqs nums k st, (0 <= offset)%Z -> convert_steps_to_seqs blank steps offset e = Ok (seqs, nums) ->
  nth_error steps k = Some st -> physical st ->
  (st_limits st = None ->
     exists d, nth_error seqs (first_seq steps k) = Some d /\
       control_kept (st_type st) (st_mode st) (st_value st) d /\ limits_kept (the_ends st) d /\ reports_kept (the_reports st) d) /\
  (forall ls, st_limits st = Some ls ->
     exists d1 d2 opp lim oper to, nth_error seqs (first_seq steps k) = Some d1 /\ nth_error seqs (S (first_seq steps k)) = Some d2 /\
       opposite (st_mode st) opp /\ sget ls opp = Some lim /\
       (st_type st = "Charge"%string /\ oper = ">="%string \/ st_type st = "Dischrge"%string /\ oper = "<="%string) /\
       control_kept (st_type st) (st_mode st) (st_value st) d1 /\
       limits_kept [{| e_type := opp; e_oper := oper; e_value := lim; e_step := to |}] d1 /\
       int d1 "lim1_seq" (Z.of_nat (S (first_seq steps k))) /\ sget d1 "lim1_action" = sget blank "lim1_action" /\
       reports_kept (the_reports st) d1 /\
       control_kept (st_type st) opp lim d2 /\ limits_kept (the_ends st) d2 /\ reports_kept (the_reports st) d2).
Proof. exact contents. Qed.

(** C32: no step is lost, duplicated or moved; technique numbers and offsets are consecutive. *)
Theorem C32_techniques_cover_the_procedure :
  forall steps tps, partition_steps steps = Ok tps -> exists segs, concat segs = steps /\ laid_out 1 0 segs tps.
Proof. exact partition_covers. Qed.
(** C32: exactly the loops that contain a loop become looping techniques. *)
Theorem C32_nested_loops_become_techniques :
  forall p tail, Forall (fun x => unnested (fst x) /\ is_nested (snd x)) p -> unnested tail ->
  procedure_steps p tail <> [] -> partition_steps (procedure_steps p tail) = Ok (techniques 1 0 p tail).
Proof. exact partition_exact. Qed.

(** C33 for steps with several end conditions (a single one is kept as a bare
    element by the XML reader): exactly those beyond the configured limits go. *)
Theorem C33_removes_exactly_the_configured_ends_partial :
  forall c steps n, Forall (fun st => (forall e, st_ends st <> One e) /\ readable st) steps ->
  exists out, apply_step_mappings c [] n steps = Ok out /\ Forall2 (filtered c) steps out.
Proof. exact filters_exact. Qed.
(** C33: the user's step mappings are applied after that, one after the other. *)
Theorem C33_user_mappings_follow :
  forall c fs steps n mid out, apply_step_mappings c [] n steps = Ok mid -> apply_step_mappings c fs n steps = Ok out ->
  length out = length mid /\
  forall k st st', nth_error mid k = Some st -> nth_error out k = Some st' -> mapped_by fs (n + Z.of_nat k) st st'.
Proof. exact mappers_after. Qed.
(** Finding (C33): a single end condition is never removed. *)
Theorem C33_removes_every_configured_end_refuted :
  exists c st e, st_ends st = One e /\ beyond c e /\ apply_step_mappings c [] 1 [st] = Ok [st].
Proof.
  pose (e := {| e_type := "Voltage"; e_oper := ">="; e_value := "5.0"; e_step := "002" |}%string).
  pose (st := {| st_type := "Charge"; st_mode := "Current"; st_value := "1.0"; st_limits := None; st_ends := One e; st_reports := NoneOf |}%string).
  exists {| max_v := Some (89 # 20); min_v := Some 0; max_i := None; min_i := None |}, st, e. split; [reflexivity|]. split.
  - exists 5. split; [eexists; split; [vm_compute; reflexivity|vm_compute; reflexivity]|]. left. split; [reflexivity|]. split; [reflexivity|].
    exists (89 # 20). split; [reflexivity|]. discriminate.
  - exact (single_kept _ 1 st e eq_refl).
Qed.

(** C34: the last configured mapping takes effect. *)
Theorem C34_last_mapping_takes_effect_partial :
  forall c fs f seqs i k,
  nth_error (apply_seq_mappings c (fs ++ [f]) i seqs) k = option_map (fun d => f d (i + Z.of_nat k)%Z) (nth_error seqs k).
Proof. exact last_mapping. Qed.
(** Finding (C34): the others do not, and neither do the voltage and current limits. *)
Theorem C34_all_mappings_take_effect_refuted :
  exists c (f g : seq_dict -> Z -> seq_dict) d, apply_seq_mappings c [f; g] 0 [d] = apply_seq_mappings c [g] 0 [d] /\
    apply_seq_mappings c [f; g] 0 [d] <> [g (f d 0%Z) 0%Z].
Proof.
  exists {| max_v := None; min_v := None; max_i := None; min_i := None |}, (fun d _ => sset_str d "I Range" "1 A"), (fun d _ => sset_str d "Bandwidth" "8"), blank_seq.
  split; [reflexivity|]. vm_compute. discriminate.
Qed.
(** Finding (C34): the configured limits never reach the exported table, because they
    are stored under names that the table does not have. *)
Theorem C34_limits_reach_the_table_refuted :
  forall c seqs, seqs_to_str 20 (map fst blank_seq) (apply_seq_mappings c [] 0 seqs) = seqs_to_str 20 (map fst blank_seq) seqs.
Proof.
  intros c seqs. apply limits_not_exported. intros k I X.
  assert (H : existsb (fun k => str_in k range_keys) (map fst blank_seq) = true) by (apply existsb_exists; exists k; split; [exact I|apply str_in_in; exact X]).
  vm_compute in H. discriminate H.
Qed.

(** C63: the exported table has one row for each field, in which every cell is 20
    characters wide and holds the value of that field in that sequence. *)
Theorem C63_table_holds_the_sequences :
  forall w keys seqs text, seqs_to_str w keys seqs = Ok text -> table w keys seqs text.
Proof. exact table_written. Qed.
Theorem C63_table_written_iff_it_fits :
  forall w keys seqs, fits w keys seqs <-> exists text, seqs_to_str w keys seqs = Ok text.
Proof. exact table_fits. Qed.
(** C63: the header announces the number of technique blocks. *)
Theorem C63_header_counts_techniques :
  forall steps tps techs, partition_steps steps = Ok tps -> map fst techs = tps ->
  num_techniques techs = Ok (blocks techs).
Proof.
  intros steps tps techs P M. destruct (partition_covers steps tps P) as (segs & _ & L).
  assert (NE : techs <> []).
  { intros ->. cbn in M. subst tps. destruct segs; [|contradiction L]. unfold partition_steps in P.
    destruct (scan_steps _ _ _) as [s|]; [|discriminate P]. cbn [bind] in P.
    destruct (sc_ranges s ++ _) as [|[[a b] n] rg] eqn:E; [discriminate P|]. destruct (last_error _) as [[[a' b'] n']|]; [|discriminate P].
    destruct (_ || _); [discriminate P|]. cbn [build_partitions] in P. destruct (_ || _); [discriminate P|].
    destruct (build_partitions _ _ _ rg); [|discriminate P]. discriminate P. }
  rewrite <- M in L. destruct (blocks_last techs 1 0 segs NE L) as (t & E & N). unfold num_techniques. rewrite E. destruct t as [tp sq]. cbn [fst] in N.
  f_equal. rewrite N. lia.
Qed.
(** C63: the techniques of the file are numbered one after the other, and a loop goes
    back to the technique before it as often as the procedure says. *)
Theorem C63_techniques_numbered_and_repeated :
  forall keys steps tps techs text, partition_steps steps = Ok tps -> map fst techs = tps -> techniques_to_str keys techs = Ok text ->
  technique_blocks keys 1 techs text.
Proof.
  intros keys steps tps techs text P M T. destruct (partition_covers steps tps P) as (segs & _ & L). rewrite <- M in L.
  exact (blocks_written keys techs 1 0 segs text L T).
Qed.

(** ** Examples *)
Definition mk ty mode value limits ends reports : step :=
  {| st_type := ty; st_mode := mode; st_value := value; st_limits := limits; st_ends := ends; st_reports := reports |}.
Definition ee ty oper v s : end_entry := {| e_type := ty; e_oper := oper; e_value := v; e_step := s |}.
Definition rep ty v : many report := One {| r_type := ty; r_value := v |}.
Definition sample : list step :=
  [mk "Do 1" "" "" None NoneOf NoneOf;
   mk "Charge" "Current" "2.0" (Some [("Voltage", "4.2")]) (Many [ee "Current" "<=" "0.05" "004"; ee "StepTime" "=" "02:00:00" "006"]) (rep "StepTime" "00:00:30");
   mk "AdvCycle" "" "" None NoneOf NoneOf;
   mk "Dischrge" "Current" "1.0" None (One (ee "Voltage" "<=" "2.7" "005")) (rep "Voltage" "0.01");
   mk "Loop 1" "" "" None (One (ee "Loop Cnt" "=" "100" "006")) NoneOf;
   mk "Rest" "" "" None (One (ee "StepTime" "=" "00:10:00" "007")) (rep "StepTime" "00:01:00")]%string.
Example C31_sample_converts :
  match convert_steps_to_seqs blank_seq sample 0 7 with
  | Ok (seqs, nums) => map (fun d => (sget d "Ns", sget d "ctrl_type", sget d "lim_nb", sget d "lim1_seq", sget d "lim2_seq", sget d "ctrl_seq")) seqs
  | Err _ => [] end
  = [(Some (FInt 0), Some (FStr "CC"), Some (FInt 1), Some (FInt 1), Some (FInt 1), Some (FStr "0"));
     (Some (FInt 1), Some (FStr "CV"), Some (FInt 2), Some (FInt 2), Some (FInt 4), Some (FStr "0"));
     (Some (FInt 2), Some (FStr "CC"), Some (FInt 1), Some (FInt 3), Some (FInt 3), Some (FStr "0"));
     (Some (FInt 3), Some (FStr "Loop"), Some (FStr "0"), Some (FInt 4), Some (FInt 4), Some (FInt 0));
     (Some (FInt 4), Some (FStr "Rest"), Some (FInt 1), Some (FInt 5), Some (FInt 5), Some (FStr "0"))]%string.
Proof. vm_compute. reflexivity. Qed.
Example C31_sample_procedure :
  is_ok (convert blank_seq {| min_v := None; max_v := None; min_i := None; max_i := None |} [] []
    (sample ++ [mk "End" "" "" None NoneOf NoneOf])) = true.
Proof. vm_compute. reflexivity. Qed.
Example C31_sample_is_well_formed : step_ok sample 0 7 1 (nth 1 sample (mk "" "" "" None NoneOf NoneOf)).
Proof.
  split.
  - intros _. split; [|split; [cbn; lia|split; [cbn; lia|split]]].
    + right. split; [left; reflexivity|]. exists "Voltage"%string. split; [left; split; reflexivity|]. split.
      * exists 2. eexists. split; [vm_compute; reflexivity|vm_compute; reflexivity].
      * intros ls [= <-]. exists "4.2"%string. split; [reflexivity|]. exists (42 # 10). eexists. split; [vm_compute; reflexivity|vm_compute; reflexivity].
    + cbn. intros en [<-|[<-|[]]]; cbn.
      * split; [right; split; [right; reflexivity|split; [right; reflexivity|]]; exists (5 # 100); eexists; split; vm_compute; reflexivity|].
        exists 4%Z. split; [reflexivity|]. right. right. exists 3%nat. split; [cbn; lia|]. split; [reflexivity|]. intros j st J. lia.
      * split.
        -- left. split; [reflexivity|]. split; [reflexivity|]. do 3 eexists. exists 2, 0, 0. split; [vm_compute; reflexivity|].
           repeat split; right; (split; [discriminate|eexists; split; vm_compute; reflexivity]).
        -- exists 6%Z. split; [reflexivity|]. right. right. exists 5%nat. split; [cbn; lia|]. split; [reflexivity|]. intros j st J. lia.
    + cbn. intros r [<-|[]]. left. split; [reflexivity|]. do 3 eexists. exists 0, 0, 30. split; [vm_compute; reflexivity|].
      repeat split; right; (split; [discriminate|eexists; split; vm_compute; reflexivity]).
  - intros [X|[X|[]]]; discriminate X.
Qed.
(** Finding (C62): the first half of a split step loses the step's own end
    conditions: here the two hour limit does not bound the constant current part. *)
Theorem C62_split_steps_keep_their_ends_refuted :
  exists seqs nums d st, convert_steps_to_seqs blank_seq sample 0 7 = Ok (seqs, nums) /\
    nth_error sample 1 = Some st /\ length (the_ends st) = 2%nat /\ nth_error seqs 0 = Some d /\
    int d "lim_nb" 1 /\ txt d "lim1_type" "Ecell" /\ txt d "ctrl_type" "CC".
Proof.
  destruct (convert_steps_to_seqs blank_seq sample 0 7) as [[seqs nums]|x] eqn:E; [|vm_compute in E; discriminate E].
  vm_compute in E. injection E as E _. exists seqs, nums. rewrite <- E. do 2 eexists. unfold int, txt. repeat split.
Qed.
(** Finding (C31): a goto to the first step after the technique passes the range
    check but then fails with a KeyError. *)
Theorem C31_goto_just_past_the_technique_fails :
  exists steps, convert_steps_to_seqs blank_seq steps 0 9 = Err KeyError /\
    exists st en, nth_error steps 0 = Some st /\ the_ends st = [en] /\ parse_int (e_step en) = Some (Z.of_nat (length steps) + 1)%Z.
Proof.
  exists [mk "Rest" "" "" None (One (ee "StepTime" "=" "00:10:00" "003")) (rep "StepTime" "00:01:00");
          mk "Rest" "" "" None (One (ee "StepTime" "=" "00:10:00" "003")) (rep "StepTime" "00:01:00")]%string.
  split; [vm_compute; reflexivity|]. do 2 eexists. repeat split.
Qed.
Definition nested_sample : nested :=
  {| ne_open := mk "Do 1" "" "" None NoneOf NoneOf;
     ne_body := [mk "Do 2" "" "" None NoneOf NoneOf; mk "Rest" "" "" None NoneOf NoneOf; mk "Loop 2" "" "" None (One (ee "Loop Cnt" "=" "3" "")) NoneOf];
     ne_close := mk "Loop 1" "" "" None (One (ee "Loop Cnt" "=" "10" "")) NoneOf; ne_count := 10 |}%string.
Example C32_sample_is_nested : is_nested nested_sample /\ unnested sample.
Proof.
  split.
  - split; [reflexivity|]. split; [reflexivity|]. split; [|split].
    + repeat constructor; cbn; intros H; repeat (destruct H as [H|H]; [discriminate H|]); contradiction.
    + constructor. reflexivity.
    + eexists. split; reflexivity.
  - apply (un_loop _ [_; _; _] _ [_]); [reflexivity| |reflexivity|].
    + repeat constructor; cbn; intros H; repeat (destruct H as [H|H]; [discriminate H|]); contradiction.
    + constructor; [cbn; intros H; repeat (destruct H as [H|H]; [discriminate H|]); contradiction|constructor].
Qed.
Example C32_sample_techniques :
  match partition_steps (sample ++ nested_steps nested_sample ++ sample) with
  | Ok tps => map (fun tp => (tp_num tp, tp_offset tp, tp_loops tp, tp_count tp, length (tp_steps tp))) tps
  | Err _ => [] end = [(1, 0, false, 0, 6%nat); (2, 7, true, 10, 3%nat); (4, 11, false, 0, 6%nat)]%Z.
Proof. vm_compute. reflexivity. Qed.
Example C33_sample_filter :
  match apply_step_mappings {| max_v := Some (89 # 20); min_v := Some 0; max_i := None; min_i := Some (1 # 10) |} [] 1 sample with
  | Ok out => map (fun st => length (the_ends st)) out | Err _ => [] end = [0; 1; 0; 1; 1; 1]%nat.
Proof. vm_compute. reflexivity. Qed.
Example C63_sample_table :
  exists seqs nums, convert_steps_to_seqs blank_seq sample 0 7 = Ok (seqs, nums) /\
    seqs_to_str 20 ["ctrl_type"]%string seqs = Ok ("ctrl_type           CC                  CV                  CC                  Loop                Rest                " ++ crlf)%string.
Proof.
  destruct (convert_steps_to_seqs blank_seq sample 0 7) as [[seqs nums]|x] eqn:E; [|vm_compute in E; discriminate E].
  exists seqs, nums. split; [reflexivity|]. vm_compute in E. injection E as <- _. vm_compute. reflexivity.
Qed.

Print Assumptions C31_sequences_numbered_consecutively.
Print Assumptions C31_gotos_follow_steps.
Print Assumptions C31_loops_go_back_to_their_do.
Print Assumptions C31_whole_procedure.
Print Assumptions C31_well_formed_steps_convert.
Print Assumptions C31_goto_just_past_the_technique_fails.
Print Assumptions C32_techniques_cover_the_procedure.
Print Assumptions C32_nested_loops_become_techniques.
Print Assumptions C33_removes_exactly_the_configured_ends_partial.
Print Assumptions C33_user_mappings_follow.
Print Assumptions C33_removes_every_configured_end_refuted.
Print Assumptions C34_last_mapping_takes_effect_partial.
Print Assumptions C34_all_mappings_take_effect_refuted.
Print Assumptions C34_limits_reach_the_table_refuted.
Print Assumptions C62_sequences_do_what_the_steps_say_partial.
Print Assumptions C62_split_steps_keep_their_ends_refuted.
Print Assumptions C63_table_holds_the_sequences.
Print Assumptions C63_table_written_iff_it_fits.
Print Assumptions C63_header_counts_techniques.
Print Assumptions C63_techniques_numbered_and_repeated.

(** Whole procedures. *)
From Verif Require Import Py Num Model_Text Spec_Numeral Model_Procedure Spec_Procedure Proofs_Strings Proofs_Text Proofs_Procedure Proofs_Procedure_Docs.
From Verif Require Import Template_V2 Template_V3 Template_V4 Template_V5 Template_Driving.
From Coq Require Import Permutation.

Lemma at_step_0 prog : at_step 0 prog = prog.
Proof. unfold at_step. rewrite <- (map_id prog) at 2. apply map_ext. intros [n g a]. unfold shift. cbn [i_step i_if i_act]. destruct a; reflexivity. Qed.
Lemma implements_shift k prog E D : implements prog E D -> implements (at_step k prog) (needs_at k E) (writes_at k D).
Proof.
  induction 1 as [|i f prog E D x A S F H IH|i v prog E D w A S F Y H IH]; cbn [at_step needs_at writes_at map].
  - constructor.
  - eapply im_is; [| | |exact IH]; cbn [shift i_act i_step x_place x_step x_is]; [rewrite A; reflexivity | rewrite S; reflexivity | exact F].
  - eapply im_put; [| | | |exact IH]; cbn [shift i_act i_step w_place w_step w_is w_if]; [rewrite A; reflexivity | rewrite S; reflexivity | exact F | exact Y].
Qed.
Lemma documented_prog prog E D (pre : steps -> Prop) f : implements prog E D -> tidy prog = true -> checks_first [] prog = true ->
  (forall p, pre p -> f p = run prog p) -> documented pre E D 0 f.
Proof.
  intros H T C X. eapply documented_eq; [|intros p P; exact (X p P)]. pose proof (documented_run prog E D 0 H T C) as R. rewrite at_step_0 in R. exact R.
Qed.
Definition charge_v3_E : list expects := firstn 3 charge_expects ++ [not_4_4_expects] ++ skipn 3 charge_expects.
Definition charge_v3_D (r : reg_param) : list writes :=
  firstn 2 (charge_writes_v2 r) ++ [sets 0 (second_end "Value") (closest 3 (charge_cutoff_voltage r))] ++ skipn 2 (charge_writes_v2 r).
Lemma perm_E : Permutation charge_v3_E charge_expects_v3.
Proof.
  unfold charge_expects_v3, charge_v3_E. rewrite <- (firstn_skipn 3 charge_expects) at 3. rewrite <- app_assoc. apply Permutation_app_head. apply Permutation_app_comm.
Qed.
Lemma perm_D r : Permutation (charge_v3_D r) (charge_writes_v3 r).
Proof. unfold charge_v3_D, charge_writes_v3. rewrite <- (firstn_skipn 2 (charge_writes_v2 r)) at 3. cbn [app]. apply Permutation_sym, Permutation_middle. Qed.
Lemma charge_v3_ok' r : implements (charge_v3 r) charge_v3_E (charge_v3_D r).
Proof.
  destruct (charge_parts r) as (A & B). apply implements_app; [exact A|]. apply implements_app; [|exact B].
  eapply im_is; [reflexivity | reflexivity | |].
  - intros v. cbn [x_is not_4_4_expects]. unfold not_4_4. destruct v; try (split; [intros _ x X; discriminate | reflexivity]). split.
    + intros E x [= <-] Z. apply Qeq_bool_iff in Z. rewrite Z in E. discriminate.
    + intros E. specialize (E q eq_refl). destruct (Qeq_bool q (44 # 10)) eqn:Z; [apply Qeq_bool_iff in Z; contradiction | reflexivity].
  - repeat line. value.
Qed.
Lemma loop_ok r x : implements (discharge_base r ++ loop_part x) (discharge_expects ++ loop_expects) (discharge_writes r ++ loop_writes x).
Proof. apply implements_app; [apply discharge_base_ok | apply loop_part_ok]. Qed.

(** ** Regular cycles *)
Definition cycles_prog (charge : list instr) (r : reg_param) : list instr :=
  at_step 28 charge ++ at_step 32 (discharge_base r ++ loop_part (diagnostic_start_cycle r)) ++
  at_step 60 charge ++ at_step 64 (discharge_base r ++ loop_part (diagnostic_interval r)).
Lemma cycles_ok charge E D r : implements charge E D -> implements (cycles_prog charge r) (cycles_expects E) (cycles_writes D r).
Proof.
  intros H. repeat apply implements_app; apply implements_shift; try exact H; apply loop_ok.
Qed.
Definition prog_v2 (r : reg_param) : list instr := at_step 1 (resistance r) ++ cycles_prog (charge_v2 r) r ++ at_step 69 (storage_v2 r).
Definition prog_v3 (index : Z) (r : reg_param) : list instr :=
  at_step 0 (initial_rest index) ++ at_step 1 (resistance r) ++ cycles_prog (charge_v3 r) r ++ at_step 93 (storage_v3 r).
Lemma resolve_loops prog p : two_loops p -> puts_clear prog 35 StepType = true -> puts_clear (resolve 35 (VText "Loop 1") prog) 67 StepType = true ->
  run prog p = run (resolve 67 (VText "Loop 2") (resolve 35 (VText "Loop 1") prog)) p.
Proof.
  intros (L1 & L2) C1 C2. apply reads_get in L1, L2. rewrite (resolve_run _ _ _ _ L1 C1). apply resolve_run; assumption.
Qed.
Lemma doc_v2 r : discharge_cutoff_voltage r < charge_cutoff_voltage r ->
  documented two_loops regcycle_v2_expects (regcycle_v2_writes r) 0 (from_regcyclev2 r).
Proof.
  intros V. apply documented_prog with (prog := prog_v2 r).
  - apply implements_app; [apply implements_shift, resistance_ok|]. apply implements_app; [apply cycles_ok, charge_v2_ok|]. apply implements_shift, storage_ok.
  - vm_compute; reflexivity.
  - vm_compute; reflexivity.
  - intros p P. unfold from_regcyclev2, demand. apply Qlt_bool_iff in V. rewrite V.
    rewrite (resolve_loops _ _ P) by (vm_compute; reflexivity). reflexivity.
Qed.
Lemma same_upper_ok n p x rest : step_get p n (EndField 1 "Value") = Ok (VNum x) -> step_get p (n + 1) (EndField 0 "Value") = Ok (VNum x) ->
  run (same_upper n :: rest) p = run rest p.
Proof.
  intros A B. cbn [run]. unfold exec, same_upper. cbn [i_if i_act i_step]. rewrite A, B. cbn [bind py_eq].
  assert (E : Qeq_bool x x = true) by (apply Qeq_bool_iff; reflexivity). rewrite E. reflexivity.
Qed.
(** the checks at the end hold whenever they are reached *)
Lemma upper_checked prog p cut : tidy prog = true ->
  In (a_put 28 (EndField 1 "Value") (rounded 3 cut)) prog -> In (a_put 29 (EndField 0 "Value") (rounded 3 cut)) prog ->
  In (a_put 60 (EndField 1 "Value") (rounded 3 cut)) prog -> In (a_put 61 (EndField 0 "Value") (rounded 3 cut)) prog ->
  run (prog ++ [same_upper 28; same_upper 60]) p = run prog p.
Proof.
  intros T A B C D. rewrite run_app. destruct (run prog p) as [p' [e|]] eqn:R; [reflexivity|]. cbn [next].
  destruct (tidy_run _ _ _ _ T R) as (_ & I). specialize (I eq_refl). rewrite Forall_forall in I.
  pose proof (I _ A) as (w1 & [= <-] & A'). pose proof (I _ B) as (w2 & [= <-] & B'). pose proof (I _ C) as (w3 & [= <-] & C'). pose proof (I _ D) as (w4 & [= <-] & D').
  cbn [i_step a_put] in *. rewrite (same_upper_ok _ _ _ _ A' B'), (same_upper_ok _ _ _ _ C' D'). reflexivity.
Qed.
Lemma resolve_app n v a b : resolve n v (a ++ b) = resolve n v a ++ resolve n v b.
Proof. apply flat_map_app. Qed.
Lemma perm_cycles_E E E' : Permutation E E' -> Permutation (cycles_expects E) (cycles_expects E').
Proof.
  intros P. unfold cycles_expects. apply Permutation_app; [apply Permutation_map, P|]. apply Permutation_app; [reflexivity|].
  apply Permutation_app; [apply Permutation_map, P | reflexivity].
Qed.
Lemma perm_cycles_D D D' r : Permutation D D' -> Permutation (cycles_writes D r) (cycles_writes D' r).
Proof.
  intros P. unfold cycles_writes. apply Permutation_app; [apply Permutation_map, P|]. apply Permutation_app; [reflexivity|].
  apply Permutation_app; [apply Permutation_map, P | reflexivity].
Qed.
Lemma charge_second n r : In (a_put (n + 0) (EndField 1 "Value") (rounded 3 (charge_cutoff_voltage r))) (at_step n (charge_v3 r)).
Proof.
  change (a_put (n + 0) (EndField 1 "Value") (rounded 3 (charge_cutoff_voltage r))) with (shift n (a_put 0 (EndField 1 "Value") (rounded 3 (charge_cutoff_voltage r)))).
  apply in_map. apply in_or_app. right. right. left. reflexivity.
Qed.
Lemma charge_upper n r : In (a_put (n + 1) (EndField 0 "Value") (rounded 3 (charge_cutoff_voltage r))) (at_step n (charge_v3 r)).
Proof.
  change (a_put (n + 1) (EndField 0 "Value") (rounded 3 (charge_cutoff_voltage r))) with (shift n (a_put 1 (EndField 0 "Value") (rounded 3 (charge_cutoff_voltage r)))).
  apply in_map. apply in_or_app. right. apply in_or_app. right. do 4 right. left. reflexivity.
Qed.
Lemma doc_v3 index r : discharge_cutoff_voltage r < charge_cutoff_voltage r ->
  documented two_loops regcycle_v3_expects (regcycle_v3_writes index r) 0 (generate_procedure_regcyclev3 index r).
Proof.
  intros V. eapply documented_perm.
  - apply documented_prog with (prog := prog_v3 index r).
    + apply implements_app; [apply implements_shift, rest_ok|]. apply implements_app; [apply implements_shift, resistance_ok|].
      apply implements_app; [apply cycles_ok, charge_v3_ok'|]. apply implements_shift, storage_ok.
    + vm_compute; reflexivity.
    + vm_compute; reflexivity.
    + intros p P. unfold generate_procedure_regcyclev3, demand. apply Qlt_bool_iff in V. rewrite V.
      rewrite (resolve_loops _ _ P) by (vm_compute; reflexivity).
      change (resolve 67 (VText "Loop 2") (resolve 35 (VText "Loop 1") (regcycle_v3 index r))) with (prog_v3 index r ++ [same_upper 28; same_upper 60]).
      apply (upper_checked _ _ (charge_cutoff_voltage r)); [vm_compute; reflexivity | ..];
        unfold prog_v3, cycles_prog; do 2 (apply in_or_app; right); apply in_or_app; left.
      * apply in_or_app; left. exact (charge_second 28 r).
      * apply in_or_app; left. exact (charge_upper 28 r).
      * do 2 (apply in_or_app; right). apply in_or_app; left. exact (charge_second 60 r).
      * do 2 (apply in_or_app; right). apply in_or_app; left. exact (charge_upper 60 r).
  - apply Permutation_app; [reflexivity|]. apply Permutation_app; [reflexivity|]. apply Permutation_app; [apply perm_cycles_E, perm_E | reflexivity].
  - apply Permutation_app; [reflexivity|]. apply Permutation_app; [reflexivity|]. apply Permutation_app; [apply perm_cycles_D, perm_D | reflexivity].
Qed.

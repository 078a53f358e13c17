(** The procedures made from the shipped templates. *)
From Verif Require Import Py Num Model_Text Spec_Numeral Model_Procedure Spec_Procedure Proofs_Strings Proofs_Text Proofs_Procedure Proofs_Procedure_Docs Proofs_Procedure_Gen Proofs_Procedure_Whole.
From Verif Require Import Template_V2 Template_V3 Template_V4 Template_V5 Template_Driving.
From Coq Require Import Permutation.

Ltac values_exist c h := repeat (apply Forall_cons; [cbn [w_if]; first [exact Logic.I | exact c | exact h]|]); apply Forall_nil.
Lemma loops_found t : textb t 35 StepType "Loop 1" = true -> textb t 67 StepType "Loop 2" = true -> two_loops t.
Proof. intros A B. split; apply reads_get, textb_ok; assumption. Qed.
(** expectations that are texts, decided at once *)
Lemma expected_all t : forall E (f : expects -> bool), (forall x, f x = true -> expected t 0 x) -> forallb f E = true -> Forall (expected t 0) E.
Proof. intros E f H. rewrite forallb_forall, Forall_forall. auto. Qed.
Lemma whole_v2 r cap d : discharge_cutoff_voltage r < charge_cutoff_voltage r -> ~ charge_constant_current_1 r == 0 -> ~ HPPC_baseline_constant_current d == 0 ->
  exists p, next (from_regcyclev2 r template_v2) (add_procedure_diagcyclev2 cap d) = (p, None) /\
    parameterised (regcycle_v2_writes r ++ diagnostic_writes cap d two_diagnostics) template_v2 p.
Proof.
  intros V C H. apply (finish two_loops (regcycle_v2_expects ++ diagnostic_expects two_diagnostics) _ (fun t => next (from_regcyclev2 r t) (add_procedure_diagcyclev2 cap d))).
  - apply (documented_seq two_loops always); [apply doc_v2; exact V | apply doc_diag_v2 | vm_compute; reflexivity | vm_compute; reflexivity | intros; exact Logic.I].
  - apply loops_found; vm_compute; reflexivity.
  - apply Forall_app. split; repeat (apply Forall_cons; [found|]); apply Forall_nil.
  - vm_compute; reflexivity.
  - apply Forall_app. split; values_exist C H.
Qed.
Definition usual_template (t : steps) : Prop := t = template_v3 \/ t = template_v4 \/ t = template_v5.
Lemma whole_v3 index r cap d t : usual_template t -> discharge_cutoff_voltage r < charge_cutoff_voltage r -> ~ charge_constant_current_1 r == 0 -> ~ HPPC_baseline_constant_current d == 0 ->
  exists p, next (generate_procedure_regcyclev3 index r t) (generate_procedure_diagcyclev3 cap d) = (p, None) /\
    parameterised (regcycle_v3_writes index r ++ diagnostic_writes cap d three_diagnostics) t p.
Proof.
  intros T V C H. apply (finish two_loops (regcycle_v3_expects ++ diagnostic_expects three_diagnostics) _ (fun t => next (generate_procedure_regcyclev3 index r t) (generate_procedure_diagcyclev3 cap d))).
  - apply (documented_seq two_loops always); [apply doc_v3; exact V | apply doc_diag_v3 | vm_compute; reflexivity | vm_compute; reflexivity | intros; exact Logic.I].
  - destruct T as [->|[->| ->]]; apply loops_found; vm_compute; reflexivity.
  - destruct T as [->|[->| ->]]; (apply Forall_app; split; repeat (apply Forall_cons; [found|]); apply Forall_nil).
  - destruct T as [->|[->| ->]]; vm_compute; reflexivity.
  - apply Forall_app. split; values_exist C H.
Qed.
Lemma whole_driving index r cap d file name : discharge_cutoff_voltage r < charge_cutoff_voltage r -> charge_constant_current_1 r <= charge_constant_current_2 r ->
  wave_file file name -> ~ charge_constant_current_1 r == 0 -> ~ HPPC_baseline_constant_current d == 0 ->
  exists p, next (generate_procedure_drivingv1 index r file template_driving) (generate_procedure_diagcyclev3 cap d) = (p, None) /\
    parameterised (driving_writes index r name ++ diagnostic_writes cap d three_diagnostics) template_driving p.
Proof.
  intros V R W C H. apply (finish (fun p => (64 < length p)%nat) (driving_expects ++ diagnostic_expects three_diagnostics) _ (fun t => next (generate_procedure_drivingv1 index r file t) (generate_procedure_diagcyclev3 cap d))).
  - apply (documented_seq _ always); [apply doc_driving; assumption | apply doc_diag_v3 | vm_compute; reflexivity | vm_compute; reflexivity | intros; exact Logic.I].
  - apply Nat.ltb_lt. vm_compute. reflexivity.
  - apply Forall_app. split; repeat (apply Forall_cons; [found|]); apply Forall_nil.
  - vm_compute; reflexivity.
  - apply Forall_app. split; values_exist C H.
Qed.

(** ** Charging: the first charge step is written and then replaced *)
Inductive leaves : list instr -> list writes -> Prop :=
| lv_nil : leaves [] []
| lv_skip i prog D : leaves prog D -> leaves (i :: prog) D
| lv_put i v prog D w : i_if i = None -> i_act i = Put (w_place w) v -> i_step i = w_step w -> puts_clear prog (w_step w) (w_place w) = true ->
    ends_key (w_place w) = true -> (forall y, v = Ok y -> w_is w y) -> leaves prog D -> leaves (i :: prog) (w :: D).
Lemma leaves_read prog D : leaves prog D -> forall p p', run prog p = (p', None) -> Forall (fun w => exists v, reads p' (w_step w) (w_place w) v /\ w_is w v) D.
Proof.
  induction 1 as [|i prog D H IH|i v prog D w G A S C K Y H IH]; intros p p' R; [constructor| |]; cbn [run] in R; destruct (exec i p) as [p1 [e|]] eqn:X; try discriminate.
  - exact (IH _ _ R).
  - constructor; [|exact (IH _ _ R)]. unfold exec in X. rewrite G, A in X. destruct v as [y|]; [|discriminate].
    destruct (step_put p (i_step i) (w_place w) y) as [p2|] eqn:P; [|discriminate]. injection X as ->.
    exists y. split; [|auto]. apply reads_get. rewrite (run_frame _ _ _ _ _ _ R C), <- S. eapply step_put_same; [|exact P].
    destruct (ends_key_spec _ K) as (pre & s & ->). destruct pre; discriminate.
Qed.
Lemma leaves_app a D b E : leaves a D -> leaves b E -> forallb (fun w => puts_clear b (w_step w) (w_place w)) D = true -> leaves (a ++ b) (D ++ E).
Proof.
  intros H L. induction H as [|i prog D H IH|i v prog D w G A S C K Y H IH]; intros F; cbn [app]; [exact L | constructor; auto|].
  cbn [forallb] in F. apply andb_true_iff in F as (F1 & F2). eapply lv_put; eauto. unfold puts_clear in *. rewrite forallb_app, C, F1. reflexivity.
Qed.
Lemma implements_leaves prog E D : implements prog E D -> tidy prog = true -> leaves prog D.
Proof.
  induction 1 as [|i f prog E D x A S F H IH|i v prog E D w A S F Y H IH]; intros T; [constructor| |]; cbn [tidy] in T; apply andb_true_iff in T as (T1 & T2).
  - constructor. auto.
  - rewrite A in T1. apply andb_true_iff in T1 as (Tg & T1). apply andb_true_iff in T1 as (K & Cl). eapply lv_put; eauto.
    + destruct (i_if i); [discriminate | reflexivity].
    + unfold puts_clear. rewrite forallb_forall in *. intros j J. specialize (Cl j J). destruct (i_act j) as [q f|q m r f|q u]; auto. cbn [place_of] in Cl.
      rewrite S in Cl. unfold clear in *. rewrite Nat.eqb_sym. destruct (negb (w_step w =? i_step j)%nat); [reflexivity|]. cbn in *. apply apartb_iff, apart_sym, apartb_iff. exact Cl.
Qed.
Fixpoint prefixb (a b : place) : bool := match a, b with [], _ => true | k :: a, l :: b => key_eqb k l && prefixb a b | _, [] => false end.
Lemma prefixb_apart a : forall b q, prefixb a b = true -> apartb a q = true -> apartb b q = true.
Proof.
  induction a as [|k a IH]; intros [|l b] [|m q] P A; try discriminate. cbn [prefixb apartb] in *. apply andb_true_iff in P as (E & P). apply key_eqb_iff in E as <-.
  destruct (key_eqb k m); [eapply IH; eauto | reflexivity].
Qed.
Definition covers (D : list (nat * place)) (prog : list instr) : bool :=
  forallb (fun i => match i_act i with Put q _ => existsb (fun '(n, r) => Nat.eqb (i_step i) n && prefixb r q) D | _ => true end) prog.
Lemma covers_clear D prog n q : covers D prog = true -> (forall r, In (n, r) D -> apart r q) -> puts_clear prog n q = true.
Proof.
  unfold covers, puts_clear. rewrite !forallb_forall. intros C H i I. specialize (C i I). destruct (i_act i) as [r f|r m r2 f|r v]; auto.
  apply existsb_exists in C as ((m & s) & J & P). apply andb_true_iff in P as (E & P). apply Nat.eqb_eq in E. unfold clear.
  destruct (Nat.eqb_spec (i_step i) n) as [<-|]; [|reflexivity]. cbn. eapply prefixb_apart; [exact P|]. apply apartb_iff. apply H. rewrite E. exact J.
Qed.
Lemma next_run (g h : steps -> steps * option exn) prog p :
  (forall q, run prog p = (q, None) -> g q = h q) -> next (run prog p) g = next (run prog p) h.
Proof. intros E. destruct (run prog p) as [q [e|]] eqn:R; cbn [next]; [reflexivity|]. apply E. reflexivity. Qed.
Section Charging.
Variables (index : Z) (r0 : reg_param) (c4 soc_limit : Q) (file name : string) (limits : list Q).
Let r := charging_params c4 soc_limit r0.
Let pa := at_step 0 (initial_rest index) ++ at_step 1 (resistance r0) ++ at_step 28 (charge_v3 r).
Let pb := at_step 28 (wave_prog name).
Let pc := at_step 32 (discharge_base r ++ loop_part (diagnostic_start_cycle r)) ++ at_step 60 (charge_v3 r).
Let pd := at_step 60 (wave_prog name).
Let pe := at_step 64 (discharge_base r ++ loop_part (diagnostic_interval r)) ++ at_step 93 (storage_v3 r).
Definition charging_prog : list instr := pa ++ pb ++ pc ++ pd ++ pe.
Lemma charging_run p : discharge_cutoff_voltage r0 < charge_cutoff_voltage r0 -> wave_file file name -> (60 < length p)%nat -> two_loops p ->
  generate_procedure_chargingv1 index r0 c4 soc_limit file limits p = run (charging_prog ++ [below_upper 29 limits; below_upper 61 limits]) p.
Proof.
  intros V W L (L1 & L2). apply reads_get in L1, L2. unfold generate_procedure_chargingv1, demand. apply Qlt_bool_iff in V. rewrite V.
  fold r. fold pa. unfold charging_prog. rewrite <- !app_assoc. rewrite (run_app pa). apply next_run. intros q1 R1.
  pose proof (run_length _ _ _ _ R1) as N1.
  assert (A1 : step_get q1 35 StepType = Ok (VText "Loop 1")) by (rewrite (run_frame _ _ _ _ _ _ R1); [exact L1 | vm_compute; reflexivity]).
  assert (A2 : step_get q1 67 StepType = Ok (VText "Loop 2")) by (rewrite (run_frame _ _ _ _ _ _ R1); [exact L2 | vm_compute; reflexivity]).
  clear R1 L1 L2. rewrite (wave_run 28 file name) by (try lia; assumption). fold pb. rewrite (run_app pb). apply next_run. intros q2 R2.
  pose proof (run_length _ _ _ _ R2) as N2.
  assert (B1 : step_get q2 35 StepType = Ok (VText "Loop 1")) by (rewrite (run_frame _ _ _ _ _ _ R2); [exact A1 | vm_compute; reflexivity]).
  assert (B2 : step_get q2 67 StepType = Ok (VText "Loop 2")) by (rewrite (run_frame _ _ _ _ _ _ R2); [exact A2 | vm_compute; reflexivity]).
  clear R2 A1 A2. rewrite (resolve_run 35 (VText "Loop 1")) by (first [exact B1 | vm_compute; reflexivity]).
  change (resolve 35 (VText "Loop 1") (at_step 32 (discharge_v2 r) ++ at_step 60 (charge_v3 r))) with pc. rewrite (run_app pc). apply next_run. intros q3 R3.
  pose proof (run_length _ _ _ _ R3) as N3.
  assert (D2 : step_get q3 67 StepType = Ok (VText "Loop 2")) by (rewrite (run_frame _ _ _ _ _ _ R3); [exact B2 | vm_compute; reflexivity]).
  clear R3 B1 B2. rewrite (wave_run 60 file name) by (try lia; assumption). fold pd. rewrite (run_app pd). apply next_run. intros q4 R4.
  assert (F2 : step_get q4 67 StepType = Ok (VText "Loop 2")) by (rewrite (run_frame _ _ _ _ _ _ R4); [exact D2 | vm_compute; reflexivity]).
  rewrite (resolve_run 67 (VText "Loop 2")) by (first [exact F2 | vm_compute; reflexivity]). reflexivity.
Qed.
End Charging.
Lemma leaves_skips a b D : leaves b D -> leaves (a ++ b) D.
Proof. intros L. induction a as [|i a IH]; [exact L | constructor; exact IH]. Qed.
Lemma writes_at_app k A B : writes_at k (A ++ B) = writes_at k A ++ writes_at k B.
Proof. apply map_app. Qed.
Lemma tail_left k c4 soc r : leaves (at_step k (charge_v3 (charging_params c4 soc r))) (writes_at k (tail_of_charge r c4)).
Proof.
  unfold charge_v3, at_step. rewrite app_assoc, map_app. apply leaves_skips. fold (at_step k (charge_rest (charging_params c4 soc r))).
  destruct (charge_parts (charging_params c4 soc r)) as (_ & B). apply (implements_shift k) in B. eapply implements_leaves; [exact B|].
  rewrite tidy_shift. vm_compute. reflexivity.
Qed.
Lemma shifted_left k prog E D : implements prog E D -> tidy prog = true -> leaves (at_step k prog) (writes_at k D).
Proof. intros H T. apply (implements_shift k) in H. eapply implements_leaves; [exact H|]. rewrite tidy_shift. exact T. Qed.
Lemma charging_left index r c4 soc name : leaves (charging_prog index r c4 soc name) (charging_writes index r c4 name).
Proof.
  unfold charging_prog, charging_writes, cycles_writes. rewrite !(writes_at_app _ (tail_of_charge r c4)), <- !app_assoc.
  apply leaves_app; [eapply shifted_left; [apply rest_ok | vm_compute; reflexivity] | | vm_compute; reflexivity].
  apply leaves_app; [eapply shifted_left; [apply resistance_ok | vm_compute; reflexivity] | | vm_compute; reflexivity].
  apply leaves_app; [apply tail_left | | vm_compute; reflexivity].
  apply leaves_app; [eapply shifted_left; [apply wave_ok | vm_compute; reflexivity] | | vm_compute; reflexivity].
  apply leaves_app; [eapply shifted_left; [apply (loop_ok (charging_params c4 soc r)) | vm_compute; reflexivity] | | vm_compute; reflexivity].
  apply leaves_app; [apply tail_left | | vm_compute; reflexivity].
  apply leaves_app; [eapply shifted_left; [apply wave_ok | vm_compute; reflexivity] | | vm_compute; reflexivity].
  apply leaves_app; [eapply shifted_left; [apply (loop_ok (charging_params c4 soc r)) | vm_compute; reflexivity] | | vm_compute; reflexivity].
  eapply shifted_left; [apply (storage_ok first_end (charging_params c4 soc r)) | vm_compute; reflexivity].
Qed.
Lemma charging_succeeds index r c4 soc name t : t = template_v4 \/ t = template_v5 -> snd (run (charging_prog index r c4 soc name) t) = None.
Proof. intros [->| ->]; vm_compute; reflexivity. Qed.
Lemma whole_charging index r c4 soc file name limits cap d t : t = template_v4 \/ t = template_v5 -> discharge_cutoff_voltage r < charge_cutoff_voltage r ->
  wave_file file name -> limits <> [] -> (forall l x, In l limits -> closest 3 (charge_cutoff_voltage r) (VNum x) -> l < x) -> ~ HPPC_baseline_constant_current d == 0 ->
  exists p, next (generate_procedure_chargingv1 index r c4 soc file limits t) (generate_procedure_diagcyclev3 cap d) = (p, None) /\
    parameterised (charging_writes index r c4 name ++ diagnostic_writes cap d three_diagnostics) t p.
Proof.
  intros T V W NE LB H.
  assert (TL : two_loops t) by (destruct T as [->| ->]; apply loops_found; vm_compute; reflexivity).
  assert (LN : (60 < length t)%nat) by (destruct T as [->| ->]; apply Nat.ltb_lt; vm_compute; reflexivity).
  rewrite (charging_run index r c4 soc file name limits t V W LN TL), run_app.
  pose proof (charging_succeeds index r c4 soc name t T) as SU. destruct (run (charging_prog index r c4 soc name) t) as [p1 e1] eqn:R. cbn [snd] in SU. subst e1. cbn [next].
  pose proof (leaves_read _ _ (charging_left index r c4 soc name) _ _ R) as DOC.
  assert (CH : changes_only (places 0 (charging_writes index r c4 name)) t p1).
  { split; [eapply run_length; eauto|]. intros n q A v. rewrite !reads_get. rewrite (run_frame _ _ _ _ _ _ R); [tauto|].
    eapply covers_clear; [|exact A]. vm_compute. reflexivity. }
  assert (UP : forall k, k = 28%nat \/ k = 60%nat -> exists x, step_get p1 (k + 1) (EndField 0 "Value") = Ok (VNum x) /\ closest 3 (charge_cutoff_voltage r) (VNum x)).
  { intros k K. assert (I : In (sets (k + 1) (first_end "Value") (closest 3 (charge_cutoff_voltage r))) (charging_writes index r c4 name)).
    { unfold charging_writes, cycles_writes. do 2 (apply in_or_app; right). apply in_or_app; left. destruct K as [->| ->].
      - apply in_or_app; left. right. left. reflexivity.
      - do 2 (apply in_or_app; right). apply in_or_app; left. right. left. reflexivity. }
    rewrite Forall_forall in DOC. destruct (DOC _ I) as (v & G & (x & z & -> & M)). exists x. split; [apply reads_get; exact G | exists x, z; auto]. }
  assert (CK : forall n x rest, step_get p1 n (EndField 0 "Value") = Ok (VNum x) -> closest 3 (charge_cutoff_voltage r) (VNum x) -> run (below_upper n limits :: rest) p1 = run rest p1).
  { intros n x rest G M. cbn [run]. unfold exec, below_upper. cbn [i_if i_act i_step]. rewrite G. cbn [bind limit_below].
    assert (A : forallb (fun l => Qlt_bool l x) limits = true) by (apply forallb_forall; intros l I; apply Qlt_bool_iff; apply LB; assumption).
    destruct limits; [congruence|]. rewrite A. reflexivity. }
  destruct (UP 28%nat) as (x & G & M); [auto|]. rewrite (CK _ _ _ G M). destruct (UP 60%nat) as (y & G2 & M2); [auto|]. rewrite (CK _ _ _ G2 M2). cbn [run next].
  (* the diagnostic cycles *)
  assert (J : disjoint (steps_of_D (charging_writes index r c4 name)) (steps_of_E (diagnostic_expects three_diagnostics) ++ steps_of_D (diagnostic_writes cap d three_diagnostics)) = true) by (vm_compute; reflexivity).
  assert (N : forall n, In n (steps_of_E (diagnostic_expects three_diagnostics) ++ steps_of_D (diagnostic_writes cap d three_diagnostics)) -> ~ In n (steps_of_D (charging_writes index r c4 name))).
  { intros n I I2. exact (disjoint_spec _ _ _ J I2 I). }
  assert (X : exists p, generate_procedure_diagcyclev3 cap d t = (p, None) /\ parameterised (diagnostic_writes cap d three_diagnostics) t p).
  { apply (finish always (diagnostic_expects three_diagnostics)); [apply doc_diag_v3 | exact Logic.I | | | values_exist H H].
    - destruct T as [->| ->]; repeat (apply Forall_cons; [found|]); apply Forall_nil.
    - destruct T as [->| ->]; vm_compute; reflexivity. }
  destruct X as (p0 & X & _). destruct (doc_diag_v3 cap d t p0 None Logic.I X) as (_ & (B & _) & _ & _). specialize (B eq_refl). destruct B as (BE & BD).
  destruct (generate_procedure_diagcyclev3 cap d p1) as [p2 e2] eqn:R2. destruct (doc_diag_v3 cap d p1 p2 e2 Logic.I R2) as (A2 & B2 & C2 & _).
  assert (E2 : e2 = None).
  { apply B2. rewrite !Forall_forall in *. split.
    - intros e I. destruct (BE e I) as (v & G3 & S3). exists v. split; [|exact S3]. apply (changes_elsewhere _ _ _ _ _ _ CH); [|exact G3].
      apply N. apply in_app_iff. left. apply (in_map x_step). exact I.
    - intros w I. destruct (BD w I) as ((dd & G3) & S3). split; [|exact S3]. exists dd. apply (changes_elsewhere _ _ _ _ _ _ CH); [|exact G3].
      apply N. apply in_app_iff. right. apply (in_map w_step). exact I. }
  subst e2. specialize (C2 eq_refl). exists p2. split; [reflexivity|]. split.
  - destruct CH as (L1 & CH). destruct A2 as (L2 & A2). split; [congruence|]. intros n q Z v.
    assert (PL : places 0 (charging_writes index r c4 name ++ diagnostic_writes cap d three_diagnostics) = places 0 (charging_writes index r c4 name) ++ places 0 (diagnostic_writes cap d three_diagnostics)) by (apply map_app).
    rewrite (CH n q), (A2 n q); [tauto| |]; intros s I; apply Z; rewrite PL; apply in_app_iff; auto.
  - apply Forall_app. split; [|exact C2]. rewrite Forall_forall in *. intros w I. destruct (DOC w I) as (v & G3 & S3). exists v. split; [|exact S3].
    apply (changes_elsewhere _ _ _ _ _ _ A2); [|exact G3]. intros I2. apply (N (w_step w)); [apply in_app_iff; right; exact I2 | apply (in_map w_step); exact I].
Qed.

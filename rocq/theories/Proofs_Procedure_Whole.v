(** Diagnostics, waveform steps, and the procedures made from the shipped templates. *)
From Verif Require Import Py Num Model_Text Spec_Numeral Model_Procedure Spec_Procedure Proofs_Strings Proofs_Text Proofs_Procedure Proofs_Procedure_Docs Proofs_Procedure_Gen.
From Verif Require Import Template_V2 Template_V3 Template_V4 Template_V5 Template_Driving.
From Coq Require Import Permutation.

(** ** Diagnostic cycles *)
Definition diag_prog (cap : Q) (d : diag_param) (s : list (nat * nat * nat)) : list instr :=
  flat_map (fun '(a, b, c) => at_step a (reset_v2 cap d) ++ at_step b (hppc_v2 cap d) ++ at_step c (rpt_v2 cap d)) s.
Lemma diag_ok cap d s : implements (diag_prog cap d s) (diagnostic_expects s) (diagnostic_writes cap d s).
Proof.
  unfold diag_prog, diagnostic_expects, diagnostic_writes. induction s as [|((a, b), c) s IH]; cbn [flat_map]; [constructor|].
  apply implements_app; [|exact IH]. apply implements_app; [apply implements_shift, reset_ok|].
  apply implements_app; [apply implements_shift, hppc_ok | apply implements_shift, rpt_ok].
Qed.
Lemma doc_diag_v2 cap d : documented always (diagnostic_expects two_diagnostics) (diagnostic_writes cap d two_diagnostics) 0 (add_procedure_diagcyclev2 cap d).
Proof.
  apply documented_prog with (prog := diag_prog cap d two_diagnostics); [apply diag_ok | vm_compute; reflexivity | vm_compute; reflexivity|].
  intros p _. reflexivity.
Qed.
Lemma doc_diag_v3 cap d : documented always (diagnostic_expects three_diagnostics) (diagnostic_writes cap d three_diagnostics) 0 (generate_procedure_diagcyclev3 cap d).
Proof.
  apply documented_prog with (prog := diag_prog cap d three_diagnostics); [apply diag_ok | vm_compute; reflexivity | vm_compute; reflexivity|].
  intros p _. reflexivity.
Qed.

(** ** Waveform steps *)
Lemma free_char c s : free_of c s -> char_free c s.
Proof.
  unfold free_of. induction s as [|d s IH]; intros F; [reflexivity|]. apply char_free_cons. cbn [list_ascii_of_string In] in F. split; [intros ->; tauto | apply IH; tauto].
Qed.
Lemma split_two c a : forall b, str_split (String c "") (a ++ String c b) = str_split (String c "") a ++ str_split (String c "") b.
Proof.
  remember (String.length a) as n eqn:L. revert a L. induction n as [n IH] using lt_wf_ind. intros a L b.
  destruct (contains (String c "") a) eqn:C.
  - assert (X : exists a1 a2, a = (a1 ++ String c a2)%string /\ char_free c a1).
    { clear - C. induction a as [|d a IH]; [discriminate|]. destruct (ascii_dec d c) as [->|N]; [exists ""%string, a; split; reflexivity|].
      cbn [contains] in C. destruct IH as (a1 & a2 & -> & F).
      - destruct (contains (String c "") a) eqn:Ca; [reflexivity|]. rewrite orb_false_r in C. cbn [prefix] in C. destruct (ascii_dec c d); [congruence | discriminate].
      - exists (String d a1), a2. split; [reflexivity|]. apply char_free_cons. auto. }
    destruct X as (a1 & a2 & -> & F).
    replace ((a1 ++ String c a2) ++ String c b)%string with (a1 ++ String c (a2 ++ String c b))%string
      by (rewrite app_assoc_s; reflexivity).
    rewrite (str_split_char c a1 (a2 ++ String c b)), (str_split_char c a1 a2) by exact F. cbn [app]. f_equal. apply (IH (String.length a2)); [|reflexivity].
    subst n. rewrite app_length_s. cbn [String.length]. lia.
  - rewrite str_split_char by exact C. rewrite (str_split_none _ a) by exact C. reflexivity.
Qed.
Lemma last_app {A} (l m : list A) d : m <> [] -> last (l ++ m) d = last m d.
Proof. intros N. induction l as [|x l IH]; [reflexivity|]. cbn [app last]. destruct (l ++ m) eqn:E; [apply app_eq_nil in E as (_ & E); congruence | exact IH]. Qed.
Lemma last_split c a b : last (str_split (String c "") (a ++ String c b)) ""%string = last (str_split (String c "") b) ""%string.
Proof. rewrite split_two. apply last_app. apply str_split_nonempty. Qed.
Lemma mwf_no_dot e : lower e = "mwf"%string -> char_free "." e.
Proof.
  intros H. destruct e as [|a [|b [|c [|d e]]]]; cbn [lower] in H; try discriminate; injection H as A B C; try discriminate.
  apply char_free_cons. split; [intros ->; discriminate|]. apply char_free_cons. split; [intros ->; discriminate|]. apply char_free_cons. split; [intros ->; discriminate|]. reflexivity.
Qed.
Lemma wave_file_ok file name : wave_file file name ->
  lower (last (str_split "." file) ""%string) = "mwf"%string /\ wave_name file = name /\ (String.length name < 25)%nat.
Proof.
  intros (dir & ext & -> & L & N & F1 & F2 & D). apply free_char in F1, F2. pose proof (mwf_no_dot _ L) as FE.
  assert (FD : char_free "." dir).
  { destruct D as [->|(d & -> & F)]; [reflexivity|]. apply free_char in F. apply char_free_app. split; [exact F | reflexivity]. }
  assert (E : (dir ++ name ++ "." ++ ext)%string = ((dir ++ name) ++ String "." ext)%string) by (rewrite app_assoc_s; reflexivity).
  rewrite E. split; [|split; [|exact N]].
  - rewrite (last_split "." (dir ++ name) ext), str_split_none by exact FE. exact L.
  - unfold wave_name. rewrite str_split_char by (apply char_free_app; auto). cbn [hd]. unfold basename.
    destruct D as [->|(d & -> & _)].
    + cbn [String.append]. rewrite str_split_none by exact F2. reflexivity.
    + replace ((d ++ "/") ++ name)%string with (d ++ String "/" name)%string by (rewrite app_assoc_s; reflexivity).
      rewrite (last_split "/" d name), str_split_none by exact F2. reflexivity.
Qed.
Definition wave_prog (name : string) : list instr :=
  firstn 8 wave_fields ++ [a_put 0 StepValue (Ok (VText name))].
Lemma wave_ok name : implements (wave_prog name) [] (wave_writes name).
Proof. repeat line; intros y Y; injection Y as <-; reflexivity. Qed.
Lemma wave_run n file name p : (n < length p)%nat -> wave_file file name -> insert_maccor_waveform n file p = run (at_step n (wave_prog name)) p.
Proof.
  intros L W. destruct (wave_file_ok _ _ W) as (A & B & C). unfold insert_maccor_waveform, make_step.
  apply Nat.ltb_lt in L. rewrite L, A, B. apply Nat.ltb_lt in C. rewrite C. cbn [String.eqb andb].
  change (String.eqb "mwf" "mwf") with true. cbn [andb].
  unfold wave_prog, at_step. rewrite map_app, run_app.
  change wave_fields with (firstn 8 wave_fields ++ [a_is 0 StepType "FastWave"]) at 1. rewrite map_app, run_app.
  fold (at_step n (firstn 8 wave_fields)).
  assert (T : tidy (at_step n (firstn 8 wave_fields)) = true) by (rewrite tidy_shift; vm_compute; reflexivity).
  destruct (run (at_step n (firstn 8 wave_fields)) p) as [p1 [e|]] eqn:R; cbn [next]; [reflexivity|].
  destruct (tidy_run _ _ _ _ T R) as (_ & I). specialize (I eq_refl).
  apply Forall_inv in I as (w & [= <-] & G). cbn [shift i_step a_put] in G.
  cbn [map run]. unfold exec at 1. cbn [shift i_if i_act i_step a_is]. rewrite G. cbn [bind asserted text_is]. rewrite String.eqb_refl. cbn [asserted].
  cbn [map run]. unfold shift at 1. cbn [a_put i_step i_if i_act]. rewrite Nat.add_0_r. reflexivity.
Qed.
Lemma doc_wave n file name : wave_file file name ->
  documented (fun p => (n < length p)%nat) [] (wave_writes name) n (insert_maccor_waveform n file).
Proof.
  intros W. eapply documented_eq; [apply (documented_run (wave_prog name)); [apply wave_ok | vm_compute; reflexivity | vm_compute; reflexivity]|].
  intros p L. apply wave_run; assumption.
Qed.

(** ** Driving *)
Definition driving_prog (index : Z) (r : reg_param) (name : string) : list instr :=
  at_step 0 (initial_rest index) ++ at_step 1 (resistance r) ++ at_step 28 (charge_v3 r) ++ at_step 32 (wave_prog name) ++
  at_step 60 (charge_v3 r) ++ at_step 64 (wave_prog name) ++ at_step 93 (storage_v3 r).
Lemma run_next_length (f : steps -> steps * option exn) (g h : steps -> steps * option exn) prog p :
  (forall q, length q = length p -> g q = h q) -> next (run prog p) g = next (run prog p) h.
Proof. intros E. destruct (run prog p) as [q [e|]] eqn:R; cbn [next]; [reflexivity|]. apply E. eapply run_length; eauto. Qed.
Lemma driving_run index r file name p : discharge_cutoff_voltage r < charge_cutoff_voltage r -> charge_constant_current_1 r <= charge_constant_current_2 r ->
  wave_file file name -> (64 < length p)%nat -> generate_procedure_drivingv1 index r file p = run (driving_prog index r name) p.
Proof.
  intros V C W L. unfold generate_procedure_drivingv1, demand. apply Qlt_bool_iff in V. apply Qle_bool_iff in C. rewrite V, C.
  transitivity (run (driving_prog index r name ++ [same_upper 28; same_upper 60]) p).
  - replace (driving_prog index r name ++ [same_upper 28; same_upper 60]) with
      ((at_step 0 (initial_rest index) ++ at_step 1 (resistance r) ++ at_step 28 (charge_v3 r)) ++ at_step 32 (wave_prog name) ++
       at_step 60 (charge_v3 r) ++ at_step 64 (wave_prog name) ++ (at_step 93 (storage_v3 r) ++ [same_upper 28; same_upper 60]))
      by (unfold driving_prog; rewrite <- !app_assoc; reflexivity).
    rewrite (run_app (at_step 0 (initial_rest index) ++ at_step 1 (resistance r) ++ at_step 28 (charge_v3 r))).
    apply (run_next_length (fun p => (p, None))). intros q1 L1. rewrite (wave_run 32 file name) by (try lia; assumption). rewrite run_app.
    apply (run_next_length (fun p => (p, None))). intros q2 L2. rewrite (run_app (at_step 60 _)).
    apply (run_next_length (fun p => (p, None))). intros q3 L3. rewrite (wave_run 64 file name) by (try lia; assumption). rewrite run_app.
    reflexivity.
  - apply (upper_checked _ _ (charge_cutoff_voltage r)); [vm_compute; reflexivity | ..]; unfold driving_prog; do 2 (apply in_or_app; right).
    + apply in_or_app; left. exact (charge_second 28 r).
    + apply in_or_app; left. exact (charge_upper 28 r).
    + do 2 (apply in_or_app; right). apply in_or_app; left. exact (charge_second 60 r).
    + do 2 (apply in_or_app; right). apply in_or_app; left. exact (charge_upper 60 r).
Qed.
Lemma doc_driving index r file name : discharge_cutoff_voltage r < charge_cutoff_voltage r -> charge_constant_current_1 r <= charge_constant_current_2 r ->
  wave_file file name -> documented (fun p => (64 < length p)%nat) driving_expects (driving_writes index r name) 0 (generate_procedure_drivingv1 index r file).
Proof.
  intros V C W. eapply documented_perm.
  - apply documented_prog with (prog := driving_prog index r name) (E := needs_at 0 rest_expects ++ needs_at 1 resistance_expects ++ needs_at 28 charge_v3_E ++ needs_at 32 [] ++ needs_at 60 charge_v3_E ++ needs_at 64 [] ++ needs_at 93 (storage_expects first_end))
      (D := writes_at 0 (rest_writes index) ++ writes_at 1 (resistance_writes r) ++ writes_at 28 (charge_v3_D r) ++ writes_at 32 (wave_writes name) ++
         writes_at 60 (charge_v3_D r) ++ writes_at 64 (wave_writes name) ++ writes_at 93 (storage_writes first_end r)).
    + apply implements_app; [apply implements_shift, rest_ok|]. apply implements_app; [apply implements_shift, resistance_ok|].
      apply implements_app; [apply implements_shift, charge_v3_ok'|]. apply implements_app; [apply implements_shift, wave_ok|].
      apply implements_app; [apply implements_shift, charge_v3_ok'|]. apply implements_app; [apply implements_shift, wave_ok|].
      apply implements_shift, storage_ok.
    + vm_compute; reflexivity.
    + vm_compute; reflexivity.
    + intros p L. apply driving_run; assumption.
  - unfold driving_expects. do 2 (apply Permutation_app; [reflexivity|]). apply Permutation_app; [apply Permutation_map, perm_E|]. cbn [needs_at map app].
    apply Permutation_app; [apply Permutation_map, perm_E | reflexivity].
  - unfold driving_writes. do 2 (apply Permutation_app; [reflexivity|]). apply Permutation_app; [apply Permutation_map, perm_D|]. apply Permutation_app; [reflexivity|].
    apply Permutation_app; [apply Permutation_map, perm_D | reflexivity].
Qed.

(** ** One generator after another, on different steps *)
Definition steps_of_E (E : list expects) : list nat := map x_step E.
Definition steps_of_D (D : list writes) : list nat := map w_step D.
Definition disjoint (a b : list nat) : bool := forallb (fun n => negb (existsb (Nat.eqb n) b)) a.
Lemma disjoint_spec a b n : disjoint a b = true -> In n a -> ~ In n b.
Proof.
  unfold disjoint. rewrite forallb_forall. intros D A B. specialize (D n A). apply negb_true_iff in D.
  assert (existsb (Nat.eqb n) b = true) by (apply existsb_exists; exists n; split; [exact B | apply Nat.eqb_refl]). congruence.
Qed.
Lemma changes_elsewhere D p p' n q v : changes_only (places 0 D) p p' -> ~ In n (steps_of_D D) -> reads p n q v <-> reads p' n q v.
Proof.
  intros (_ & C) N. apply C. intros r I. exfalso. apply N. unfold places in I. apply in_map_iff in I as (w & [= <- <-] & I). apply in_map_iff. exists w. auto.
Qed.
Lemma untouched_step D p p' n : changes_only (places 0 D) p p' -> ~ In n (steps_of_D D) -> nth_error p' n = nth_error p n.
Proof.
  intros C N. pose proof (fun v => changes_elsewhere D p p' n [] v C N) as X. unfold reads in X.
  destruct (nth_error p n) as [s|] eqn:A.
  - destruct (X s) as (Y & _). destruct Y as (t & T & I); [exists s; split; [reflexivity | constructor]|]. inversion I; subst. exact T.
  - destruct (nth_error p' n) as [s|] eqn:B; [|reflexivity]. destruct (X s) as (_ & Y). destruct Y as (t & T & _); [exists s; split; [reflexivity | constructor]|]. discriminate.
Qed.
Lemma documented_seq (pre1 pre2 : steps -> Prop) E1 D1 E2 D2 f g :
  documented pre1 E1 D1 0 f -> documented pre2 E2 D2 0 g -> disjoint (steps_of_D D1) (steps_of_E E2 ++ steps_of_D D2) = true ->
  disjoint (steps_of_E E1 ++ steps_of_D D1) (steps_of_D D2) = true ->
  (forall p, pre2 p) -> documented pre1 (E1 ++ E2) (D1 ++ D2) 0 (fun p => next (f p) g).
Proof.
  intros F G J J2 Q p p' e P1 R. destruct (f p) as [p1 e1] eqn:Rf. destruct (F p p1 e1 P1 Rf) as (A & B & C & U).
  assert (N : forall n, In n (steps_of_E E2 ++ steps_of_D D2) -> ~ In n (steps_of_D D1)).
  { intros n I I2. exact (disjoint_spec _ _ _ J I2 I). }
  assert (X : forall x, In x E2 -> expected p1 0 x <-> expected p 0 x).
  { intros x I. unfold expected. cbn [Nat.add]. split; intros (v & V & W); exists v; split; auto.
    - apply (changes_elsewhere D1 p p1); auto. apply N. apply in_app_iff. left. apply (in_map x_step). exact I.
    - apply (changes_elsewhere D1 p p1); auto. apply N. apply in_app_iff. left. apply (in_map x_step). exact I. }
  assert (AllE : Forall (expected p1 0) E2 <-> Forall (expected p 0) E2).
  { rewrite !Forall_forall. split; intros H x I; apply X; auto. }
  assert (AllD : Forall (fun w => assignable p1 (0 + w_step w) (w_place w) /\ w_if w) D2 <-> Forall (fun w => assignable p (0 + w_step w) (w_place w) /\ w_if w) D2).
  { rewrite !Forall_forall. assert (Y : forall x, In x D2 -> assignable p1 (0 + w_step x) (w_place x) <-> assignable p (0 + w_step x) (w_place x)).
    { intros x I. unfold assignable. cbn [Nat.add]. split; intros (v & V); exists v.
      - apply (changes_elsewhere D1 p p1); auto. apply N. apply in_app_iff. right. apply (in_map w_step). exact I.
      - apply (changes_elsewhere D1 p p1); auto. apply N. apply in_app_iff. right. apply (in_map w_step). exact I. }
    split; intros H x I; destruct (H x I); split; auto; apply Y; auto. }
  assert (PL : places 0 (D1 ++ D2) = places 0 D1 ++ places 0 D2) by (unfold places; apply map_app).
  destruct e1 as [er|]; cbn [next] in R.
  - injection R as <- <-. split; [|split; [|split]].
    + destruct A as (L & A). split; [exact L|]. intros n q Z. apply A. intros r I. apply Z. rewrite PL. apply in_app_iff. auto.
    + split; [discriminate|]. rewrite !Forall_app. intros ((X1 & _) & (Y1 & _)). exfalso. destruct B as (_ & B). specialize (B (conj X1 Y1)). discriminate.
    + discriminate.
    + intros x I T W. apply in_app_iff in I as [I|I]; [exact (U x I T W)|].
      apply (untouched_step D1 p p1); [exact A|]. apply N. apply in_app_iff. left. apply (in_map x_step). exact I.
  - destruct (G p1 p' e (Q p1) R) as (A2 & B2 & C2 & U2). specialize (C eq_refl). destruct B as (B & _). specialize (B eq_refl). destruct B as (BE & BD).
    split; [|split; [|split]].
    + destruct A as (L & A). destruct A2 as (L2 & A2). split; [congruence|]. intros n q Z v. rewrite (A n q), (A2 n q); [tauto| |].
      * intros r I. apply Z. rewrite PL. apply in_app_iff. auto.
      * intros r I. apply Z. rewrite PL. apply in_app_iff. auto.
    + rewrite B2, !Forall_app, AllE, AllD. tauto.
    + intros Z. apply Forall_app. split; [|auto]. rewrite Forall_forall in *. intros w W. destruct (C w W) as (v & V & M). exists v. split; [|exact M].
      apply (changes_elsewhere D2 p1 p'); [exact A2 | | exact V]. apply (disjoint_spec _ _ _ J2). apply in_app_iff. right. apply (in_map w_step). exact W.
    + intros x I T W. apply in_app_iff in I as [I|I]; [rewrite Forall_forall in BE; elim W; auto|].
      rewrite (U2 x I T); [|rewrite (X x I); exact W]. apply (untouched_step D1 p p1); [exact A|]. apply N. apply in_app_iff. left. apply (in_map x_step). exact I.
Qed.

(** ** The shipped templates *)
Definition dictb (p : steps) (n : nat) (q : place) : bool := match step_get p n (removelast q) with Ok (VDict _) => true | _ => false end.
Lemma dictb_ok p n q : dictb p n q = true -> assignable p n q.
Proof. unfold dictb, assignable. intros H. destruct (step_get p n (removelast q)) as [[| | |d|]|] eqn:G; try discriminate. exists d. apply reads_get. exact G. Qed.
Lemma all_assignable p D : forallb (fun w => dictb p (w_step w) (w_place w)) D = true -> Forall w_if D -> Forall (fun w => assignable p (0 + w_step w) (w_place w) /\ w_if w) D.
Proof. rewrite forallb_forall, !Forall_forall. intros H I w W. split; [apply dictb_ok, H, W | apply I, W]. Qed.
Lemma finish pre E D f template : documented pre E D 0 f -> pre template -> Forall (expected template 0) E ->
  forallb (fun w => dictb template (w_step w) (w_place w)) D = true -> Forall w_if D -> exists p, f template = (p, None) /\ parameterised D template p.
Proof.
  intros H P X Y Z. destruct (f template) as [p e] eqn:F. destruct (H template p e P F) as (A & B & C & _).
  assert (E0 : e = None) by (apply B; split; [exact X | apply all_assignable; assumption]). subst e.
  exists p. split; [reflexivity|]. split; [exact A | exact (C eq_refl)].
Qed.
Lemma read_text p n q t : step_get p n q = Ok (VText t) -> reads p n q (VText t).
Proof. apply reads_get. Qed.
Definition textb (p : steps) (n : nat) (q : place) (t : string) : bool := match step_get p n q with Ok (VText u) => String.eqb u t | _ => false end.
Lemma textb_ok p n q t : textb p n q t = true -> step_get p n q = Ok (VText t).
Proof. unfold textb. destruct (step_get p n q) as [[|u| | |]|]; try discriminate. intros E. apply String.eqb_eq in E. congruence. Qed.
Ltac found := eexists; split; [apply reads_get; vm_compute; reflexivity|]; cbn [x_is]; first [reflexivity | eexists; reflexivity | intros ? ?; discriminate].
Ltac all_found := cbn [needs_at map app regcycle_v2_expects regcycle_v3_expects cycles_expects charge_expects charge_expects_v3 discharge_expects loop_expects storage_expects
   resistance_expects rest_expects step_is end_is x_step x_place x_is]; repeat (apply Forall_cons; [found|]); apply Forall_nil.

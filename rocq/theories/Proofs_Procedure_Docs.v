(** The insert_ helpers do what Spec_Procedure documents. *)
From Verif Require Import Py Num Model_Text Spec_Numeral Model_Procedure Spec_Procedure Proofs_Text Proofs_Procedure.
From Coq Require Import Permutation.

(** ** Values *)
Lemma rounded_closest d x y : (0 <= d)%Z -> rounded d x = Ok y -> closest d x y.
Proof.
  intros D [= <-]. assert (P : ~ inject_Z (10 ^ d) == 0).
  { intros E. change 0 with (inject_Z 0) in E. apply (proj1 (inject_Z_injective _ _)) in E. pose proof (Z.pow_pos_nonneg 10 d ltac:(lia) D) as P. rewrite E in P. discriminate P. }
  eexists _, (round_even (x * inject_Z (10 ^ d))). split; [reflexivity|]. split.
  - rewrite Qmult_comm. apply Qmult_div_r. exact P.
  - apply round_even_near.
Qed.
Lemma closest_eq d x x' v : x == x' -> closest d x v -> closest d x' v.
Proof. intros E (y & z & A & B & C). exists y, z. rewrite E in C. auto. Qed.
Lemma two_digits_of z : (0 <= z < 100)%Z -> digits2 (two z) z.
Proof.
  intros R. assert (A : forallb (fun n => if list_eq_dec ascii_dec (list_ascii_of_string (two (Z.of_nat n))) (map digit_sign [n / 10; n mod 10]%nat) then true else false) (seq 0 100) = true)
    by (vm_compute; reflexivity).
  rewrite forallb_forall in A. specialize (A (Z.to_nat z)). rewrite in_seq in A. specialize (A ltac:(lia)).
  rewrite Z2Nat.id in A by lia. destruct (list_eq_dec _ _ _) as [E|]; [|discriminate].
  set (n := Z.to_nat z) in *. assert (z = Z.of_nat n) by (unfold n; lia).
  exists [n / 10; n mod 10]%nat. split; [split; [|exact E] | split; [reflexivity|]].
  - constructor; [apply Nat.div_lt_upper_bound; lia|]. constructor; [apply Nat.mod_upper_bound; lia | constructor].
  - cbn [place_value length]. change (10 ^ Z.of_nat 1)%Z with 10%Z. change (10 ^ Z.of_nat 0)%Z with 1%Z.
    pose proof (Nat.div_mod n 10 ltac:(lia)). lia.
Qed.
Lemma hms_clock s : clock_time (hms s) (s mod 86400).
Proof.
  unfold hms. cbv zeta. pose proof (Z.mod_pos_bound s 86400 ltac:(lia)) as B. set (t := (s mod 86400)%Z) in *.
  assert (H : (0 <= t / 3600 < 24)%Z) by (split; [apply Z.div_pos; lia | apply Z.div_lt_upper_bound; lia]).
  pose proof (Z.mod_pos_bound (t / 60) 60 ltac:(lia)) as M. pose proof (Z.mod_pos_bound t 60 ltac:(lia)) as S0.
  exists (two (t / 3600)), (two (t / 60 mod 60)), (two (t mod 60)), (t / 3600)%Z, (t / 60 mod 60)%Z, (t mod 60)%Z.
  split; [reflexivity|]. repeat (split; [apply two_digits_of; lia|]). split; [lia|].
  replace (t / 3600)%Z with (t / 60 / 60)%Z by (rewrite Z.div_div by lia; reflexivity).
  pose proof (Z.div_mod t 60 ltac:(lia)). pose proof (Z.div_mod (t / 60) 60 ltac:(lia)). lia.
Qed.
Lemma hms_time s : time_of_day s (VText (hms s)).
Proof. exists (hms s). split; [reflexivity | apply hms_clock]. Qed.
Lemma seconds_about x x' y : x == x' -> seconds x = Ok y -> about x' y.
Proof. intros E [= <-]. exists (round_even x). split; [|apply hms_time]. unfold nearest. rewrite <- E. apply round_even_near. Qed.
Lemma seconds_whole x y : seconds_down x = Ok y -> whole x y.
Proof.
  intros [= <-]. exists (Qfloor x). split; [|apply hms_time]. split; [apply Qfloor_le|].
  pose proof (Qlt_floor x) as U. rewrite inject_Z_plus in U. exact U.
Qed.
Lemma over_ok a b c : (exists y, seconds_over a b c = Ok y) <-> ~ b == 0.
Proof.
  unfold seconds_over. destruct (Qeq_bool b 0) eqn:E.
  - apply Qeq_bool_iff in E. split; [intros (y & Y); discriminate | contradiction].
  - split; [intros _ Z; apply Qeq_bool_iff in Z; congruence | intros _; eexists; reflexivity].
Qed.
Lemma over_about a b c x y : a / b - c == x -> seconds_over a b c = Ok y -> about x y.
Proof. unfold seconds_over. destruct (Qeq_bool b 0); [discriminate|]. apply seconds_about. Qed.
Lemma seconds_int z y : seconds (inject_Z z) = Ok y -> time_of_day z y.
Proof. unfold seconds. rewrite (round_even_int _ z) by reflexivity. intros [= <-]. apply hms_time. Qed.
Lemma text_is_iff t v : Ok (text_is t v) = Ok true <-> is_text t v.
Proof.
  unfold is_text, text_is. destruct v; split; try discriminate; intros E; injection E as E; [apply String.eqb_eq in E; congruence|].
  rewrite E, String.eqb_refl. reflexivity.
Qed.
Lemma true_ok {A} (x : A) : (exists y, Ok x = Ok y) <-> True.
Proof. split; [auto | intros _; exists x; reflexivity]. Qed.

Ltac value := intros y Y;
  first [ apply rounded_closest in Y; [|lia]; first [exact Y | eapply closest_eq; [|exact Y]; field]
        | eapply over_about; [|exact Y]; try reflexivity; field; auto
        | injection Y as <-; reflexivity
        | eapply seconds_about; [|exact Y]; try reflexivity; field
        | apply seconds_whole; exact Y ].
Ltac line :=
  first [ apply im_nil
        | eapply im_is; [reflexivity | reflexivity | intros v; apply text_is_iff |]
        | eapply im_put; [reflexivity | reflexivity | first [apply true_ok | apply over_ok] | |] ].
Lemma resistance_ok r : implements (resistance r) resistance_expects (resistance_writes r).
Proof. repeat line. value. Qed.
Lemma rest_ok i : implements (initial_rest i) rest_expects (rest_writes i).
Proof. repeat line. intros y Y. apply seconds_int in Y. exact Y. Qed.
Lemma over0_about a b x y : a / b == x -> seconds_over a b 0 = Ok y -> about x y.
Proof. intros E. apply over_about. unfold Qminus. change (- 0) with 0. rewrite Qplus_0_r. exact E. Qed.
Lemma charge_parts r :
  implements (charge_first r) (firstn 3 charge_expects) (firstn 2 (charge_writes_v2 r)) /\
  implements (charge_rest r) (skipn 3 charge_expects) (skipn 2 (charge_writes_v2 r)).
Proof.
  split.
  - repeat line.
    + value.
    + intros y Y. eapply over0_about; [|exact Y]. reflexivity.
  - repeat line; value.
Qed.
Lemma charge_v2_ok r : implements (charge_v2 r) charge_expects (charge_writes_v2 r).
Proof.
  destruct (charge_parts r) as (A & B). rewrite <- (firstn_skipn 3 charge_expects), <- (firstn_skipn 2 (charge_writes_v2 r)).
  apply implements_app; assumption.
Qed.
Definition not_4_4_expects : expects := {| x_step := 0; x_place := second_end "Value"; x_is := fun v => forall q, v = VNum q -> ~ q == 44 # 10 |}.
Lemma charge_v3_ok r : exists E D, Permutation E charge_expects_v3 /\ Permutation D (charge_writes_v3 r) /\ implements (charge_v3 r) E D.
Proof.
  destruct (charge_parts r) as (A & B).
  exists (firstn 3 charge_expects ++ [not_4_4_expects] ++ skipn 3 charge_expects),
    (firstn 2 (charge_writes_v2 r) ++ [sets 0 (second_end "Value") (closest 3 (charge_cutoff_voltage r))] ++ skipn 2 (charge_writes_v2 r)).
  split; [|split].
  - unfold charge_expects_v3. rewrite <- (firstn_skipn 3 charge_expects) at 3. rewrite <- app_assoc. apply Permutation_app_head. apply Permutation_app_comm.
  - unfold charge_writes_v3. rewrite <- (firstn_skipn 2 (charge_writes_v2 r)) at 3. cbn [app]. apply Permutation_sym, Permutation_middle.
  - apply implements_app; [exact A|]. apply implements_app; [|exact B].
    eapply im_is; [reflexivity | reflexivity | |].
    + intros v. cbn [x_is not_4_4_expects]. unfold not_4_4. destruct v; try (split; [intros _ x X; discriminate | reflexivity]). split.
      * intros E x [= <-] Z. apply Qeq_bool_iff in Z. rewrite Z in E. discriminate.
      * intros E. specialize (E q eq_refl). destruct (Qeq_bool q (44 # 10)) eqn:Z; [apply Qeq_bool_iff in Z; contradiction | reflexivity].
    + repeat line. value.
Qed.
Lemma storage_ok e r : implements (storage e r) (storage_expects e) (storage_writes e r).
Proof. repeat line; try value. intros y Y. apply (seconds_int 720) in Y. exact Y. Qed.
Lemma reset_ok cap d : implements (reset_v2 cap d) reset_expects (reset_writes cap d).
Proof. repeat line; value. Qed.
Lemma hppc_ok cap d : implements (hppc_v2 cap d) hppc_expects (hppc_writes cap d).
Proof. repeat line; value. Qed.
Lemma rpt_part_ok n cap d x : implements (rpt_part n cap d x) (rpt_expects1 n) (rpt_writes1 n cap d x).
Proof. repeat line; value. Qed.
Lemma rpt_ok cap d : implements (rpt_v2 cap d) rpt_expects (rpt_writes cap d).
Proof. repeat apply implements_app; apply rpt_part_ok. Qed.

(** ** Helpers without conditions *)
Definition always (p : steps) : Prop := True.
Lemma doc_rest n i : documented always rest_expects (rest_writes i) n (insert_initialrest_regcyclev3 n i).
Proof. apply documented_run; [apply rest_ok | reflexivity | reflexivity]. Qed.
Lemma doc_resistance n r : documented always resistance_expects (resistance_writes r) n (insert_resistance_regcyclev2 n r).
Proof. apply documented_run; [apply resistance_ok | reflexivity | reflexivity]. Qed.
Lemma doc_charge_v2 n r : documented always charge_expects (charge_writes_v2 r) n (insert_charge_regcyclev2 n r).
Proof. apply documented_run; [apply charge_v2_ok | vm_compute; reflexivity | vm_compute; reflexivity]. Qed.
Lemma doc_charge_v3 n r : documented always charge_expects_v3 (charge_writes_v3 r) n (insert_charge_regcyclev3 n r).
Proof.
  destruct (charge_v3_ok r) as (E & D & PE & PD & I). eapply documented_perm; [|exact PE | exact PD].
  apply documented_run; [exact I | vm_compute; reflexivity | vm_compute; reflexivity].
Qed.
Lemma doc_storage_v2 n r : documented always (storage_expects OnlyEnd) (storage_writes OnlyEnd r) n (insert_storage_regcyclev2 n r).
Proof. apply documented_run; [apply storage_ok | vm_compute; reflexivity | vm_compute; reflexivity]. Qed.
Lemma doc_storage_v3 n r : documented always (storage_expects first_end) (storage_writes first_end r) n (insert_storage_regcyclev3 n r).
Proof. apply documented_run; [apply storage_ok | vm_compute; reflexivity | vm_compute; reflexivity]. Qed.
Lemma doc_reset n cap d : documented always reset_expects (reset_writes cap d) n (insert_reset_cyclev2 n cap d).
Proof. apply documented_run; [apply reset_ok | vm_compute; reflexivity | vm_compute; reflexivity]. Qed.
Lemma doc_hppc n cap d : documented always hppc_expects (hppc_writes cap d) n (insert_hppc_cyclev2 n cap d).
Proof. apply documented_run; [apply hppc_ok | vm_compute; reflexivity | vm_compute; reflexivity]. Qed.
Lemma doc_rpt n cap d : documented always rpt_expects (rpt_writes cap d) n (insert_rpt_cyclev2 n cap d).
Proof. apply documented_run; [apply rpt_ok | vm_compute; reflexivity | vm_compute; reflexivity]. Qed.

(** ** The loop after a discharge *)
Definition unguarded (i : instr) : instr := {| i_step := i_step i; i_if := None; i_act := i_act i |}.
Definition resolve1 (n : nat) (v : val) (i : instr) : list instr :=
  if Nat.eqb (i_step i) n then match i_if i with Some t => if text_is t v then [unguarded i] else [] | None => [i] end else [i].
Definition resolve (n : nat) (v : val) (prog : list instr) : list instr := flat_map (resolve1 n v) prog.
Lemma resolve_run n v prog : forall p, step_get p n StepType = Ok v -> puts_clear prog n StepType = true -> run prog p = run (resolve n v prog) p.
Proof.
  induction prog as [|i prog IH]; intros p G C; [reflexivity|]. pose proof C as C'. cbn [puts_clear forallb] in C. apply andb_true_iff in C as (C1 & C2).
  change (resolve n v (i :: prog)) with (resolve1 n v i ++ resolve n v prog). rewrite run_app.
  assert (S1 : run [i] p = run (resolve1 n v i) p).
  { unfold resolve1. destruct (Nat.eqb_spec (i_step i) n) as [<-|]; [|reflexivity]. destruct i as [m [t|] a]; [|reflexivity].
    cbn [i_if i_step] in *. cbn [run]. unfold exec. cbn [i_if i_step i_act]. change [K "StepType"] with StepType. rewrite G.
    destruct (text_is t v); reflexivity. }
  rewrite <- S1. cbn [run]. destruct (exec i p) as [p1 [er|]] eqn:X; cbn [next]; [reflexivity|]. apply IH; [|exact C2].
  rewrite <- G. eapply (run_frame [i]).
  - cbn [run]. rewrite X. reflexivity.
  - cbn [puts_clear forallb]. rewrite C1. reflexivity.
Qed.
Definition discharge_base (r : reg_param) : list instr := firstn 9 (discharge_v2 r).
Lemma discharge_base_ok r : implements (discharge_base r) discharge_expects (discharge_writes r).
Proof.
  repeat line; try value. eapply im_is; [reflexivity | reflexivity | | apply im_nil].
  intros v. cbn [x_is]. unfold starts_loop. destruct v as [|t|x|d|l]; try (split; [discriminate | intros (z & Z); discriminate]). split.
  - intros [= E]. destruct t as [|a1 [|a2 [|a3 [|a4 t]]]]; cbn [prefix] in E; try discriminate;
      repeat match type of E with (if ?b then _ else _) = true => destruct b as [<-|]; [|discriminate] end; try discriminate.
    exists t. reflexivity.
  - intros (u & [= ->]). cbn. destruct u; reflexivity.
Qed.
Definition loop_part (x : Q) : list instr :=
  [a_is 3 (OnlyEnd "EndType") "Loop Cnt"; a_put 3 (OnlyEnd "Value") (Ok (VNum x))].
Lemma loop_part_ok x : implements (loop_part x) loop_expects (loop_writes x).
Proof. repeat line; value. Qed.
Lemma discharge_clear n r : puts_clear (at_step n (discharge_v2 r)) (n + 3) StepType = true.
Proof.
  unfold puts_clear, discharge_v2, at_step. cbn [map forallb shift i_act i_step a_is a_put if_loop].
  unfold clear. rewrite !orb_true_r. reflexivity.
Qed.
Lemma resolve_discharge n r v : resolve (n + 3) v (at_step n (discharge_v2 r)) =
  at_step n (discharge_base r ++ (if text_is "Loop 1" v then loop_part (diagnostic_start_cycle r) else []) ++ (if text_is "Loop 2" v then loop_part (diagnostic_interval r) else [])).
Proof.
  unfold resolve, discharge_v2, at_step. cbn [map flat_map]. unfold resolve1. cbn [shift i_if i_step a_is a_put if_loop].
  rewrite Nat.eqb_refl.
  assert (E0 : (n + 0 =? n + 3)%nat = false) by (apply Nat.eqb_neq; lia). assert (E1 : (n + 1 =? n + 3)%nat = false) by (apply Nat.eqb_neq; lia).
  rewrite E0, E1. destruct (text_is "Loop 1" v), (text_is "Loop 2" v); reflexivity.
Qed.
Lemma documented_eq (pre : steps -> Prop) E D n f g : documented always E D n g -> (forall p, pre p -> f p = g p) -> documented pre E D n f.
Proof. intros H X p p' e P R. rewrite (X p P) in R. apply (H p p' e Logic.I R). Qed.
Lemma doc_loop n r x t : (t = "Loop 1"%string /\ x = diagnostic_start_cycle r \/ t = "Loop 2"%string /\ x = diagnostic_interval r) ->
  documented (fun p => reads p (n + 3) StepType (VText t)) (discharge_expects ++ loop_expects) (discharge_writes r ++ loop_writes x) n (insert_discharge_regcyclev2 n r).
Proof.
  intros C. apply documented_eq with (g := run (at_step n (discharge_base r ++ loop_part x))).
  - apply documented_run.
    + apply implements_app; [apply discharge_base_ok | apply loop_part_ok].
    + vm_compute; reflexivity.
    + vm_compute; reflexivity.
  - intros p P. apply reads_get in P. unfold insert_discharge_regcyclev2.
    rewrite (resolve_run _ _ _ _ P (discharge_clear n r)), resolve_discharge.
    destruct C as [(-> & ->)|(-> & ->)]; reflexivity.
Qed.
Lemma doc_no_loop n r :
  documented (fun p => ~ reads p (n + 3) StepType (VText "Loop 1") /\ ~ reads p (n + 3) StepType (VText "Loop 2"))
    discharge_expects (discharge_writes r) n (insert_discharge_regcyclev2 n r).
Proof.
  assert (T : tidy (at_step n (discharge_base r)) = true) by (rewrite tidy_shift; vm_compute; reflexivity).
  apply documented_eq with (g := run (at_step n (discharge_base r))).
  - apply documented_run; [apply discharge_base_ok | vm_compute; reflexivity | vm_compute; reflexivity].
  - intros p (P1 & P2). rewrite reads_get in P1, P2. unfold insert_discharge_regcyclev2.
    destruct (step_get p (n + 3) StepType) as [v|er] eqn:G.
    + rewrite (resolve_run _ _ _ _ G (discharge_clear n r)), resolve_discharge.
      assert (F1 : text_is "Loop 1" v = false).
      { destruct v as [|t|x|d|l]; try reflexivity. cbn. apply String.eqb_neq. intros ->. apply P1. reflexivity. }
      assert (F2 : text_is "Loop 2" v = false).
      { destruct v as [|t|x|d|l]; try reflexivity. cbn. apply String.eqb_neq. intros ->. apply P2. reflexivity. }
      rewrite F1, F2. reflexivity.
    + change (discharge_v2 r) with (discharge_base r ++ skipn 9 (discharge_v2 r)). unfold at_step at 1. rewrite map_app, run_app.
      fold (at_step n (discharge_base r)). destruct (run (at_step n (discharge_base r)) p) as [p1 e1] eqn:R.
      destruct e1; [reflexivity|]. exfalso. destruct (tidy_run _ _ _ _ T R) as (I1 & _). destruct I1 as (I1 & _). specialize (I1 eq_refl).
      rewrite Forall_forall in I1. assert (X : holds p (shift n {| i_step := 3; i_if := None; i_act := Is StepType starts_loop |})).
      { apply I1. apply in_map. cbn. tauto. }
      destruct X as (v & X & _). cbn [shift i_step] in X. congruence.
Qed.

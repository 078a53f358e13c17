(** C135, C136: charging waveforms. *)
From Verif Require Import Py Num Model_Text Model_Interp Model_Waveform Model_RapidCharge Spec_Waveform Spec_RapidCharge Proofs_Interp Proofs_Charging Proofs_RapidCharge.
From Verif Require Proofs_Text.
From Coq Require Import Lqa.

(** C135: whatever the rates, every current of the smooth waveform is between the smallest and the largest rate allowed. *)
Theorem C135_smooth_within : forall pchip soc_i soc_f max_rate min_rate rates mesh cs socs, shape_preserving pchip -> spans mesh soc_i soc_f -> min_rate <= max_rate ->
  smooth_currents pchip soc_i soc_f max_rate min_rate rates mesh = Ok (cs, socs) -> length cs = length socs /\ Forall (between min_rate max_rate) cs.
Proof. intros pchip a b hi lo rates mesh cs socs SP S LE H. destruct (smooth_within pchip a b hi lo SP LE rates mesh cs socs S H) as (_ & A & B & _). split; assumption. Qed.
(** C135: the smooth waveform starts at least as high as the first rate, as far as that is allowed. *)
Theorem C135_smooth_start : forall pchip soc_i soc_f max_rate min_rate r rates mesh cs socs, shape_preserving pchip -> through_nodes pchip -> spans mesh soc_i soc_f -> min_rate <= r <= max_rate ->
  smooth_currents pchip soc_i soc_f max_rate min_rate (r :: rates) mesh = Ok (cs, socs) -> exists c, nth_error cs 0 = Some c /\ r <= c.
Proof.
  intros pchip a b hi lo r rates mesh cs socs SP TN S B. pose proof (nodes_inc _ _ _ S) as (NI & _). unfold smooth_currents. rewrite clipped_length, nodes_length.
  destruct (Nat.eqb_spec (Datatypes.S (Datatypes.S (length (r :: rates)))) (Datatypes.S (Datatypes.S (length mesh)))) as [E|]; [|discriminate]. cbn [negb]. destruct mesh as [|m0 [|m1 mesh]]; try discriminate. destruct (pchip _ _ m1) as [e|]; [|discriminate].
  set (start := qmin _ _). set (L := linspace a b soc_points). intros H. match type of H with Ok (?x, ?y) = _ => assert (X : cs = x) by congruence; rewrite X; clear H X end.
  assert (N0 : nth_error L 0 = Some (a + inject_Z (Z.of_nat 0) * ((b - a) / inject_Z (Z.of_nat (soc_points - 1))))) by (apply linspace_nth; unfold soc_points; lia).
  rewrite nth_error_map, N0. cbn [option_map]. eexists. split; [reflexivity|]. set (s := a + _ * _). assert (SE : s == a) by (unfold s; change (inject_Z (Z.of_nat 0)) with 0; ring).
  destruct (TN (nodes a b (m0 :: m1 :: mesh)) (clipped hi lo start (r :: rates)) 0%nat a s (clip lo hi start) NI) as (z & -> & Z); [rewrite nodes_length; lia | rewrite nodes_length, clipped_length; lia | reflexivity | exact SE | reflexivity|].
  rewrite Z. assert (ST : r <= start <= hi).
  { unfold start, qmin, qmax. destruct (Qlt_bool (r - (e - r)) r) eqn:A1; [apply Qlt_bool_iff in A1 | apply Qlt_bool_false in A1];
      match goal with |- context [Qlt_bool ?x hi] => destruct (Qlt_bool x hi) eqn:A2; [apply Qlt_bool_iff in A2 | apply Qlt_bool_false in A2] end; lra. }
  unfold clip. destruct (Qlt_bool start lo) eqn:A1; [apply Qlt_bool_iff in A1; lra|]. destruct (Qlt_bool hi start) eqn:A2; [apply Qlt_bool_iff in A2; lra|]. lra.
Qed.
(** C135: one rate per mesh point gives a smooth waveform; any other number of rates is refused. *)
Theorem C135_number_of_rates : forall pchip soc_i soc_f max_rate min_rate rates mesh, shape_preserving pchip -> spans mesh soc_i soc_f -> min_rate <= max_rate -> rates <> [] ->
  (length rates = length mesh -> exists cs, smooth_currents pchip soc_i soc_f max_rate min_rate rates mesh = Ok (cs, linspace soc_i soc_f soc_points)) /\
  (length rates <> length mesh -> smooth_currents pchip soc_i soc_f max_rate min_rate rates mesh = Err ValueError).
Proof. intros pchip a b hi lo rates mesh SP S LE N. split; [apply smooth_defined; assumption | apply smooth_wrong_number; exact N]. Qed.
(** C135: second by second, both waveforms are equally long; the smooth one stays between the smallest and the largest
    rate allowed; the steps stay between half of the smallest rate given and the largest; the length fits the charge that goes in (the 1000
    points count one interval too many). *)
Theorem C135_uniform : forall pchip fsolve final soc_i soc_f max_rate min_rate u m rates mesh smooth steps secs,
  shape_preserving pchip -> 0 < min_rate <= max_rate -> 0 < u -> 0 <= final <= m -> spans mesh soc_i soc_f -> Forall (between u m) rates ->
  uniform_currents pchip fsolve final soc_i soc_f max_rate min_rate rates mesh = Ok (smooth, steps, secs) ->
  exists n, secs = clock n /\ length smooth = n /\ length steps = n /\ Forall (between min_rate max_rate) smooth /\ Forall (between (u / 2) m) steps /\
    let charge_seconds := 3600 * (soc_f - soc_i) * (1000 # 999) in
    (n <> 0%nat -> charge_seconds / max_rate - (1 # 2) <= inject_Z (Z.of_nat n) <= charge_seconds / min_rate + (1 # 2) /\ charge_seconds / m - (1 # 2) <= inject_Z (Z.of_nat n)).
Proof.
  intros pchip fsolve final a b hi lo u m rates mesh sm st secs SP LE U FM S R H. destruct (uniform_within pchip fsolve final a b hi lo u m SP LE U FM rates mesh S R sm st secs H) as (n & A & B & C & D & E & F).
  exists n. split; [exact A|]. split; [exact B|]. split; [exact C|]. split; [exact D|]. split; [exact E|].
  - intros q NZ. destruct (F NZ) as (F1 & F2 & _).
    assert (T : total a b == q) by (unfold total, q; change (inject_Z (Z.of_nat soc_points) / inject_Z (Z.of_nat (soc_points - 1))) with (1000 # 999); reflexivity).
    rewrite T in F1, F2. split; [exact F1 | exact F2].
Qed.
(** C135: with one rate per mesh point, the waveforms are refused only if they would take different times. *)
Theorem C135_refused : forall pchip fsolve final soc_i soc_f max_rate min_rate u m rates mesh e,
  shape_preserving pchip -> 0 < min_rate <= max_rate -> 0 < u -> 0 <= final <= m -> spans mesh soc_i soc_f -> Forall (between u m) rates -> length rates = length mesh ->
  uniform_currents pchip fsolve final soc_i soc_f max_rate min_rate rates mesh = Err e -> e = assertion.
Proof.
  intros pchip fsolve final a b hi lo u m rates mesh e SP LE U FM S R L H. destruct (uniform_defined pchip fsolve final a b hi lo u m SP LE U FM rates mesh S R L) as (n & ts & us & _ & _ & _ & A & B).
  destruct (Z.eq_dec n (round_even us)) as [E|E]; [destruct (A E) as (sm & st & X); congruence | rewrite (B E) in H; congruence].
Qed.
(** Finding (C135): the rates are documented as those of the windows, but one rate per window is always refused (there has to be one per
    mesh point, so one more), except for a single window. *)
Theorem C135_rate_per_window_refuted : forall pchip fsolve final soc_i soc_f max_rate min_rate rates mesh r, (2 <= length rates)%nat -> length mesh = S (length rates) ->
  uniform_currents pchip fsolve final soc_i soc_f max_rate min_rate rates mesh <> Ok r.
Proof.
  intros pchip fsolve final a b hi lo rates mesh r L E H. unfold uniform_currents in H. destruct (negb _); [discriminate|]. unfold both_currents in H.
  destruct (get_input_current_multistep_soc_as_x final a b rates mesh) as [ms|]; [|discriminate]. cbn [bind] in H. destruct (end_time _ _ _); [|discriminate]. cbn [bind] in H.
  rewrite smooth_wrong_number in H; [discriminate | apply shifted_nonempty; destruct rates; [cbn [length] in L; lia | discriminate] | rewrite shifted_length by exact L; lia].
Qed.
(** Finding (C135): at the end, where the last window and the final rate meet, the current is half of the last window's rate
    and a quarter of the final rate. *)
Theorem C135_last_point_refuted : forall final soc_f rates mesh c r, increasing mesh -> (2 <= length mesh)%nat -> last mesh 0 == soc_f -> nth_error rates (length mesh - 2) = Some r ->
  multistep_at final soc_f rates mesh soc_f = Ok c -> c == r / 2 + final / 4.
Proof.
  intros final b rates mesh c r I L E N H. unfold multistep_at in H. destruct (windows rates mesh b) as [w|] eqn:W; [|discriminate]. cbn [bind] in H. injection H as <-.
  rewrite (windows_last mesh rates b w r I L (Qeq_sym _ _ E) N W). rewrite (heaviside_zero (b - last mesh 0)) by lra. rewrite (heaviside_zero (b - b)) by lra. field.
Qed.

(** C136: played second by second, the file charges at the nominal capacity times the currents of the type asked for, to five
    decimals, never above the largest rate allowed; every segment has the cutoff voltage less the offset as limit. *)
Theorem C136_file : forall pchip fsolve max_rate min_rate u m p segs, shape_preserving pchip -> 0 < min_rate <= max_rate -> 0 < u -> proper u m p ->
  insert_charging_parametersv1 pchip fsolve max_rate min_rate p = Ok segs ->
  exists smooth steps secs current, uniform_currents pchip fsolve (rate_4 p) (start_soc p) (fast_soc_limit p) max_rate min_rate (rates_of p) (mesh_of p) = Ok (smooth, steps, secs) /\
    (ch_type p = "smooth"%string /\ current = smooth \/ ch_type p = "step"%string /\ current = steps) /\ Forall2 (plays (nominal_capacity p)) current (expand segs) /\
    Forall (fun c => 0 < c <= max_rate) current /\ (String.length (wave_name p) < 25)%nat /\
    Forall (fun s => sg_limit_mode s = "V"%string /\ sg_limit_value s = cutoff_voltage p - voltage_offset p /\ sg_end_mode s = "V"%string /\ sg_operation s = ">="%string /\ sg_end_value s = 425 # 100) segs.
Proof. exact charge_file. Qed.
(** C136: so no segment charges above the nominal capacity times the largest rate allowed, and the file lasts as long as the waveform. *)
Theorem C136_never_above : forall pchip fsolve max_rate min_rate u m p segs, shape_preserving pchip -> 0 < min_rate <= max_rate -> 0 < u -> proper u m p ->
  insert_charging_parametersv1 pchip fsolve max_rate min_rate p = Ok segs ->
  Forall (fun s => sg_state s = "C"%string /\ exists v, sg_value s = Some v /\ v <= nominal_capacity p * max_rate + (5 # 1000000)) (expand segs).
Proof.
  intros pchip fsolve hi lo u m p segs SP LE U PR H. destruct (charge_file _ _ _ _ _ _ _ _ SP LE U PR H) as (sm & st & secs & l & _ & _ & F & B & _). destruct PR as (_ & _ & _ & _ & CAP & _).
  induction F as [|c s l m' (P1 & _ & v & V & D) F IH]; constructor; [|exact (IH (Forall_inv_tail B))]. split; [exact P1|]. exists v. split; [exact V|].
  apply Qabs_Qle_condition in D. pose proof (Forall_inv B) as (_ & C). cbn beta in C. assert (nominal_capacity p * c <= nominal_capacity p * hi) by (apply Qmult_le_l; assumption). lra.
Qed.
(** C136: a type other than smooth and step, or a long name, is refused. *)
Theorem C136_refused : forall pchip fsolve max_rate min_rate p segs, insert_charging_parametersv1 pchip fsolve max_rate min_rate p = Ok segs ->
  (ch_type p = "smooth"%string \/ ch_type p = "step"%string) /\ (String.length (wave_name p) < 25)%nat.
Proof.
  intros pchip fsolve hi lo p segs. unfold insert_charging_parametersv1. destruct (uniform_currents _ _ _ _ _ _ _ _ _) as [[[sm st] secs]|]; [|discriminate]. cbn [bind].
  destruct (top sm); [|discriminate]. cbn [bind]. destruct (Qlt_bool _ _); [discriminate|]. destruct (top st); [|discriminate]. cbn [bind]. destruct (Qlt_bool _ _); [discriminate|].
  destruct (String.eqb_spec (ch_type p) "smooth") as [K|K]; [|destruct (String.eqb_spec (ch_type p) "step") as [K'|K']; [|discriminate]]; cbn [bind];
    (destruct (top _); [|discriminate]); cbn [bind]; (destruct (Nat.leb_spec 25 (String.length (wave_name p))) as [W|W]; [discriminate|]); intros _; split; auto.
Qed.

(** Non-vacuity: linear interpolation has what is asked of the interpolation; charging by 7/36000 of the capacity less a
    thousandth of that at a rate of 1 is a file of one second. *)
Definition one_second : charge_params :=
  {| ch_type := "step"; start_soc := 1 # 2; rate_1 := 1; rate_2 := 1; rate_3 := 1; rate_4 := 1; soc_1 := (1 # 2) + (2 # 36000); soc_2 := (1 # 2) + (5 # 36000);
     fast_soc_limit := (1 # 2) + (7 # 36000) * (999 # 1000); cutoff_voltage := 44 # 10; voltage_offset := 0; nominal_capacity := 5; wave_name := "PreDiag_step_000001" |}.
Lemma one_second_proper : proper 1 1 one_second.
Proof. repeat split; (reflexivity || discriminate). Qed.
Lemma nearest_one q : 1 # 2 < q -> q < 3 # 2 -> round_even q = 1%Z.
Proof.
  intros A B. pose proof (Proofs_Text.round_even_near q) as R. apply Qabs_Qle_condition in R. assert (L : (0 < round_even q)%Z) by (rewrite Zlt_Qlt; change (inject_Z 0) with 0; lra).
  assert (H : (round_even q < 2)%Z) by (rewrite Zlt_Qlt; change (inject_Z 2) with 2; lra). lia.
Qed.
Lemma one_second_file : exists segs, insert_charging_parametersv1 linear_between (fun _ => 0) 1 (1 # 2) one_second = Ok segs /\ length (expand segs) = 1%nat.
Proof.
  destruct (proper_spans _ _ _ one_second_proper) as (S & R). assert (LE : 0 < 1 # 2 <= 1) by (split; (reflexivity || discriminate)). assert (U : 0 < 1) by reflexivity. assert (FM : 0 <= 1 <= 1) by (split; discriminate).
  destruct (uniform_defined linear_between (fun _ => 0) 1 (start_soc one_second) (fast_soc_limit one_second) 1 (1 # 2) 1 1 linear_shape LE U FM (rates_of one_second) (mesh_of one_second) S R eq_refl)
    as (n & ts & us & (B1 & B2) & (B3 & B4) & N & OK & _).
  assert (T1 : total (start_soc one_second) (fast_soc_limit one_second) / 1 == 7 # 10) by reflexivity.
  assert (T2 : total (start_soc one_second) (fast_soc_limit one_second) / (1 # 2) == 14 # 10) by reflexivity.
  assert (T3 : total (start_soc one_second) (fast_soc_limit one_second) / (1 / 2) == 14 # 10) by reflexivity.
  rewrite T1 in B1, B3. rewrite T2 in B2. rewrite T3 in B4. assert (N1 : n = 1%Z) by (rewrite N; apply nearest_one; lra). destruct (OK ltac:(rewrite N1; symmetry; apply nearest_one; lra)) as (sm & st & UC). rewrite N1 in UC.
  destruct (uniform_within linear_between (fun _ => 0) 1 (start_soc one_second) (fast_soc_limit one_second) 1 (1 # 2) 1 1 linear_shape LE U FM (rates_of one_second) (mesh_of one_second) S R sm st _ UC) as (k & CK & L1 & L2 & F1 & F2 & _).
  assert (K : k = 1%nat) by (apply (f_equal (@length Q)) in CK; unfold clock in CK; rewrite !map_length, !seq_length in CK; symmetry; exact CK). rewrite K in L1, L2. clear CK.
  assert (X : exists segs, insert_charging_parametersv1 linear_between (fun _ => 0) 1 (1 # 2) one_second = Ok segs).
  { unfold insert_charging_parametersv1. fold (rates_of one_second) (mesh_of one_second). change (rate_4 one_second) with 1. rewrite UC. cbn [bind].
    destruct sm as [|x [|x' sm]]; try discriminate L1. destruct st as [|y [|y' st]]; try discriminate L2. pose proof (Forall_inv F1) as (_ & X). pose proof (Forall_inv F2) as (_ & Y). cbn [top largest bind].
    rewrite (proj2 (Qlt_bool_false 1 x) X), (proj2 (Qlt_bool_false 1 y) Y). change (String.eqb (ch_type one_second) "smooth") with false. change (String.eqb (ch_type one_second) "step") with true. cbn [bind top largest].
    change (25 <=? String.length (wave_name one_second))%nat with false. apply generate_defined. intros Z. discriminate Z. }
  destruct X as (segs & X). exists segs. split; [exact X|].
  destruct (charge_file _ _ _ _ _ _ _ _ linear_shape LE U one_second_proper X) as (sm' & st' & secs & l & UC' & C & F & _). change (rate_4 one_second) with 1 in UC'. rewrite UC in UC'. injection UC' as <- <- <-.
  rewrite <- (Proofs_Waveform.F2_len _ _ _ F). destruct C as [(_ & ->)|(_ & ->)]; assumption.
Qed.
Example C136_example : shape_preserving linear_between /\ through_nodes linear_between /\ proper 1 1 one_second /\
  exists segs, insert_charging_parametersv1 linear_between (fun _ => 0) 1 (1 # 2) one_second = Ok segs /\ length (expand segs) = 1%nat.
Proof. split; [exact linear_shape|]. split; [exact linear_nodes|]. split; [exact one_second_proper | exact one_second_file]. Qed.
(** Non-vacuity for C135: the waveforms of that charge. *)
Example C135_example : spans (mesh_of one_second) (start_soc one_second) (fast_soc_limit one_second) /\ Forall (between 1 1) (rates_of one_second) /\
  exists smooth steps, uniform_currents linear_between (fun _ => 0) 1 (start_soc one_second) (fast_soc_limit one_second) 1 (1 # 2) (rates_of one_second) (mesh_of one_second) = Ok (smooth, steps, clock 1).
Proof.
  destruct (proper_spans _ _ _ one_second_proper) as (S & R). split; [exact S|]. split; [exact R|]. assert (LE : 0 < 1 # 2 <= 1) by (split; (reflexivity || discriminate)). assert (U : 0 < 1) by reflexivity.
  destruct one_second_file as (segs & X & L). destruct (charge_file _ _ _ _ _ _ _ _ linear_shape LE U one_second_proper X) as (sm & st & secs & l & UC & C & F & _). change (rate_4 one_second) with 1 in UC.
  assert (FM : 0 <= 1 <= 1) by (split; discriminate).
  destruct (uniform_within linear_between (fun _ => 0) 1 (start_soc one_second) (fast_soc_limit one_second) 1 (1 # 2) 1 1 linear_shape LE U FM (rates_of one_second) (mesh_of one_second) S R sm st _ UC) as (k & CK & L1 & L2 & _).
  exists sm, st. rewrite UC, CK. pose proof (Proofs_Waveform.F2_len _ _ _ F) as LL. destruct C as [(_ & E)|(_ & E)]; rewrite E in LL; replace k with 1%nat by lia; reflexivity.
Qed.
(** Finding (C136): charging ends at 4.25 V whatever the cutoff voltage; with a cutoff of 4.4 V the limit is above it, so the step ends before the
    limit is reached. *)
Theorem C136_end_above_limit_refuted : exists p segs s, proper 1 1 p /\ insert_charging_parametersv1 linear_between (fun _ => 0) 1 (1 # 2) p = Ok segs /\ In s segs /\
  sg_end_mode s = "V"%string /\ sg_operation s = ">="%string /\ sg_end_value s < sg_limit_value s.
Proof.
  destruct one_second_file as (segs & X & L). assert (LE : 0 < 1 # 2 <= 1) by (split; (reflexivity || discriminate)). assert (U : 0 < 1) by reflexivity.
  destruct (charge_file _ _ _ _ _ _ _ _ linear_shape LE U one_second_proper X) as (_ & _ & _ & _ & _ & _ & _ & _ & _ & F). destruct segs as [|s segs]; [discriminate L|].
  exists one_second, (s :: segs), s. pose proof (Forall_inv F) as (_ & A & B & C & D). split; [exact one_second_proper|]. split; [exact X|]. split; [left; reflexivity|]. split; [exact B|]. split; [exact C|]. rewrite A, D. reflexivity.
Qed.

Print Assumptions C135_smooth_within.
Print Assumptions C135_smooth_start.
Print Assumptions C135_number_of_rates.
Print Assumptions C135_uniform.
Print Assumptions C135_refused.
Print Assumptions C135_rate_per_window_refuted.
Print Assumptions C135_last_point_refuted.
Print Assumptions C136_file.
Print Assumptions C136_never_above.
Print Assumptions C136_refused.
Print Assumptions C136_end_above_limit_refuted.

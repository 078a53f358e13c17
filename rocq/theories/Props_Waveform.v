(** C44, C74, C75, C76: waveform files, driving profiles, multistep charging and velocity profiles. *)
From Verif Require Import Py Num Model_Interp Model_Waveform Spec_Waveform Proofs_Waveform Proofs_Charging Proofs_Procedure_Skip.
From Coq Require Import Lqa.

Lemma file_of cfg w l segs : generate_maccor_waveform_file cfg w = Ok segs -> samples_of w l -> exists b, segments_of cfg b (wv_time w) l = Ok segs.
Proof.
  unfold generate_maccor_waveform_file, samples_of. intros H [E|(E & C)]; [rewrite E in H; exists true; exact H | rewrite E, C in H; exists false; exact H].
Qed.
(** C44: played second by second, the file carries the samples in order, scaled so that the
    largest becomes [value_scale], in the direction of their sign; a new segment starts
    exactly where the waveform changes. *)
Theorem C44_file_carries_the_waveform :
  forall cfg w l segs, generate_maccor_waveform_file cfg w = Ok segs -> samples_of w l -> timed w l -> (exists x, In x l /\ ~ x == 0) -> 0 < value_scale cfg ->
  exists peak, is_peak peak l /\ Forall2 (carries peak (value_scale cfg)) l (expand segs) /\
    list_sum (map sg_duration segs) = length l /\ length segs = S (changes l) /\ Forall (fun s => (1 <= sg_duration s)%nat) segs.
Proof.
  intros cfg w l segs H S (L & T) NZ V. destruct (file_of _ _ _ _ H S) as (b & E). destruct (segments_ok _ _ _ _ _ E L T NZ V) as (p & A & B & C & D).
  exists p. split; [exact A|]. split; [exact B|]. split; [rewrite <- expand_length; symmetry; eapply F2_len; exact B|]. split; [exact C | exact D].
Qed.
(** C44: each segment has the limits and end conditions configured for its direction. *)
Theorem C44_limits_by_direction : forall cfg w segs, generate_maccor_waveform_file cfg w = Ok segs -> Forall (limits_kept cfg) segs.
Proof.
  intros cfg w segs H. unfold generate_maccor_waveform_file in H. destruct (wv_power w); [exact (segments_limits _ _ _ _ _ H)|]. destruct (wv_current w); [exact (segments_limits _ _ _ _ _ H) | discriminate].
Qed.
(** C44: segments are in the configured mode, except that a power of zero is given as a current. *)
Theorem C44_control_mode : forall cfg w segs s, generate_maccor_waveform_file cfg w = Ok segs -> In s segs ->
  sg_control s = control_mode cfg \/
  sg_control s = "I"%string /\ control_mode cfg = "P"%string /\ wv_power w <> None /\ exists m, sg_value s = Some m /\ m == 0.
Proof.
  intros cfg w segs s H I. assert (X : exists b times l, segments_of cfg b times l = Ok segs /\ (b = true -> wv_power w <> None)).
  { unfold generate_maccor_waveform_file in H. destruct (wv_power w) as [p|]; [exists true, (wv_time w), p; split; [exact H | discriminate]|].
    destruct (wv_current w) as [c|]; [exists false, (wv_time w), c; split; [exact H | discriminate] | discriminate]. }
  destruct X as (b & times & l & E & B). unfold segments_of in E. destruct (peak_of l) as [p|]; [|discriminate]. cbn [bind] in E. assert (Y : segs = map (to_segment cfg b) (groups times (map (scaled p (value_scale cfg)) l))) by congruence.
  rewrite Y in I. apply in_map_iff in I as ([d v] & <- & _). cbn [to_segment sg_control sg_value].
  destruct b; [|left; reflexivity]. destruct (String.eqb_spec (control_mode cfg) "P") as [P|]; [|left; reflexivity]. destruct v as [x|]; [|left; reflexivity]. cbn [andb].
  destruct (Qeq_bool x 0) eqn:Z; [|left; reflexivity]. right. split; [reflexivity|]. split; [exact P|]. split; [apply B; reflexivity|]. exists (match magnitude (Some x) with Some m => m | None => 0 end).
  split; [reflexivity|]. apply Qeq_bool_iff in Z. cbn [magnitude].
  assert (A : Qabs x * inject_Z (10 ^ 5) == inject_Z 0) by (rewrite Z; reflexivity).
  rewrite (Proofs_Text.round_even_int _ _ A). reflexivity.
Qed.
(** Finding (C44): a waveform of zeros gives a charging segment without a value (0 / 0). *)
Definition module_config : mwf_config :=
  {| control_mode := "P"; value_scale := 1; charge_limit_mode := "V"; charge_limit_value := 42 # 10; discharge_limit_mode := "V"; discharge_limit_value := 27 # 10;
     charge_end_mode := "V"; charge_end_operation := ">="; charge_end_mode_value := 425 # 100; discharge_end_mode := "V"; discharge_end_operation := "<="; discharge_end_mode_value := 25 # 10;
     report_mode := "T"; report_value := 3; range := "A" |}.
Definition seconds (n : nat) : list num := map (fun k => Some (inject_Z (Z.of_nat k))) (seq 0 n).
Theorem C44_resting_waveform_refuted : exists s,
  generate_maccor_waveform_file module_config {| wv_time := seconds 2; wv_power := Some [0; 0]; wv_current := None |} = Ok [s] /\ sg_state s = "C"%string /\ sg_value s = None.
Proof. eexists. split; [vm_compute; reflexivity|]. split; reflexivity. Qed.
(** Finding (C44): the time column is given in seconds, but a segment lasts as many seconds as
    there are samples, whatever their times: this waveform takes 30 seconds, its file 3. *)
Theorem C44_durations_follow_the_times_refuted : exists segs,
  generate_maccor_waveform_file module_config {| wv_time := [Some 0; Some 10; Some 20]; wv_power := Some [1; 2; 3]; wv_current := None |} = Ok segs /\ map sg_duration segs = [1; 1; 1]%nat.
Proof. eexists. split; vm_compute; reflexivity. Qed.
Example wave_case : exists segs, let w := {| wv_time := seconds 5; wv_power := Some [2; 2; -(4); 0; 0]; wv_current := None |} in
  generate_maccor_waveform_file module_config w = Ok segs /\ samples_of w [2; 2; -(4); 0; 0] /\ timed w [2; 2; -(4); 0; 0] /\
  map (fun s => (sg_state s, sg_control s, sg_duration s)) segs = [("C", "P", 2%nat); ("D", "P", 1%nat); ("D", "I", 2%nat)]%string.
Proof.
  eexists. split; [vm_compute; reflexivity|]. split; [left; reflexivity|]. split; [split; [reflexivity|]; intros t I; cbn in I; decompose [or] I; subst; try discriminate; contradiction | vm_compute; reflexivity].
Qed.

(** C74: the file of a driving protocol plays the profile as often as asked, scaled to
    [max_profile_power * power_scaling], with the limits that were asked for, whatever
    was generated before. *)
Theorem C74_driving_profile : forall g calls profile d, (1 <= n_repeats d)%Z -> (exists tp, In tp profile /\ ~ snd tp == 0) -> 0 < max_profile_power d * power_scaling d ->
  exists segs p, snd (insert_driving_parametersv1 (after g calls) profile d) = Ok segs /\ is_peak p (map snd profile) /\
    Forall2 (carries p (max_profile_power d * power_scaling d)) (concat (repeat (map snd profile) (Z.to_nat (n_repeats d)))) (expand segs) /\
    Forall (fun s => (sg_state s = "C"%string -> sg_limit_value s = profile_charge_limit d /\ sg_end_value s = profile_charge_limit d + (5 # 100)) /\
                     (sg_state s = "D"%string -> sg_end_value s = drive_cutoff d - (1 # 10))) segs.
Proof. intros g calls profile d. rewrite calls_independent. exact (driving_ok g profile d). Qed.
Theorem C74_calls_do_not_interfere : forall g calls profile d, snd (insert_driving_parametersv1 (after g calls) profile d) = snd (insert_driving_parametersv1 g profile d).
Proof. intros. rewrite calls_independent. reflexivity. Qed.
(** Finding (C74): the call changes the module's default configuration (1358-1364), so a
    waveform file generated afterwards with the defaults is scaled and limited differently. *)
Definition some_drive : driving_params := {| max_profile_power := 40; power_scaling := 5 # 10; profile_charge_limit := 36 # 10; drive_cutoff := 3; n_repeats := 2 |}.
Theorem C74_defaults_kept_refuted : let w := {| wv_time := seconds 1; wv_power := Some [1]; wv_current := None |} in
  let after_drive := fst (insert_driving_parametersv1 module_config [(0, 1); (1, 2)] some_drive) in
  exists s s', generate_maccor_waveform_file module_config w = Ok [s] /\ generate_maccor_waveform_file after_drive w = Ok [s'] /\
    sg_limit_value s = 42 # 10 /\ sg_limit_value s' = 36 # 10 /\ sg_value s = Some (100000 # 100000) /\ sg_value s' = Some (2000000 # 100000).
Proof. eexists _, _. split; [vm_compute; reflexivity|]. split; [vm_compute; reflexivity|]. repeat split. Qed.
Example drive_case : (1 <= n_repeats some_drive)%Z /\ (exists tp, In tp [(0, 1); (1, -(2))] /\ ~ snd tp == 0) /\ 0 < max_profile_power some_drive * power_scaling some_drive /\
  exists segs, snd (insert_driving_parametersv1 module_config [(0, 1); (1, -(2))] some_drive) = Ok segs /\ map sg_state segs = ["C"; "D"; "C"; "D"]%string.
Proof. split; [discriminate|]. split; [exists (0, 1); split; [left; reflexivity | discriminate]|]. split; [reflexivity|]. eexists. split; vm_compute; reflexivity. Qed.

(** C75: the multistep current at each state of charge. *)
Lemma multistep_rows final soc_i soc_f rates mesh cs socs : get_input_current_multistep_soc_as_x final soc_i soc_f rates mesh = Ok (cs, socs) ->
  (2 <= length mesh)%nat /\ socs = linspace soc_i soc_f soc_points /\ length cs = length socs /\
  forall k s c, nth_error socs k = Some s -> nth_error cs k = Some c -> multistep_at final soc_f rates mesh s = Ok c.
Proof.
  unfold get_input_current_multistep_soc_as_x. destruct mesh as [|a [|b mesh]]; try discriminate. set (L := linspace soc_i soc_f soc_points). destruct (mapM _ L) as [cs'|] eqn:M; [|discriminate]. cbn [bind].
  intros H. assert (cs' = cs) as -> by congruence. assert (L = socs) as <- by congruence. destruct (mapM_nth _ _ _ M) as (N & P). split; [cbn [length]; lia|]. split; [reflexivity|]. split; [exact N|].
  intros k s c S C. destruct (P k s S) as (y & Y & E). congruence.
Qed.
Theorem C75_rate_of_each_window : forall final soc_i soc_f rates mesh cs socs, get_input_current_multistep_soc_as_x final soc_i soc_f rates mesh = Ok (cs, socs) -> increasing mesh -> soc_f <= last mesh 0 ->
  forall k s c i a b r, nth_error socs k = Some s -> nth_error cs k = Some c -> window mesh i a b -> nth_error rates i = Some r -> a < s < b -> c == r.
Proof.
  intros final soc_i soc_f rates mesh cs socs H I F k s c i a b r S C W R B. destruct (multistep_rows _ _ _ _ _ _ _ H) as (_ & _ & _ & P). specialize (P k s c S C).
  unfold multistep_at in P. destruct (windows rates mesh s) as [w|] eqn:E; [|discriminate]. cbn [bind] in P. injection P as <-. rewrite (windows_inside _ _ _ _ _ _ _ _ I W R B E).
  assert (L : b <= last mesh 0).
  { clear - I W. destruct W as (_ & W). revert i W. induction mesh as [|m [|n mesh] IH]; intros i W; [destruct i; discriminate | destruct i as [|i]; cbn in W; try destruct i; discriminate|].
    pose proof (last_above m n mesh I) as LA. destruct i as [|i]; [injection W as <-; exact LA|]. destruct I as (_ & I). exact (IH I i W). }
  rewrite (heaviside_neg (s - last mesh 0)) by lra. ring.
Qed.
Theorem C75_mean_between_windows : forall final soc_i soc_f rates mesh cs socs, get_input_current_multistep_soc_as_x final soc_i soc_f rates mesh = Ok (cs, socs) -> increasing mesh ->
  forall k s c i a b d r r', nth_error socs k = Some s -> nth_error cs k = Some c -> window mesh i a b -> window mesh (S i) b d -> nth_error rates i = Some r -> nth_error rates (S i) = Some r' -> s == b -> c == (r + r') / 2.
Proof.
  intros final soc_i soc_f rates mesh cs socs H I k s c i a b d r r' S C W W' R R' B. destruct (multistep_rows _ _ _ _ _ _ _ H) as (_ & _ & _ & P). specialize (P k s c S C).
  unfold multistep_at in P. destruct (windows rates mesh s) as [w|] eqn:E; [|discriminate]. cbn [bind] in P. injection P as <-. rewrite (windows_boundary _ _ _ _ _ _ _ _ _ _ I W W' R R' B E).
  assert (L : b < last mesh 0).
  { clear - I W'. destruct W' as (Wb & Wd). revert i Wb Wd. induction mesh as [|m [|n mesh] IH]; intros i Wb Wd; [destruct i; discriminate | destruct i as [|i]; cbn in Wb; try destruct i; discriminate|].
    destruct i as [|i]; [|destruct I as (_ & I); exact (IH I i Wb Wd)]. cbn in Wb. injection Wb as <-. destruct mesh as [|p mesh]; [discriminate|]. destruct I as (_ & I).
    pose proof (last_above n p mesh I) as LA. destruct I. change (last (m :: n :: p :: mesh) 0) with (last (n :: p :: mesh) 0). lra. }
  rewrite (heaviside_neg (s - last mesh 0)) by lra. field.
Qed.
(** C75: the current never exceeds the largest rate and is never negative. *)
Theorem C75_never_above_the_rates : forall M final soc_i soc_f rates mesh cs socs, get_input_current_multistep_soc_as_x final soc_i soc_f rates mesh = Ok (cs, socs) -> increasing mesh ->
  0 <= final <= M -> Forall (fun r => 0 <= r <= M) rates -> Forall (fun c => 0 <= c <= M) cs.
Proof.
  intros M final soc_i soc_f rates mesh cs socs H I F R. destruct (multistep_rows _ _ _ _ _ _ _ H) as (L & _ & N & P). apply Forall_forall. intros c IN. apply In_nth_error in IN as (k & C).
  destruct (nth_error socs k) as [s|] eqn:S; [|apply nth_error_None in S; assert (k < length cs)%nat by (apply nth_error_Some; congruence); lia].
  exact (multistep_bound M final soc_f rates mesh s c I L F R (P k s c S C)).
Qed.
(** C75: the times fit the charge: between one state of charge and the next, time times
    rate is the charge that goes in. *)
Theorem C75_times_fit_the_charge : forall final soc_i soc_f rates mesh cs socs, get_input_current_multistep_soc_as_x final soc_i soc_f rates mesh = Ok (cs, socs) ->
  forall k t t' c s s', let times := get_time_vector_from_c_vs_soc socs cs in
  nth_error times k = Some t -> nth_error times (S k) = Some t' -> nth_error cs (S k) = Some c -> ~ c == 0 -> nth_error socs k = Some s -> nth_error socs (S k) = Some s' -> (t' - t) / 3600 * c == s' - s.
Proof.
  intros final soc_i soc_f rates mesh cs socs H k t t' c s s'. destruct (multistep_rows _ _ _ _ _ _ _ H) as (_ & -> & _ & _). cbv zeta. intros A B C D E F.
  eapply (time_matches soc_i soc_f soc_points cs k); eauto. unfold soc_points. lia.
Qed.
(** Finding (C75): the current at the start is half the first rate. *)
Theorem C75_starts_at_the_first_rate_refuted : forall final soc_i soc_f rates mesh cs socs, get_input_current_multistep_soc_as_x final soc_i soc_f rates mesh = Ok (cs, socs) -> increasing mesh ->
  forall c b r, nth_error cs 0 = Some c -> window mesh 0 soc_i b -> nth_error rates 0 = Some r -> c == r / 2.
Proof.
  intros final soc_i soc_f rates mesh cs socs H I c b r C W R. destruct (multistep_rows _ _ _ _ _ _ _ H) as (L & E & _ & P).
  assert (S : nth_error socs 0 = Some (soc_i + inject_Z (Z.of_nat 0) * ((soc_f - soc_i) / inject_Z (Z.of_nat 999)))) by (rewrite E; reflexivity).
  specialize (P 0%nat _ c S C). set (s := soc_i + _ * _) in *. assert (Z : s == soc_i) by (unfold s; change (inject_Z (Z.of_nat 0)) with 0; ring).
  unfold multistep_at in P. destruct (windows rates mesh s) as [w|] eqn:X; [|discriminate]. cbn [bind] in P. injection P as <-. rewrite (windows_first _ _ _ _ _ _ _ I W R Z X).
  destruct mesh as [|m [|n mesh]]; cbn [length] in L; try lia. destruct W as (A & B). injection A as ->. pose proof (last_above soc_i n mesh I) as LA. destruct I as (MN & _).
  rewrite (heaviside_neg (s - last (soc_i :: n :: mesh) 0)) by lra. ring.
Qed.
(** Finding (C75): if the windows reach the final state of charge, rates beyond the windows
    and the final rate have no effect below it. *)
Theorem C75_every_rate_counts_refuted : forall final final' soc_f rates rates' mesh s, firstn (length mesh - 1) rates = firstn (length mesh - 1) rates' -> s < last mesh 0 ->
  forall c, multistep_at final soc_f rates mesh s = Ok c -> exists c', multistep_at final' soc_f rates' mesh s = Ok c' /\ c == c'.
Proof. exact final_unused. Qed.
(** Finding (C75): the check that the windows go up (107) also accepts windows that go down,
    for which none of the rates is used: np.all(...) > 0 only asks that no difference is zero. *)
Theorem C75_windows_checked_refuted : let mesh := [9 # 10; 5 # 10; 1 # 10] in mesh_accepted mesh = true /\ ~ increasing mesh /\ forall r r', exists c, windows [r; r'] mesh (6 # 10) = Ok c /\ c == 0.
Proof. split; [reflexivity|]. split; [intros (A & _); discriminate|]. intros r r'. eexists. split; [reflexivity|]. change (r * 0 * 0 + (r' * 1 * 0 + 0) == 0). ring. Qed.
(** What the check does guarantee. *)
Theorem C75_windows_not_empty : forall mesh, mesh_accepted mesh = true <-> forall i a b, window mesh i a b -> ~ a == b.
Proof.
  intros mesh. unfold mesh_accepted. destruct mesh as [|m mesh]; [split; [intros _ i a b (A & _); destruct i; discriminate | reflexivity]|].
  change (diff (map Some (m :: mesh))) with (None :: diff_from (Some m) (map Some mesh)). cbn [dropna].
  revert m. induction mesh as [|n mesh IH]; intros m.
  - split; [intros _ [|i] a b (A & B); try destruct i; discriminate | reflexivity].
  - cbn [map diff_from nsub dropna forallb]. split.
    + intros H i a b (A & B). apply andb_true_iff in H as (H1 & H2). destruct i as [|i].
      * injection A as <-. injection B as <-. intros E. apply negb_true_iff in H1. assert (X : Qeq_bool (n - m) 0 = true) by (apply Qeq_bool_iff; lra). congruence.
      * exact (proj1 (IH n) H2 i a b (conj A B)).
    + intros H. apply andb_true_iff. split.
      * apply negb_true_iff. destruct (Qeq_bool (n - m) 0) eqn:E; [|reflexivity]. apply Qeq_bool_iff in E. exfalso. apply (H 0%nat m n (conj eq_refl eq_refl)). lra.
      * apply IH. intros i a b (A & B). exact (H (S i) a b (conj A B)).
Qed.
Example rates_case : exists cs socs, let mesh := [1 # 10; 3 # 10; 8 # 10] in get_input_current_multistep_soc_as_x 1 (1 # 10) (8 # 10) [2; 1; 5] mesh = Ok (cs, socs) /\ increasing mesh /\
  8 # 10 <= last mesh 0 /\ exists s, nth_error socs 100 = Some s /\ nth_error cs 100 = Some 2 /\ 1 # 10 < s < 3 # 10.
Proof.
  eexists _, _. cbv zeta. split; [vm_compute; reflexivity|]. split; [cbn; repeat split; reflexivity|]. split; [discriminate|]. eexists. split; [reflexivity|]. split; [reflexivity|]. split; reflexivity.
Qed.

(** C76: velocity to power. *)
Lemma scale_kmph : velocity_scale "kmph" = Ok (1000 / 3600). Proof. reflexivity. Qed.
Lemma scale_mps : velocity_scale "mps" = Ok 1. Proof. reflexivity. Qed.
Lemma scale_mph : velocity_scale "mph" = Ok (1600 / 3600). Proof. reflexivity. Qed.
(** C76: a profile in km/h and the same profile in m/s give the same powers. *)
Theorem C76_units_agree : forall l p, convert_velocity_to_power_waveform "kmph" l = Ok p ->
  exists p', convert_velocity_to_power_waveform "mps" (map (fun tv => (fst tv, snd tv * 1000 / 3600)) l) = Ok p' /\ Forall2 same_row p p'.
Proof.
  intros l p. unfold convert_velocity_to_power_waveform. rewrite scale_kmph, scale_mps. cbn [bind]. apply convert_ext. induction l as [|x l IH]; cbn [map]; constructor; [|exact IH].
  cbn [fst snd]. split; [reflexivity | field].
Qed.
(** C76: a profile in mph is taken as the same profile in m/s with 1600 m for a mile. *)
Theorem C76_miles_of_1600_metres : forall l p, convert_velocity_to_power_waveform "mph" l = Ok p ->
  exists p', convert_velocity_to_power_waveform "mps" (map (fun tv => (fst tv, snd tv * 1600 / 3600)) l) = Ok p' /\ Forall2 same_row p p'.
Proof.
  intros l p. unfold convert_velocity_to_power_waveform. rewrite scale_mph, scale_mps. cbn [bind]. apply convert_ext. induction l as [|x l IH]; cbn [map]; constructor; [|exact IH].
  cbn [fst snd]. split; [reflexivity | field].
Qed.
(** C76: under constant acceleration every sample has the power of the force of inertia,
    rolling resistance and drag at its speed, taken from the battery. *)
Theorem C76_constant_acceleration : forall a b l, (2 <= length l)%nat -> forward l -> Forall (fun tv => snd tv == a * fst tv + b) l ->
  exists p, convert_velocity_to_power_waveform "mps" l = Ok p /\ Forall2 (fun tv q => fst q == fst tv /\ snd q == - force a (snd tv) * snd tv) l p.
Proof.
  intros a b l N W L. unfold convert_velocity_to_power_waveform. rewrite scale_mps. cbn [bind]. set (m := map (fun tv => (fst tv, snd tv * 1)) l).
  assert (LM : linear a b m) by (unfold m, linear; rewrite Forall_map; eapply Forall_impl; [|exact L]; intros [t v] E; cbn [fst snd] in *; rewrite E; ring).
  assert (WM : forward m) by (unfold forward, m in *; rewrite map_map; exact W).
  destruct (inner_linear a b m WM LM) as (F & K). assert (NM : length m = length l) by apply map_length.
  assert (G : exists g, gradient m = Ok g /\ Forall (fun x => x == a) g /\ length g = length m).
  { destruct m as [|x [|y m']]; cbn [length] in NM; try lia. cbn [gradient]. eexists. split; [reflexivity|]. split.
    - constructor; [|exact F]. destruct WM as (WM & _). pose proof (Forall_inv LM) as A1. pose proof (Forall_inv (Forall_inv_tail LM)) as A2. unfold slope. cbn beta in A1, A2. rewrite A1, A2. field. lra.
    - cbn [length] in *. rewrite K by lia. lia. }
  destruct G as (g & -> & FG & LG). cbn [bind]. eexists. split; [reflexivity|]. rewrite NM in LG. unfold m. clear - FG LG. revert g FG LG. induction l as [|[t v] l IH]; intros [|x g] FG LG; try discriminate; cbn [map combine]; [constructor|].
  constructor; [|apply IH; [exact (Forall_inv_tail FG) | cbn [length] in LG; lia]]. split; [reflexivity|]. cbn [fst snd]. rewrite power_force. pose proof (Forall_inv FG) as E. cbn beta in E. unfold force. rewrite E. ring.
Qed.
(** C76: a standing vehicle takes no power. *)
Theorem C76_standing : forall u l p, convert_velocity_to_power_waveform u l = Ok p -> forall k t v q, nth_error l k = Some (t, v) -> v == 0 -> nth_error p k = Some q -> fst q = t /\ snd q == 0.
Proof.
  intros u l p. unfold convert_velocity_to_power_waveform. destruct (velocity_scale u) as [s|]; [|discriminate]. cbn [bind]. destruct (gradient _) as [g|]; [|discriminate]. cbn [bind].
  intros H. match type of H with Ok ?x = _ => assert (E : p = x) by congruence; rewrite E; clear E H p end. intros k. revert g. generalize l. clear l. induction k as [|k IH]; intros [|[t0 v0] l] [|x g] t v q N Z P; try discriminate; cbn [map combine nth_error] in *.
  - cbn [fst snd] in P. injection N as <- <-. injection P as <-. split; [reflexivity|]. cbn [snd]. unfold power_at. rewrite Z. ring.
  - eapply IH; eauto.
Qed.
(** Finding (C76): a mile is taken for 1600 m, so a profile in mph and the same profile in
    km/h (1 mile = 1.609344 km) differ. *)
Theorem C76_miles_refuted : exists p p', convert_velocity_to_power_waveform "mph" [(0, 10); (1, 10)] = Ok p /\ convert_velocity_to_power_waveform "kmph" [(0, 10 * (1609344 # 1000000)); (1, 10 * (1609344 # 1000000))] = Ok p' /\
  ~ Forall2 same_row p p'.
Proof.
  eexists _, _. split; [vm_compute; reflexivity|]. split; [vm_compute; reflexivity|]. intros F. inversion F as [|? ? ? ? (_ & E) _]; subst. vm_compute in E. discriminate.
Qed.
Example velocity_case : forward [(0, 1); (1, 3); (4, 9)] /\ Forall (fun tv => snd tv == 2 * fst tv + 1) [(0, 1); (1, 3); (4, 9)] /\
  exists p, convert_velocity_to_power_waveform "kmph" [(0, 0); (1, 36); (4, 0)] = Ok p /\ length p = 3%nat.
Proof. split; [cbn; repeat split; reflexivity|]. split; [repeat constructor; reflexivity|]. eexists. split; [vm_compute; reflexivity | reflexivity]. Qed.

Print Assumptions C44_file_carries_the_waveform.
Print Assumptions C44_limits_by_direction.
Print Assumptions C44_control_mode.
Print Assumptions C44_resting_waveform_refuted.
Print Assumptions C44_durations_follow_the_times_refuted.
Print Assumptions C74_driving_profile.
Print Assumptions C74_calls_do_not_interfere.
Print Assumptions C74_defaults_kept_refuted.
Print Assumptions C75_rate_of_each_window.
Print Assumptions C75_mean_between_windows.
Print Assumptions C75_never_above_the_rates.
Print Assumptions C75_times_fit_the_charge.
Print Assumptions C75_starts_at_the_first_rate_refuted.
Print Assumptions C75_every_rate_counts_refuted.
Print Assumptions C75_windows_checked_refuted.
Print Assumptions C75_windows_not_empty.
Print Assumptions C76_units_agree.
Print Assumptions C76_miles_of_1600_metres.
Print Assumptions C76_constant_acceleration.
Print Assumptions C76_standing.
Print Assumptions C76_miles_refuted.
